(** Model of a program that uses the public interface of bip0032: it holds values of the
    crate's types and calls the crate's functions on them.  Strings, byte arrays and integers
    are at hand without a call.  Functions that are total in the model and give strings,
    bytes, integers or booleans are left out: they can neither fail nor make a new value. *)
From Verif Require Import Base Str Error32 Version32 Path32 Meta32 Payload32 Curve32 XKey32 Slip10 XKeySpec32.

Section Session.
(** The curve library behind each backend, and that of ed25519. *)
Variable dbg : profile.
Variable E : Library -> ECLib.
Variable D : EdLib.

Notation Cv b := (backend b (E b)).
Notation Ed := (Ed25519DalekBackend D).

Inductive value : Type :=
| VChild (c : N)
| VHChild (h : HardenedChildNumber)
| VPath (p : list N)
| VHPath (p : HardenedDerivationPath)
| VPayload (p : Payload)
| VPrv (b : Library) (x : XPrv (Cv b))
| VPub (b : Library) (x : XPub (Cv b))
| VEdPrv (x : XPrv Ed)
| VEdPub (x : XPub Ed)
| VData.       (* a string or bytes *)

(** secp256k1/mod.rs 20: the curves with [Bip32Curve] *)
Definition bip32_curve (b : Library) : bool := match b with P256 => false | _ => true end.

Inductive call : Type :=
(* path/child.rs 15, 35, 57, 71, 83, 109 *)
| ChildNew (index : N) (hardened : bool)
| ChildFromBytes (bytes : list byte)
| ChildParse (s : str)
| ChildOfHardened (h : HardenedChildNumber)
| HChildNew (index : N)
| HChildTry (c : N)
(* path/mod.rs 27, 38-52, 86, 127, 141, 156, 165; [k] is the child looked at *)
| PathParse (s : str)
| PathOf (cs : list N)
| PathExtend (p : list N) (cs : list N)
| PathChild (p : list N) (k : nat)
| PathOfHardened (p : HardenedDerivationPath)
| HPathParse (s : str)
| HPathTry (p : list N)
| HPathChild (p : HardenedDerivationPath) (k : nat)
(* xkey/payload/mod.rs 59, 71 *)
| PayloadShow (p : Payload)
| PayloadParse (s : str)
(* xkey/core/private.rs 32, 58, 93, 129, 151, 161, 176, 189 *)
| PrvNew (b : Library) (seed : list byte)
| PrvPublic (b : Library) (x : XPrv (Cv b))
| PrvChild (b : Library) (x : XPrv (Cv b)) (c : N)
| PrvPath (b : Library) (x : XPrv (Cv b)) (p : list N)
| PrvEncode (b : Library) (x : XPrv (Cv b)) (v : Version)
| PrvEncodeUnchecked (b : Library) (x : XPrv (Cv b)) (v : Version)
| PrvParse (b : Library) (s : str)
| PrvTry (b : Library) (p : Payload)
(* xkey/core/public.rs 53, 89, 105, 115, 125, 138 *)
| PubChild (b : Library) (x : XPub (Cv b)) (c : N)
| PubPath (b : Library) (x : XPub (Cv b)) (p : list N)
| PubEncode (b : Library) (x : XPub (Cv b)) (v : Version)
| PubEncodeUnchecked (b : Library) (x : XPub (Cv b)) (v : Version)
| PubParse (b : Library) (s : str)
| PubTry (b : Library) (p : Payload)
(* xkey/slip10.rs 55, 154, 201, 215, 263 *)
| SlipNew (b : Library) (seed : list byte)
| SlipChild (b : Library) (x : XPrv (Cv b)) (c : N)
| SlipPath (b : Library) (x : XPrv (Cv b)) (p : list N)
| SlipPubChild (b : Library) (x : XPub (Cv b)) (c : N)
| SlipPubPath (b : Library) (x : XPub (Cv b)) (p : list N)
(* private.rs 32, 58 and slip10.rs 55, 98, 139 on ed25519; ed25519/mod.rs 11, 22 *)
| EdNew (seed : list byte)
| EdPublic (x : XPrv Ed)
| EdSlipNew (seed : list byte)
| EdSlipChild (x : XPrv Ed) (h : HardenedChildNumber)
| EdSlipPath (x : XPrv Ed) (p : HardenedDerivationPath)
| EdFromSlip10 (bytes : list byte)
| EdToSlip10 (bytes : list byte).

(** The values of the crate a call is given. *)
Definition args (c : call) : list value :=
  match c with
  | ChildNew _ _ | ChildFromBytes _ | ChildParse _ | HChildNew _ | PathParse _ | HPathParse _ | PayloadParse _
  | PrvNew _ _ | PrvParse _ _ | PubParse _ _ | SlipNew _ _ | EdNew _ | EdSlipNew _ | EdFromSlip10 _ | EdToSlip10 _ => []
  | ChildOfHardened h => [VHChild h]
  | HChildTry c => [VChild c]
  | PathOf cs => map VChild cs
  | PathExtend p cs => VPath p :: map VChild cs
  | PathChild p _ | HPathTry p => [VPath p]
  | PathOfHardened p | HPathChild p _ => [VHPath p]
  | PayloadShow p | PrvTry _ p | PubTry _ p => [VPayload p]
  | PrvPublic b x | PrvEncode b x _ | PrvEncodeUnchecked b x _ => [VPrv b x]
  | PrvChild b x c | SlipChild b x c => [VPrv b x; VChild c]
  | PrvPath b x p | SlipPath b x p => [VPrv b x; VPath p]
  | PubEncode b x _ | PubEncodeUnchecked b x _ => [VPub b x]
  | PubChild b x c | SlipPubChild b x c => [VPub b x; VChild c]
  | PubPath b x p | SlipPubPath b x p => [VPub b x; VPath p]
  | EdPublic x => [VEdPrv x]
  | EdSlipChild x h => [VEdPrv x; VHChild h]
  | EdSlipPath x p => [VEdPrv x; VHPath p]
  end.

(** What rustc checks: integers are [u32], arrays have their length, and the functions of
    [Bip32Curve] are called on its curves only. *)
Definition typed (c : call) : Prop :=
  match c with
  | ChildNew i _ | HChildNew i => i < 2 ^ 32
  | ChildFromBytes bytes => length bytes = 4%nat
  | EdFromSlip10 bytes => length bytes = 33%nat
  | EdToSlip10 bytes => length bytes = 32%nat
  | PrvEncode b _ v | PrvEncodeUnchecked b _ v | PubEncode b _ v | PubEncodeUnchecked b _ v =>
      bip32_curve b = true /\ as_u32 v < 2 ^ 32
  | PrvChild b _ _ | PrvPath b _ _ | PrvParse b _ | PrvTry b _
  | PubChild b _ _ | PubPath b _ _ | PubParse b _ | PubTry b _ => bip32_curve b = true
  | _ => True
  end.

Definition plain {A : Type} (r : res Error A) : res Error value := res_map (fun _ => VData) r.
Definition nth_value {A : Type} (f : A -> value) (l : list A) (k : nat) : value :=
  match nth_error l k with Some a => f a | None => VData end.
Definition now {A : Type} (f : A -> value) (r : res Error A) : option (res Error value) := Some (res_map f r).

(** The result of a call; [None]: a loop of slip10.rs is still running after [fuel] rounds. *)
Definition run (fuel : nat) (c : call) : option (res Error value) :=
  match c with
  | ChildNew i h => now VChild (child_new i h)
  | ChildFromBytes bytes => now VChild (Ok (child_from_bytes bytes))
  | ChildParse s => now VChild (parse_child_component s)
  | ChildOfHardened h => now VChild (Ok (hc_child h))
  | HChildNew i => now VHChild (hchild_new i)
  | HChildTry c => now VHChild (hchild_try_from c)
  | PathParse s => now VPath (path_parse s)
  | PathOf cs => now VPath (Ok cs)
  | PathExtend p cs => now VPath (Ok (path_extend p cs))
  | PathChild p k => Some (Ok (nth_value VChild p k))
  | PathOfHardened p => now VPath (Ok (hp_inner p))
  | HPathParse s => now VHPath (hpath_parse s)
  | HPathTry p => now VHPath (hpath_try_from p)
  | HPathChild p k => now (fun hs => nth_value VHChild hs k) (hpath_children dbg p)
  | PayloadShow p => Some (plain (payload_show p))
  | PayloadParse s => now VPayload (payload_parse dbg s)
  | PrvNew b seed => now (VPrv b) (xprv_new dbg (Cv b) seed)
  | PrvPublic b x => now (VPub b) (Ok (xprv_public x))
  | PrvChild b x c => now (VPrv b) (xprv_derive_child dbg x c)
  | PrvPath b x p => now (VPrv b) (xprv_derive_path dbg x p)
  | PrvEncode b x v => now VPayload (xprv_encode_with x v)
  | PrvEncodeUnchecked b x v => now VPayload (xprv_encode_unchecked x v)
  | PrvParse b s => now (VPrv b) (xprv_parse dbg (Cv b) s)
  | PrvTry b p => now (VPrv b) (xprv_try_from dbg (Cv b) p)
  | PubChild b x c => now (VPub b) (xpub_derive_child dbg x c)
  | PubPath b x p => now (VPub b) (xpub_derive_path dbg x p)
  | PubEncode b x v => now VPayload (xpub_encode_with x v)
  | PubEncodeUnchecked b x v => now VPayload (Ok (xpub_encode_unchecked x v))
  | PubParse b s => now (VPub b) (xpub_parse dbg (Cv b) s)
  | PubTry b p => now (VPub b) (xpub_try_from dbg (Cv b) p)
  | SlipNew b seed => omap (VPrv b) (new_slip10 dbg fuel (Cv b) seed)
  | SlipChild b x c => omap (VPrv b) (slip10_prv_child fuel x c)
  | SlipPath b x p => omap (VPrv b) (slip10_prv_path fuel x p)
  | SlipPubChild b x c => omap (VPub b) (slip10_pub_child fuel x c)
  | SlipPubPath b x p => omap (VPub b) (slip10_pub_path fuel x p)
  | EdNew seed => now VEdPrv (xprv_new dbg Ed seed)
  | EdPublic x => now VEdPub (Ok (xprv_public x))
  | EdSlipNew seed => omap VEdPrv (new_slip10 dbg fuel Ed seed)
  | EdSlipChild x h => omap VEdPrv (slip10_hardened_child fuel x h)
  | EdSlipPath x p => omap VEdPrv (slip10_hardened_path dbg fuel x p)
  | EdFromSlip10 bytes =>
      Some (match ed25519_pubkey_from_slip10_bytes bytes with Panic => Panic | _ => Ok VData end)
  | EdToSlip10 bytes =>
      Some (match ed25519_pubkey_to_slip10_bytes bytes with Panic => Panic | _ => Ok VData end)
  end.

(** The values a program holds after some calls, the latest first.  A failed call gives no
    value of the crate, except the error. *)
Inductive session : list value -> Prop :=
| ses_start : session []
| ses_call vs c fuel v : session vs -> typed c -> incl (args c) vs -> run fuel c = Some (Ok v) -> session (v :: vs).
End Session.
