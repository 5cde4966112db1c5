(** The chain of causes of a bip0032 error, as [core::error::Error::source] shows it: model of the
    conversions of bip0032/src/error.rs and bip0032/src/curve/error.rs.

    An error object is its [Display] text and its [source].  [anyhow::Error] is a pointer to one;
    [anyhow::Error::msg] makes one without a source.  [lib] gives the objects of the libraries below
    (bs58, elliptic-curve, secp256k1, ed25519-dalek), [std] is the feature. *)
From Verif Require Import Base Str Error32 Path32 Version32 Meta32 Payload32 Curve32 XKeySpec32 XKey32 Slip10.

Inductive dyn_error : Type := Dyn (text : str) (cause : option dyn_error).
Definition text_of_error (e : dyn_error) : str := match e with Dyn t _ => t end.
Definition cause_of_error (e : dyn_error) : option dyn_error := match e with Dyn _ c => c end.

(** The texts from the error to its root, as reporters walk them. *)
Fixpoint chain (e : dyn_error) : list str :=
  match e with
  | Dyn t None => [t]
  | Dyn t (Some c) => t :: chain c
  end.

(** error.rs 35 *)
Definition ErrorSource : Type := dyn_error.
(** [anyhow::Error::msg]; error.rs 55-65 and curve/error.rs 51-61 for texts *)
Definition anyhow_msg (t : str) : ErrorSource := Dyn t None.
(** error.rs 79-86: [ErrorSource(self.into())], the object itself *)
Definition into_error_source (e : dyn_error) : ErrorSource := e.

(** curve/error.rs 11 *)
Definition CurveError : Type := ErrorSource.
(** curve/error.rs 14-31 *)
Definition curve_error_new_from (std : bool) (e : dyn_error) : CurveError :=
  if std then into_error_source e else into_error_source (anyhow_msg (text_of_error e)).
(** curve/error.rs 40-44 and 63-67: shown like what it wraps, which is also its source *)
Definition curve_error_dyn (c : CurveError) : dyn_error := Dyn (text_of_error c) (Some c).

Section Build.
Variable std : bool.
Variable lib : Source -> dyn_error.

(** What the callers of [set_source] attach: payload/mod.rs 85-94 bs58's error; private.rs 43, 114,
    208, public.rs 74, 155 and slip10.rs 85 the [CurveError] of the backend, which is made from a text
    (k256.rs 87 and p256.rs 88 through [?], ed25519_dalek.rs 14) or by [CurveError::new]. *)
Definition attached (s : Source) : ErrorSource :=
  match s with
  | SBufferTooSmall | SInvalidCharacter _ _ | SNonAscii _ | SChecksum _ _ | SNoChecksum =>
      into_error_source (if std then lib s else anyhow_msg (text_of_error (lib s)))
  | SText t => into_error_source (curve_error_dyn (anyhow_msg t))
  | SEllipticCurve | SSecpPublicKey | SSecpSecretKey | SSecpTweak | SScalarRange | SDalek =>
      into_error_source (curve_error_dyn (curve_error_new_from std (lib s)))
  end.

(** error.rs 148-165 and 183-187 *)
Definition error_dyn (e : Error) : dyn_error :=
  Dyn (show_error e) (option_map attached (e_source e)).
(** error.rs 167-182, with the [Display] of the source (error.rs 49-53) *)
Definition error_debug (e : Error) : str := debug_error (fun s => text_of_error (attached s)) e.
End Build.

(** The errors of the operations of bip0032 with a secp256k1 or nist256p1 backend. *)
Inductive operation_error (dbg : profile) (b : Library) (L : ECLib) : Error -> Prop :=
| oe_path s e : path_parse s = Err e -> operation_error dbg b L e
| oe_hardened_path s e : hpath_parse s = Err e -> operation_error dbg b L e
| oe_payload s e : payload_parse dbg s = Err e -> operation_error dbg b L e
| oe_parse_prv s e : xprv_parse dbg (backend b L) s = Err e -> operation_error dbg b L e
| oe_parse_pub s e : xpub_parse dbg (backend b L) s = Err e -> operation_error dbg b L e
| oe_from_prv p e : payload_wf p -> xprv_try_from dbg (backend b L) p = Err e -> operation_error dbg b L e
| oe_from_pub p e : payload_wf p -> xpub_try_from dbg (backend b L) p = Err e -> operation_error dbg b L e
| oe_new seed e : xprv_new dbg (backend b L) seed = Err e -> operation_error dbg b L e
| oe_child_prv (x : XPrv (backend b L)) i e : xprv_derive_child dbg x i = Err e -> operation_error dbg b L e
| oe_path_prv (x : XPrv (backend b L)) p e : xprv_derive_path dbg x p = Err e -> operation_error dbg b L e
| oe_child_pub (x : XPub (backend b L)) i e : xpub_derive_child dbg x i = Err e -> operation_error dbg b L e
| oe_path_pub (x : XPub (backend b L)) p e : xpub_derive_path dbg x p = Err e -> operation_error dbg b L e
| oe_encode_prv (x : XPrv (backend b L)) v e : as_u32 v < 2 ^ 32 -> xprv_encode_with x v = Err e -> operation_error dbg b L e
| oe_encode_pub (x : XPub (backend b L)) v e : as_u32 v < 2 ^ 32 -> xpub_encode_with x v = Err e -> operation_error dbg b L e
| oe_slip_pub fuel (x : XPub (backend b L)) i e : slip10_pub_child fuel x i = Some (Err e) -> operation_error dbg b L e.
