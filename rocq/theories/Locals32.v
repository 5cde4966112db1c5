(** The local variables and temporaries of the private-key functions of bip0032: what is in their
    storage when it ends.

    A function returns what its counterpart in [XKey32], [Slip10] or [Payload32] returns and the
    places whose storage ended on the way, oldest first, each with the bytes left in it after the
    destructor of its type ran.  An array is [Copy]: using it copies it and leaves the variable as it
    is, so a variable shadowed by [Zeroizing::new] of itself keeps its bytes.  A value that is moved
    (to the caller, or to a field) has no destructor run here and is not listed.  Only places of this
    crate are followed, not those inside the libraries; public constants, lengths, child numbers and
    error values are left out. *)
From Verif Require Import Base Str Sha2 Error32 Version32 Path32 Meta32 Base58 Payload32 Curve32 XKeySpec32 XKey32 Slip10.

Inductive place : Type :=
| HmacOutput | HmacLeft | HmacRight       (* core/mod.rs 63, 66, 67: arrays *)
| PublicBytes                             (* [parent_public_bytes]: array *)
| KeyBytes                                (* the temporary [CurvePrivateKey::to_bytes(..)]: array *)
| HashData                                (* [data]: [Zeroizing] array *)
| LeftArray | RightArray                  (* [let (left, right)], [(master_key, chain_code)]: arrays *)
| Left                                    (* [let left = Zeroizing::new(left)] *)
| NextSeed                                (* slip10.rs 76 [next]: array *)
| TweakBytes                              (* [let bytes = Zeroizing::new(..)] of the backends *)
| CtScalar                                (* k256.rs 85 [scalar]: [Copy] *)
| TweakScalar | KeyScalar                 (* k256.rs 69, 70: [Zeroizing] *)
| ChildScalar | ChildBytes                (* k256.rs 72, 75: [Copy] *)
| Guard                                   (* secp256k1.rs 12 [ScalarGuard] *)
| KeyObject | MetaObject                  (* fields of an [ExtendedPrivateKey] or payload *)
| PayloadKey                              (* payload/mod.rs 23 *)
| KeyData                                 (* [key_data]: array *)
| ChainCode                               (* payload/mod.rs [chain_code]: array *)
| Raw                                     (* private.rs 202 [raw]: [Zeroizing] array *)
| Decoded                                 (* payload/mod.rs 81 [data]: [Zeroizing] array *)
| SerializedArray                         (* payload/mod.rs 48 [out]: array *)
| Serialized.                             (* payload/mod.rs 61: [Zeroizing] array *)

Definition ended : Type := list (place * list byte).
Definition W (A : Type) : Type := (ended * A)%type.

(** [let p = ..; rest]: the storage ends when the rest is over, on every way out of it. *)
Definition scope {A} (p : place) (left_there : list byte) (rest : W A) : W A :=
  (fst rest ++ [(p, left_there)], snd rest).
(** Dropping a [Zeroizing] array *)
Definition wiped (b : list byte) : list byte := map (fun _ => x00) b.

Definition bindw {E A B} (m : W (res E A)) (k : A -> W (res E B)) : W (res E B) :=
  match m with
  | (e, Ok a) => (e ++ fst (k a), snd (k a))
  | (e, Err x) => (e, Err x)
  | (e, Panic) => (e, Panic)
  end.
Definition pure {A} (a : A) : W A := ([], a).

(** ** Destructors *)

(** What is left of a private key object after [CurvePrivateKey::zeroize] and the library's own
    drop; and the places of [TweakableKey::add_tweak]. *)
Record KeyDrop (C : Curve) : Type := { key_left : prv_t C -> list byte }.
Arguments key_left {C}.
Record TweakDrop (C : TweakCurve) : Type := {
  tw_drop :> KeyDrop C;
  tweak_l : prv_t C -> list byte -> W (Source + prv_t C)
}.
Arguments tw_drop {C}. Arguments tweak_l {C}.

(** k256.rs 83-88, p256.rs 84-89; what the [CtOption] of a rejected scalar contains is not followed *)
Definition nonzero_scalar_l (L : ECLib) (tweak : list byte) : W (Source + N) :=
  scope TweakBytes (wiped tweak)
    (match nonzero_scalar_from_bytes L tweak with
     | inl e => pure (inl e)
     | inr t => scope CtScalar (be_bytes 32 t) (pure (inr t))
     end).
(** k256.rs 65-76, p256.rs 66-77; [Zeroize] of a [NonZeroScalar] leaves 1 *)
Definition rc_tweak_l (L : ECLib) (key : N) (tweak : list byte) : W (Source + N) :=
  match nonzero_scalar_l L tweak with
  | (e, inl err) => (e, inl err)
  | (e, inr t) =>
      let child := (t + key) mod order L in
      let rest :=
        scope TweakScalar (be_bytes 32 1)
          (scope KeyScalar (be_bytes 32 1)
             (scope ChildScalar (be_bytes 32 child)
                (scope ChildBytes (be_bytes 32 child)
                   (pure (rc_secret L (be_bytes 32 child)))))) in
      (e ++ fst rest, snd rest)
  end.
(** secp256k1.rs 11-31, 119-128; [Scalar::non_secure_erase] writes zeros *)
Definition ffi_tweak_l (L : ECLib) (key : N) (tweak : list byte) : W (Source + N) :=
  match scope TweakBytes (wiped tweak) (pure (ffi_scalar L tweak)) with
  | (e, inl err) => (e, inl err)
  | (e, inr t) =>
      let rest := scope Guard (zeros 32) (pure (ffi_prv_add_tweak L key tweak)) in
      (e ++ fst rest, snd rest)
  end.
(** The keys of k256 and p256 are [ZeroizeOnDrop] (k256.rs 60-62); libsecp256k1's have no
    destructor, but [zeroize] was called (private.rs 140, secp256k1.rs 114-116). *)
Definition backend_drop (b : Library) (L : ECLib) : TweakDrop (backend b L) := {|
  tw_drop := {| key_left := match b with
                            | Secp256k1Ffi => fun k => be_bytes 32 (prv_erase (backend b L) k)
                            | _ => fun _ => zeros 32
                            end : prv_t (backend b L) -> list byte |};
  tweak_l := match b with Secp256k1Ffi => ffi_tweak_l L | _ => rc_tweak_l L end
             : prv_t (backend b L) -> list byte -> W (Source + prv_t (backend b L))
|}.
(** ed25519_dalek.rs 29-46: [zeroize] is the empty default; dalek's [SigningKey] is wiped on drop if
    that crate is built with its feature "zeroize". *)
Definition dalek_drop (zeroize_feature : bool) (D : EdLib) : KeyDrop (Ed25519DalekBackend D) := {|
  key_left := (fun k => if zeroize_feature then wiped k else prv_erase (Ed25519DalekBackend D) k)
              : prv_t (Ed25519DalekBackend D) -> list byte
|}.

(** core/mod.rs 21-34 *)
Definition meta_image (m : Metadata) : list byte :=
  m_depth m :: m_fingerprint m ++ be_bytes 4 (m_child m) ++ m_chain m.
(** private.rs 138-142, then the fields *)
Definition drop_xprv_l {C} (D : KeyDrop C) (x : XPrv C) : ended :=
  [(MetaObject, meta_image (meta_zeroize (xprv_meta x))); (KeyObject, key_left D (xprv_key x))].
(** payload/mod.rs 26-30, then the fields *)
Definition drop_payload_l (p : Payload) : ended :=
  [(MetaObject, meta_image (p_meta (payload_drop p))); (PayloadKey, p_key (payload_drop p))].

(** ** core/mod.rs 54-72 *)
Definition hmac_split_l {E} (key data : list byte) : W (res E (list byte * list byte)) :=
  let output := hmac_sha512 key data in
  scope HmacOutput output
    (if (length output =? 64)%nat then
       scope HmacLeft (slice 0 32 output)
         (scope HmacRight (slice 32 64 output) (pure (Ok (slice 0 32 output, slice 32 64 output))))
     else pure Panic).

(** ** private.rs *)

(** private.rs 32-55 *)
Definition new_l (dbg : profile) (C : Curve) (seed : list byte) : W (res Error (XPrv C)) :=
  bindw (hmac_split_l (hmac_key C) seed) (fun '(master_key, chain_code) =>
  scope LeftArray master_key
    (scope RightArray chain_code
       (scope Left (wiped master_key)
          (pure (match prv_from_bytes C master_key with
                 | inl err =>
                     raise (set_source dbg
                              (with_context
                                 (err_new InvalidKeyData (lit "invalid master key derived from seed"))
                                 (lit "seed_len") (dec (N.of_nat (length seed))))
                              err)
                 | inr private_key => Ok (mkXPrv (master_meta chain_code) private_key)
                 end))))).

(** private.rs 98-102 *)
Definition hardened_data_l {C : Curve} (x : XPrv C) (child : N) : W (res Error (list byte)) :=
  bindw (scope KeyBytes (prv_to_bytes C (xprv_key x))
           (pure (put 1 33 (prv_to_bytes C (xprv_key x)) (zeros 37)))) (fun data =>
  bindw (pure (put 33 37 (child_to_bytes child) data)) (fun data =>
  scope HashData (wiped data) (pure (Ok data)))).

(** private.rs 93-126 *)
Definition derive_child_l (dbg : profile) {C : TweakCurve} (D : TweakDrop C) (x : XPrv C) (child : N)
    : W (res Error (XPrv C)) :=
  let parent_public_bytes := pub_to_bytes C (prv_to_public C (xprv_key x)) in
  scope PublicBytes parent_public_bytes
    (bindw (if child_is_hardened child then hardened_data_l x child
            else pure (Ok (parent_public_bytes ++ child_to_bytes child))) (fun data =>
     bindw (hmac_split_l (m_chain (xprv_meta x)) data) (fun '(il, ir) =>
     scope LeftArray il
       (scope RightArray ir
          (scope Left (wiped il)
             (let r := tweak_l D (xprv_key x) il in
              (fst r,
               match snd r with
               | inl err =>
                   raise (set_source dbg
                            (with_context
                               (with_context (err_new InvalidDerivation (lit "invalid child private key"))
                                  (lit "child_index") (dec (child_index child)))
                               (lit "hardened") (show_bool (child_is_hardened child)))
                            err)
               | inr child_key =>
                   Ok (mkXPrv (child_meta (xprv_meta x) parent_public_bytes child ir) child_key)
               end))))))).

(** private.rs 129-135: the assignment drops the old key, [?] drops it on the way out *)
Fixpoint derive_loop_l (dbg : profile) {C : TweakCurve} (D : TweakDrop C) (key : XPrv C) (path : list N)
    : W (res Error (XPrv C)) :=
  match path with
  | [] => pure (Ok key)
  | child :: rest =>
      match derive_child_l dbg D key child with
      | (e, Ok y) =>
          let r := derive_loop_l dbg D y rest in
          (e ++ drop_xprv_l D key ++ fst r, snd r)
      | (e, Err x) => (e ++ drop_xprv_l D key, Err x)
      | (e, Panic) => (e ++ drop_xprv_l D key, Panic)
      end
  end.
(** The clone of line 130 is the first key. *)
Definition derive_path_l (dbg : profile) {C : TweakCurve} (D : TweakDrop C) (x : XPrv C) (path : list N)
    : W (res Error (XPrv C)) := derive_loop_l dbg D x path.

(** private.rs 161-172 *)
Definition encode_unchecked_l {C : Curve} (x : XPrv C) (version : Version) : W (res Error Payload) :=
  bindw (scope KeyBytes (prv_to_bytes C (xprv_key x))
           (pure (put 1 33 (prv_to_bytes C (xprv_key x)) (zeros 33)))) (fun key_data =>
  scope KeyData key_data
    (pure (Ok {| p_version := version; p_meta := xprv_meta x; p_key := key_data |}))).

(** private.rs 196-212; the payload is dropped at the end *)
Definition try_from_l (dbg : profile) (C : Curve) (payload : Payload) : W (res Error (XPrv C)) :=
  let body : W (res Error (XPrv C)) :=
    if negb (is_private (p_version payload)) then
      pure (Err (with_context (err_new InvalidVersion (lit "extended key is not private"))
                   (lit "version") (version_show (p_version payload))))
    else
      bindw (pure (put 0 32 (skipn 1 (p_key payload)) (zeros 32))) (fun raw =>
      scope Raw (wiped raw)
        (pure (match prv_from_bytes C raw with
               | inl err =>
                   raise (set_source dbg
                            (with_context (err_new InvalidKeyData (lit "invalid private key data"))
                               (lit "key_prefix") (hex_byte_lower (nth 0 (p_key payload) x00)))
                            err)
               | inr private_key => Ok (mkXPrv (p_meta payload) private_key)
               end))) in
  (fst body ++ drop_payload_l payload, snd body).

(** ** payload/mod.rs *)

(** 105-208; only [chain_code] and [key_data] are followed *)
Definition parse_payload_l (data : list byte) : W (res Error Payload) :=
  if negb (length data =? KEY_PAYLOAD_LENGTH)%nat then pure (parse_payload data)
  else
    scope ChainCode (slice 13 45 data) (scope KeyData (slice 45 78 data) (pure (parse_payload data))).
(** 72-103; [bs58] has written the decoded bytes and the checksum into [data] *)
Definition payload_parse_l (dbg : profile) (encoded : str) : W (res Error Payload) :=
  if (MAX_KEY_PAYLOAD_STRING_LENGTH <? length (utf8 encoded))%nat then pure (payload_parse dbg encoded)
  else
    scope Decoded (wiped (zeros KEY_PAYLOAD_WITH_CHECKSUM_LENGTH))
      (match decode_check (utf8 encoded) KEY_PAYLOAD_WITH_CHECKSUM_LENGTH with
       | inl _ => pure (payload_parse dbg encoded)
       | inr data =>
           if negb (length data =? KEY_PAYLOAD_LENGTH)%nat then pure (payload_parse dbg encoded)
           else parse_payload_l data
       end).
(** 46-56, 59-69; the text is on the heap, see [Memory32] *)
Definition payload_show_l (p : Payload) : W (res Error str) :=
  bindw (match serialize p with
         | Ok out => scope SerializedArray out (pure (Ok out))
         | r => pure r
         end) (fun serialized =>
  scope Serialized (wiped serialized)
    (pure (match encode_check serialized with Some s => Ok s | None => Panic end))).

(** private.rs 183-186 *)
Definition parse_l (dbg : profile) (C : Curve) (encoded : str) : W (res Error (XPrv C)) :=
  bindw (payload_parse_l dbg encoded) (try_from_l dbg C).

(** ** slip10.rs *)

(** 58-89; the vector [seed] is on the heap, see [Memory32] *)
Fixpoint master_loop_l (dbg : profile) (fuel : nat) (C : Curve) (seed : list byte)
    : W (option (res Error (XPrv C))) :=
  match fuel with
  | O => pure None
  | S fuel' =>
      match hmac_split_l (hmac_key C) seed with
      | (e, Ok (il, ir)) =>
          let round (mid : ended) : ended := e ++ mid ++ [(Left, wiped il); (RightArray, ir); (LeftArray, il)] in
          match prv_from_bytes C il with
          | inr private_key => (round [], Some (Ok (mkXPrv (master_meta ir) private_key)))
          | inl err =>
              match (let? next := put 0 32 il (zeros 64) in put 32 64 ir next) with
              | Ok next =>
                  if is_empty next then
                    (round [(NextSeed, next)],
                     Some (raise (set_source dbg
                             (err_new InvalidDerivation (lit "slip10 seed retry failed")) err)))
                  else
                    let r := master_loop_l dbg fuel' C next in
                    (round [(NextSeed, next)] ++ fst r, snd r)
              | Err x => (round [], Some (Err x))
              | Panic => (round [], Some Panic)
              end
          end
      | (e, Err x) => (e, Some (Err x))
      | (e, Panic) => (e, Some Panic)
      end
  end.

(** The loops of 107-136 and 169-198; [data = retry] drops the old data, the last one is dropped
    when the function returns. *)
Fixpoint slip10_loop_l {K : Type} (fuel : nat) (chain : list byte) (try_l : list byte -> W (Source + K))
    (child_bytes data : list byte) : W (option (res Error (K * list byte))) :=
  match fuel with
  | O => pure None
  | S fuel' =>
      match hmac_split_l chain data with
      | (e, Ok (il, ir)) =>
          let t := try_l il in
          let round : ended := e ++ fst t ++ [(Left, wiped il); (RightArray, ir); (LeftArray, il)] in
          match snd t with
          | inr key => (round ++ [(HashData, wiped data)], Some (Ok (key, ir)))
          | inl _ =>
              match retry_data ir child_bytes with
              | Ok retry =>
                  let r := slip10_loop_l fuel' chain try_l child_bytes retry in
                  (round ++ [(HashData, wiped data)] ++ fst r, snd r)
              | Err x => (round ++ [(HashData, wiped data)], Some (Err x))
              | Panic => (round ++ [(HashData, wiped data)], Some Panic)
              end
          end
      | (e, Err x) => (e ++ [(HashData, wiped data)], Some (Err x))
      | (e, Panic) => (e ++ [(HashData, wiped data)], Some Panic)
      end
  end.
Definition obindw {A B} (m : W (res Error A)) (k : A -> W (option (res Error B))) : W (option (res Error B)) :=
  match m with
  | (e, Ok a) => (e ++ fst (k a), snd (k a))
  | (e, Err x) => (e, Some (Err x))
  | (e, Panic) => (e, Some Panic)
  end.
(** slip10.rs 98-137 *)
Definition hardened_child_l (fuel : nat) {C : Curve} (x : XPrv C) (child : HardenedChildNumber)
    : W (option (res Error (XPrv C))) :=
  let child_bytes := hchild_to_bytes child in
  let parent_public_bytes := pub_to_bytes C (prv_to_public C (xprv_key x)) in
  scope PublicBytes parent_public_bytes
    (obindw (scope KeyBytes (prv_to_bytes C (xprv_key x))
               (pure (put 1 33 (prv_to_bytes C (xprv_key x)) (zeros 37)))) (fun data =>
     obindw (pure (put 33 37 child_bytes data)) (fun data =>
     let r := slip10_loop_l fuel (m_chain (xprv_meta x)) (fun il => pure (prv_from_bytes C il)) child_bytes data in
     (fst r,
      omap (fun '(key, ir) =>
              mkXPrv (child_meta (xprv_meta x) parent_public_bytes (hc_child child) ir) key) (snd r))))).
(** slip10.rs 154-199 *)
Definition slip10_child_l (fuel : nat) {C : TweakCurve} (D : TweakDrop C) (x : XPrv C) (child : N)
    : W (option (res Error (XPrv C))) :=
  let parent_public_bytes := pub_to_bytes C (prv_to_public C (xprv_key x)) in
  let child_bytes := child_to_bytes child in
  scope PublicBytes parent_public_bytes
    (obindw (if child_is_hardened child
             then scope KeyBytes (prv_to_bytes C (xprv_key x))
                    (pure (put 1 33 (prv_to_bytes C (xprv_key x)) (zeros 37)))
             else pure (put 0 33 parent_public_bytes (zeros 37))) (fun data =>
     obindw (pure (put 33 37 child_bytes data)) (fun data =>
     let r := slip10_loop_l fuel (m_chain (xprv_meta x)) (tweak_l D (xprv_key x)) child_bytes data in
     (fst r,
      omap (fun '(key, ir) =>
              mkXPrv (child_meta (xprv_meta x) parent_public_bytes child ir) key) (snd r))))).
(** slip10.rs 139-145, 201-207 *)
Fixpoint slip10_path_l {C : Curve} {N' : Type} (D : KeyDrop C) (step : XPrv C -> N' -> W (option (res Error (XPrv C))))
    (key : XPrv C) (path : list N') : W (option (res Error (XPrv C))) :=
  match path with
  | [] => pure (Some (Ok key))
  | child :: rest =>
      match step key child with
      | (e, Some (Ok y)) =>
          let r := slip10_path_l D step y rest in
          (e ++ drop_xprv_l D key ++ fst r, snd r)
      | (e, Some other) => (e ++ drop_xprv_l D key, Some other)
      | (e, None) => (e, None)
      end
  end.
