(** Model of bip0032/src/curve: the traits of curve/mod.rs as records of
    functions, and the four backends as instances.

    The curve libraries themselves (k256, p256, secp256k1, ed25519-dalek) are not
    part of /repo.  Their group arithmetic and point encodings enter as the record
    [ECLib] (resp. [EdLib]); what the crate does with them - range checks, which
    errors are mapped to what, prefix handling - is modelled here.  The laws a
    theorem needs about a library are the predicates [ec_laws] and [ed_laws]. *)
From Verif Require Import Base Str Error32 Meta32.

(** ** The traits *)

(** curve/mod.rs 6-50: [Curve], [CurvePublicKey], [CurvePrivateKey].  The error
    types only reach the crate as an [ErrorSource] (error.rs 35-80).  [prv_erase]
    is what [CurvePrivateKey::zeroize] (48-49) leaves in place of the key. *)
Record Curve : Type := {
  hmac_key : list byte;
  pub_t : Type;
  prv_t : Type;
  pub_from_bytes : list byte -> Source + pub_t;
  pub_to_bytes : pub_t -> list byte;
  prv_from_bytes : list byte -> Source + prv_t;
  prv_to_bytes : prv_t -> list byte;
  prv_to_public : prv_t -> pub_t;
  prv_erase : prv_t -> prv_t
}.

(** curve/mod.rs 53-59: [TweakableKey] for both key types. *)
Record TweakCurve : Type := {
  tw_curve :> Curve;
  prv_add_tweak : prv_t tw_curve -> list byte -> Source + prv_t tw_curve;
  pub_add_tweak : pub_t tw_curve -> list byte -> Source + pub_t tw_curve
}.

(** ** What an elliptic curve library provides *)
Record ECLib : Type := {
  point : Type;
  infinity : point;                         (* the identity *)
  is_infinity : point -> bool;
  padd : point -> point -> point;
  gen : point;                              (* the generator *)
  pmul : N -> point -> point;               (* scalar multiplication *)
  order : N;
  compress : point -> list byte;            (* SEC1 compressed form, 33 bytes *)
  decompress : byte -> list byte -> option point;   (* tag 02/03, x coordinate *)
  decompact : list byte -> option point     (* SEC1 "compact" tag 05, x coordinate *)
}.

(** The group laws and the encoding laws; [point L] holds points of the curve only. *)
Record ec_laws (L : ECLib) : Prop := {
  add_assoc : forall p q r, padd L (padd L p q) r = padd L p (padd L q r);
  add_comm : forall p q, padd L p q = padd L q p;
  add_inf : forall p, padd L p (infinity L) = p;
  mul_zero : forall p, pmul L 0 p = infinity L;
  mul_succ : forall k p, pmul L (N.succ k) p = padd L p (pmul L k p);
  is_inf : forall p, is_infinity L p = true <-> p = infinity L;
  gen_order : forall k, pmul L k (gen L) = infinity L <-> k mod order L = 0;
  order_range : 1 < order L < 2 ^ 256;
  compress_length : forall p, length (compress L p) = 33%nat;
  decompress_compress : forall p, p <> infinity L ->
    exists tag x, compress L p = tag :: x /\ (tag = x02 \/ tag = x03) /\ decompress L tag x = Some p;
  compress_decompress : forall tag x p, tag = x02 \/ tag = x03 -> length x = 32%nat ->
    decompress L tag x = Some p -> p <> infinity L /\ compress L p = tag :: x
}.

(** ** RustCrypto backends: secp256k1/backends/k256.rs and
    nist256p1/backends/p256.rs, which differ only in the curve. *)

(** [SecretKey::from_slice] / [from_bytes] on 32 bytes: nonzero and below n. *)
Definition rc_secret (L : ECLib) (bytes : list byte) : Source + N :=
  let k := be_val bytes in
  if (length bytes =? 32)%nat && (0 <? k) && (k <? order L) then inr k else inl SEllipticCurve.

(** [PublicKey::from_affine]: rejects the identity. *)
Definition rc_public (L : ECLib) (p : point L) : Source + point L :=
  if is_infinity L p then inl SEllipticCurve else inr p.

(** [PublicKey::from_sec1_bytes] on 33 bytes: the tags of 33-byte forms are 02, 03
    (compressed) and 05 (compact); the identity is rejected. *)
Definition rc_sec1 (L : ECLib) (bytes : list byte) : Source + point L :=
  match bytes with
  | tag :: x =>
      if (length x =? 32)%nat then
        let decoded :=
          if (b2n tag =? 2) || (b2n tag =? 3) then decompress L tag x
          else if b2n tag =? 5 then decompact L x
          else None in
        match decoded with
        | Some p => rc_public L p
        | None => inl SEllipticCurve
        end
      else inl SEllipticCurve
  | [] => inl SEllipticCurve
  end.

(** k256.rs 83-88, p256.rs 84-89 *)
Definition nonzero_scalar_from_bytes (L : ECLib) (bytes : list byte) : Source + N :=
  let t := be_val bytes in
  if (0 <? t) && (t <? order L) then inr t else inl (SText (lit "invalid tweak scalar")).

(** k256.rs 65-76, p256.rs 66-77 *)
Definition rc_prv_add_tweak (L : ECLib) (key : N) (tweak : list byte) : Source + N :=
  match nonzero_scalar_from_bytes L tweak with
  | inl e => inl e
  | inr tweak_scalar =>
      let child := (tweak_scalar + key) mod order L in
      rc_secret L (be_bytes 32 child)
  end.

(** k256.rs 29-41, p256.rs 30-42 *)
Definition rc_pub_add_tweak (L : ECLib) (key : point L) (tweak : list byte) : Source + point L :=
  match nonzero_scalar_from_bytes L tweak with
  | inl e => inl e
  | inr tweak_scalar =>
      let child_point := padd L (pmul L tweak_scalar (gen L)) key in
      rc_public L child_point
  end.

(** k256.rs 13-27, 43-63; p256.rs 14-28, 44-64.  [zeroize] does nothing (60-62);
    the key is wiped by the library's own [Drop]. *)
Definition rc_curve (key : list byte) (L : ECLib) : Curve := {|
  hmac_key := key;
  pub_t := point L;
  prv_t := N;
  pub_from_bytes := rc_sec1 L;
  pub_to_bytes := compress L;
  prv_from_bytes := rc_secret L;
  prv_to_bytes := be_bytes 32;
  prv_to_public := fun k => pmul L k (gen L);
  prv_erase := fun k => k
|}.
Definition rc_backend (key : list byte) (L : ECLib) : TweakCurve := {|
  tw_curve := rc_curve key L;
  prv_add_tweak := rc_prv_add_tweak L;
  pub_add_tweak := rc_pub_add_tweak L
|}.

(** secp256k1/mod.rs 14, nist256p1/mod.rs 14, ed25519/mod.rs 32 *)
Definition BITCOIN_SEED : list byte := bytes_of "Bitcoin seed".
Definition NIST_SEED : list byte := bytes_of "Nist256p1 seed".
Definition ED25519_SEED : list byte := bytes_of "ed25519 seed".

Definition K256Backend (L : ECLib) : TweakCurve := rc_backend BITCOIN_SEED L.
Definition P256Backend (L : ECLib) : TweakCurve := rc_backend NIST_SEED L.

(** ** secp256k1/backends/secp256k1.rs *)

(** [SecretKey::from_byte_array] (103) *)
Definition ffi_secret (L : ECLib) (bytes : list byte) : Source + N :=
  let k := be_val bytes in
  if (length bytes =? 32)%nat && (0 <? k) && (k <? order L) then inr k else inl SSecpSecretKey.
(** [PublicKey::from_byte_array_compressed] (77) *)
Definition ffi_public (L : ECLib) (bytes : list byte) : Source + point L :=
  match bytes with
  | tag :: x =>
      if (length x =? 32)%nat && ((b2n tag =? 2) || (b2n tag =? 3)) then
        match decompress L tag x with Some p => inr p | None => inl SSecpPublicKey end
      else inl SSecpPublicKey
  | [] => inl SSecpPublicKey
  end.
(** [Scalar::from_be_bytes] (15-18): zero is allowed. *)
Definition ffi_scalar (L : ECLib) (bytes : list byte) : Source + N :=
  let t := be_val bytes in if t <? order L then inr t else inl SScalarRange.
(** secp256k1.rs 119-128: [SecretKey::add_tweak] fails when the sum is zero. *)
Definition ffi_prv_add_tweak (L : ECLib) (key : N) (tweak : list byte) : Source + N :=
  match ffi_scalar L tweak with
  | inl e => inl e
  | inr t =>
      let child := (key + t) mod order L in
      if child =? 0 then inl SSecpTweak else inr child
  end.
(** secp256k1.rs 85-95: [PublicKey::add_exp_tweak] fails when the sum is the
    identity. *)
Definition ffi_pub_add_tweak (L : ECLib) (key : point L) (tweak : list byte) : Source + point L :=
  match ffi_scalar L tweak with
  | inl e => inl e
  | inr t =>
      let child := padd L key (pmul L t (gen L)) in
      if is_infinity L child then inl SSecpTweak else inr child
  end.
(** [non_secure_erase] (114-116) writes the bytes 01 01 .. 01. *)
Definition ffi_erased : N := be_val (repeat x01 32).
(** secp256k1.rs 72-83, 97-117 *)
Definition ffi_curve (L : ECLib) : Curve := {|
  hmac_key := BITCOIN_SEED;
  pub_t := point L;
  prv_t := N;
  pub_from_bytes := ffi_public L;
  pub_to_bytes := compress L;
  prv_from_bytes := ffi_secret L;
  prv_to_bytes := be_bytes 32;
  prv_to_public := fun k => pmul L k (gen L);
  prv_erase := fun _ => ffi_erased
|}.
Definition Secp256k1FfiBackend (L : ECLib) : TweakCurve := {|
  tw_curve := ffi_curve L;
  prv_add_tweak := ffi_prv_add_tweak L;
  pub_add_tweak := ffi_pub_add_tweak L
|}.

(** ** ed25519 *)
Record EdLib : Type := {
  ed_pub : Type;
  ed_verifying : list byte -> ed_pub;           (* [SigningKey::verifying_key] *)
  ed_raw : ed_pub -> list byte;                 (* [VerifyingKey::to_bytes] *)
  ed_parse : list byte -> option ed_pub         (* [VerifyingKey::from_bytes] *)
}.
Record ed_laws (D : EdLib) : Prop := {
  raw_length : forall p, length (ed_raw D p) = 32%nat;
  raw_parse : forall b p, length b = 32%nat -> ed_parse D b = Some p -> ed_raw D p = b;
  parse_verifying : forall s, length s = 32%nat ->
    ed_parse D (ed_raw D (ed_verifying D s)) = Some (ed_verifying D s)
}.

Definition ED_PREFIX : str := lit "SLIP-0010 ed25519 public key needs a 0x00 prefix".
(** ed25519/mod.rs 11-19 *)
Definition ed25519_pubkey_from_slip10_bytes (bytes : list byte) : res Source (list byte) :=
  if negb (b2n (nth 0 bytes x00) =? 0) then Err (SText ED_PREFIX)
  else put 0 32 (skipn 1 bytes) (zeros 32).
(** ed25519/mod.rs 22-26 *)
Definition ed25519_pubkey_to_slip10_bytes (raw : list byte) : res Source (list byte) :=
  put 1 33 raw (zeros 33).

(** ed25519/backends/ed25519_dalek.rs 12-20; the copy of line 18 cannot panic on
    33 bytes *)
Definition dalek_public (D : EdLib) (bytes : list byte) : Source + ed_pub D :=
  if negb (b2n (nth 0 bytes x00) =? 0) then inl (SText ED_PREFIX)
  else match ed_parse D (skipn 1 bytes) with Some p => inr p | None => inl SDalek end.
(** ed25519_dalek.rs 22-27, 30-46: the default [zeroize] does nothing. *)
Definition Ed25519DalekBackend (D : EdLib) : Curve := {|
  hmac_key := ED25519_SEED;
  pub_t := ed_pub D;
  prv_t := list byte;                           (* [SigningKey]: the 32 bytes *)
  pub_from_bytes := dalek_public D;
  pub_to_bytes := fun p => x00 :: ed_raw D p;
  prv_from_bytes := fun b => inr b;
  prv_to_bytes := fun b => b;
  prv_to_public := ed_verifying D;
  prv_erase := fun b => b
|}.
