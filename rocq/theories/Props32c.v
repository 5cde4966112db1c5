(** Property theorems for the bip0032 crate, third part: the two real curves (C55, C56).
    [Secp256k1 dc] and [Nist256p1 dc] are the [ECLib]s of the two curves; [dc] is the
    decoder of the compact point form (tag 05), about which nothing is assumed. *)
From Coq Require Import ZArith.
From Verif Require Import Base Str Sha2 Error32 Version32 Path32 PathProofs32 Meta32 Payload32 PayloadSpec32
  Curve32 XKey32 Slip10 XKeySpec32 PrimeCerts Fp ShortCurve CurveSpec CurveProofs Secp256k1 Nist256p1
  Props32k Vectors32.

(** ** C55 *)
(** The coordinates of a point as integers; [None] for the point at infinity. *)
Definition secp256k1_coords : secp256k1_point -> option (Z * Z) :=
  coords secp256k1_p secp256k1_p_prime secp256k1_mul secp256k1_a secp256k1_b.
Definition nist256p1_coords : nist256p1_point -> option (Z * Z) :=
  coords nist256p1_p nist256p1_p_prime nist256p1_mul nist256p1_a nist256p1_b.

(** [L] is the group of points of y^2 = x^3 + ax + b modulo p with generator (gx, gy)
    of order n, in the SEC1 compressed encoding. *)
Definition is_curve (L : ECLib) (xy : point L -> option (Z * Z)) (p a b gx gy : Z) (n : N) : Prop :=
  (forall P Q, xy P = xy Q -> P = Q) /\
  (forall x y, (exists P, xy P = Some (x, y)) <-> affine_point p a b x y) /\
  xy (infinity L) = None /\
  (forall P Q x1 y1 x2 y2, xy P = Some (x1, y1) -> xy Q = Some (x2, y2) ->
     chord_tangent p a x1 y1 x2 y2 (xy (padd L P Q))) /\
  xy (gen L) = Some (gx, gy) /\ order L = n /\
  (forall P x y, xy P = Some (x, y) ->
     compress L P = (if Z.odd y then x03 else x02) :: be_bytes 32 (Z.to_N x)) /\
  (forall tag bytes P, tag = x02 \/ tag = x03 ->
     (decompress L tag bytes = Some P <->
      exists y, xy P = Some (Z.of_N (be_val bytes), y) /\ (Z.odd y = true <-> tag = x03))).

Theorem C55_secp256k1 dc :
  ec_laws (Secp256k1 dc) /\
  is_curve (Secp256k1 dc) secp256k1_coords (2 ^ 256 - 2 ^ 32 - 977) 0 7
    0x79BE667EF9DCBBAC55A06295CE870B07029BFCDB2DCE28D959F2815B16F81798
    0x483ADA7726A3C4655DA4FBFC0E1108A8FD17B448A68554199C47D08FFB10D4B8
    0xFFFFFFFFFFFFFFFFFFFFFFFFFFFFFFFEBAAEDCE6AF48A03BBFD25E8CD0364141.
Proof.
  split; [apply secp256k1_laws|]. split; [|split; [|split; [|split; [|split; [|split; [|split]]]]]].
  - intros P Q. apply coords_inj.
  - intros x y. apply (coords_on secp256k1_p secp256k1_p_prime secp256k1_mul secp256k1_mul_ok).
  - reflexivity.
  - intros P Q x1 y1 x2 y2.
    apply (coords_add secp256k1_p secp256k1_p_prime secp256k1_mul secp256k1_mul_ok secp256k1_a secp256k1_b).
  - reflexivity.
  - reflexivity.
  - intros P x y. apply coords_compress.
  - intros tag bytes P.
    apply (coords_decompress secp256k1_p secp256k1_p_prime secp256k1_mul secp256k1_mul_ok eq_refl).
Qed.
Print Assumptions C55_secp256k1.

Theorem C55_nist256p1 dc :
  ec_laws (Nist256p1 dc) /\
  is_curve (Nist256p1 dc) nist256p1_coords (2 ^ 256 - 2 ^ 224 + 2 ^ 192 + 2 ^ 96 - 1) (-3)
    0x5AC635D8AA3A93E7B3EBBD55769886BC651D06B0CC53B0F63BCE3C3E27D2604B
    0x6B17D1F2E12C4247F8BCE6E563A440F277037D812DEB33A0F4A13945D898C296
    0x4FE342E2FE1A7F9B8EE7EB4A7C0F9E162BCE33576B315ECECBB6406837BF51F5
    0xFFFFFFFF00000000FFFFFFFFFFFFFFFFBCE6FAADA7179E84F3B9CAC2FC632551.
Proof.
  split; [apply nist256p1_laws|]. split; [|split; [|split; [|split; [|split; [|split; [|split]]]]]].
  - intros P Q. apply coords_inj.
  - intros x y. apply (coords_on nist256p1_p nist256p1_p_prime nist256p1_mul nist256p1_mul_ok).
  - reflexivity.
  - intros P Q x1 y1 x2 y2.
    apply (coords_add nist256p1_p nist256p1_p_prime nist256p1_mul nist256p1_mul_ok nist256p1_a nist256p1_b).
  - reflexivity.
  - reflexivity.
  - intros P x y. apply coords_compress.
  - intros tag bytes P.
    apply (coords_decompress nist256p1_p nist256p1_p_prime nist256p1_mul nist256p1_mul_ok eq_refl).
Qed.
Print Assumptions C55_nist256p1.

(** The double of the generator in the SEC1 encoding, and the sum of the generator and
    (n - 1) G, which is the point at infinity. *)
Example C55_case (L := Secp256k1 (fun _ => None)) :
  compress L (padd L (gen L) (gen L))
    = unhex "02c6047f9441ed7d6d3045406e95c07cd85c778e4b8cef3ca7abac09b95c709ee5" /\
  padd L (gen L) (pmul L (order L - 1) (gen L)) = infinity L.
Proof.
  pose proof (proj1 (C55_secp256k1 (fun _ => None))) as HL. split.
  - apply bytes_eqb_eq. vm_cast_no_check (eq_refl true).
  - rewrite <- (mul_succ L HL). apply (gen_order L HL). reflexivity.
Qed.

(** ** C56 *)
Local Open Scope N_scope.
(** The library and the curve it implements. *)
Inductive implements : Library -> ECLib -> Prop :=
  | implements_k256 dc : implements K256 (Secp256k1 dc)
  | implements_ffi dc : implements Secp256k1Ffi (Secp256k1 dc)
  | implements_p256 dc : implements P256 (Nist256p1 dc).

Theorem C56_real_curves dbg b L : implements b L ->
  (forall seed (p : list N) (m x : XPrv (backend b L)), Forall (fun i => i < 2 ^ 32) p ->
     xprv_new dbg (backend b L) seed = Ok m -> xprv_derive_path dbg m p = Ok x ->
     (forall n, In n known_private ->
        exists q t, xprv_encode_with x (Private n) = Ok q /\ payload_show q = Ok t /\
          xprv_parse dbg (backend b L) t = Ok x) /\
     (forall n, In n known_public ->
        exists q t, xpub_encode_with (xprv_public x) (Public n) = Ok q /\ payload_show q = Ok t /\
          xpub_parse dbg (backend b L) t = Ok (xprv_public x))) /\
  (forall (x : XPrv (backend b L)) (p : list N), xprv_wf x -> Forall (fun i => i < 2 ^ 31) p ->
     ((exists y, xprv_derive_path dbg x p = Ok y) <->
      (exists z, xpub_derive_path dbg (xprv_public x) p = Ok z)) /\
     (forall y z, xprv_derive_path dbg x p = Ok y -> xpub_derive_path dbg (xprv_public x) p = Ok z ->
        xpub_key z = pmul L (xprv_key y) (gen L) /\ xpub_meta z = xprv_meta y)) /\
  (forall fuel (x : XPrv (backend b L)) (p : list N) y, xprv_wf x -> Forall (fun i => i < 2 ^ 31) p ->
     slip10_prv_path fuel x p = Some (Ok y) ->
     slip10_pub_path fuel (xprv_public x) p = Some (Ok (xprv_public y))).
Proof.
  intros H. assert (HL : ec_laws L).
  { destruct H; [apply secp256k1_laws|apply secp256k1_laws|apply nist256p1_laws]. }
  split; [|split].
  - intros seed p m x F Hm Hx. apply (C43_reachable_keys_export dbg b L HL seed p m x F Hm Hx).
  - intros x p W F. destruct (C38_neuter_commutes dbg b L HL x p W F) as (A & B & _). split; assumption.
  - intros fuel x p y W F E. pose proof (C48_slip10_neuter_commutes b L HL fuel p x W F) as C.
    rewrite E in C. exact C.
Qed.
Print Assumptions C56_real_curves.

(** The keys m and m/0'/1 of the first BIP-0032 test vector, with the k256 library. *)
Example C56_case (dc := fun _ => None) :
  implements K256 (Secp256k1 dc) /\
  xprv_new true (backend K256 (Secp256k1 dc)) seed_v1 = Ok (v1_0 K256 dc) /\
  xprv_derive_path true (v1_0 K256 dc) [2147483648; 1] = Ok (v1_2 K256 dc) /\ xprv_wf (v1_2 K256 dc).
Proof.
  split; [constructor|]. split; [apply (proj1 v1_master)|]. cbn [xprv_derive_path].
  rewrite (proj1 v1_step1 dc). cbn [bind]. rewrite (proj1 v1_step2 dc). split; [reflexivity|].
  split; [repeat split; reflexivity|]. split; reflexivity.
Qed.
