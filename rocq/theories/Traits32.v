(** Which operations exist for which curve, backend and set of Cargo features: the
    feature table of bip0032/Cargo.toml:31-50, the [#[cfg(feature = ..)]] attributes, the
    trait impls and the [where] clauses of the crate, read as clauses of a logic program
    (which is how rustc solves trait obligations).

    Downstream crates are part of the picture: they may implement the crate's traits for
    their own types.  Rust's orphan rule lets them do so only for types of their own, not
    for, say, [Ed25519Curve<Theirs>], so an impl from downstream always is for a [Local]
    type. *)
From Verif Require Import Base.

(** ** Cargo.toml 31-50 *)
Inductive feature : Type := f_default | f_std | f_k256 | f_secp256k1 | f_slip10 | f_p256 | f_dalek.
Inductive crate : Type := c_anyhow | c_bs58 | c_zeroize | c_k256 | c_secp256k1 | c_p256 | c_dalek.
Inductive crate_feature : Type := cf_std | cf_arithmetic.
Inductive feature_value : Type :=
| Feat (f : feature)                                (* "f" *)
| Dep (c : crate)                                   (* "dep:c" *)
| DepFeat (c : crate) (x : crate_feature)           (* "c/x" *)
| WeakDepFeat (c : crate) (x : crate_feature).      (* "c?/x" *)

Definition cargo_table (f : feature) : list feature_value :=
  match f with
  | f_default => [Feat f_std; Feat f_k256]
  | f_std => [DepFeat c_anyhow cf_std; DepFeat c_bs58 cf_std; DepFeat c_zeroize cf_std;
              WeakDepFeat c_k256 cf_std; WeakDepFeat c_secp256k1 cf_std; WeakDepFeat c_p256 cf_std]
  | f_k256 => [DepFeat c_k256 cf_arithmetic]
  | f_secp256k1 => [Dep c_secp256k1]
  | f_slip10 => []
  | f_p256 => [Feat f_slip10; DepFeat c_p256 cf_arithmetic]
  | f_dalek => [Feat f_slip10; Dep c_dalek]
  end.
(** Cargo.toml 52-82: [optional = true] *)
Definition optional (c : crate) : bool :=
  match c with c_k256 | c_secp256k1 | c_p256 | c_dalek => true | _ => false end.

(** The features Cargo turns on for the requested ones, the dependencies it builds and
    their features. *)
Inductive enabled (R : feature -> Prop) : feature -> Prop :=
| en_requested f : R f -> enabled R f
| en_implied f g : enabled R f -> In (Feat g) (cargo_table f) -> enabled R g.
Inductive built (R : feature -> Prop) : crate -> Prop :=
| b_always c : optional c = false -> built R c
| b_dep f c : enabled R f -> In (Dep c) (cargo_table f) -> built R c
| b_depfeat f c x : enabled R f -> In (DepFeat c x) (cargo_table f) -> built R c.
Inductive crate_feature_on (R : feature -> Prop) : crate -> crate_feature -> Prop :=
| cf_strong f c x : enabled R f -> In (DepFeat c x) (cargo_table f) -> crate_feature_on R c x
| cf_weak f c x : enabled R f -> In (WeakDepFeat c x) (cargo_table f) -> built R c -> crate_feature_on R c x.

(** ** Types and traits *)
Inductive ty : Type :=
| Local (n : N)                                     (* a type of a downstream crate *)
| Secp256k1Curve (b : ty) | Nist256p1Curve (b : ty) | Ed25519Curve (b : ty)
| K256Backend | Secp256k1FfiBackend | P256Backend | Ed25519DalekBackend
| LibPrv (b : ty) | LibPub (b : ty).                (* key types of the crate behind backend [b] *)

Inductive trait : Type :=
| Curve | Bip32Curve | Slip10Curve | Slip10HardenedOnlyCurve | Slip10NonHardenedCurve
| Secp256k1Backend | Nist256p1Backend | Ed25519Backend
| CurvePrivateKey | CurvePublicKey | TweakableKey.

(** What downstream crates define for their types: impls, and the associated types of
    their curves and backends; [d_bytes] is [Some n] if [Bytes] is [[u8; n]]. *)
Record downstream : Type := {
  d_impl : trait -> N -> Prop;
  d_prv : N -> ty;
  d_pub : N -> ty;
  d_bytes : N -> option nat
}.

(** Associated types [PrivateKey] and [PublicKey] of backends and curves *)
Definition backend_prv (E : downstream) (b : ty) : ty :=
  match b with Local n => d_prv E n | b => LibPrv b end.
Definition backend_pub (E : downstream) (b : ty) : ty :=
  match b with Local n => d_pub E n | b => LibPub b end.
(** curve/secp256k1/mod.rs 16-17, nist256p1/mod.rs 16-17, ed25519/mod.rs 35-36 *)
Definition prv_of (E : downstream) (c : ty) : ty :=
  match c with
  | Secp256k1Curve b | Nist256p1Curve b | Ed25519Curve b => backend_prv E b
  | Local n => d_prv E n
  | c => LibPrv c
  end.
Definition pub_of (E : downstream) (c : ty) : ty :=
  match c with
  | Secp256k1Curve b | Nist256p1Curve b | Ed25519Curve b => backend_pub E b
  | Local n => d_pub E n
  | c => LibPub c
  end.
Definition bytes_of_key (E : downstream) (k : ty) : option nat :=
  match k with
  | LibPrv _ => Some 32%nat                         (* [type Bytes = [u8; 32]] in all four backends *)
  | LibPub _ => Some 33%nat                         (* [type Bytes = [u8; 33]] *)
  | Local n => d_bytes E n
  | _ => None
  end.

(** [cfg] of the backend modules: curve/mod.rs 72-76 with backends/mod.rs *)
Definition module_on (F : feature -> Prop) (b : ty) : Prop :=
  match b with
  | K256Backend => F f_k256                         (* secp256k1/backends/mod.rs 13-19 *)
  | Secp256k1FfiBackend => F f_secp256k1            (* 15-21 *)
  | P256Backend => F f_slip10 /\ F f_p256           (* curve/mod.rs 74, nist256p1/backends/mod.rs 13-17 *)
  | Ed25519DalekBackend => F f_slip10 /\ F f_dalek  (* curve/mod.rs 72, ed25519/backends/mod.rs 13-17 *)
  | _ => False
  end.

(** The impls.  [F] are the enabled features. *)
Inductive impls (F : feature -> Prop) (E : downstream) : trait -> ty -> Prop :=
(* curve/secp256k1/mod.rs 13-26 *)
| i_secp b : impls F E Secp256k1Backend b -> impls F E Curve (Secp256k1Curve b)
| i_secp_bip32 b : impls F E Secp256k1Backend b -> impls F E Bip32Curve (Secp256k1Curve b)
| i_secp_slip10 b : F f_slip10 -> impls F E Secp256k1Backend b -> impls F E Slip10Curve (Secp256k1Curve b)
| i_secp_nonhardened b : F f_slip10 -> impls F E Secp256k1Backend b ->
    impls F E Slip10NonHardenedCurve (Secp256k1Curve b)
(* curve/nist256p1/mod.rs 13-22, under curve/mod.rs 74 *)
| i_nist b : F f_slip10 -> impls F E Nist256p1Backend b -> impls F E Curve (Nist256p1Curve b)
| i_nist_slip10 b : F f_slip10 -> impls F E Nist256p1Backend b -> impls F E Slip10Curve (Nist256p1Curve b)
| i_nist_nonhardened b : F f_slip10 -> impls F E Nist256p1Backend b ->
    impls F E Slip10NonHardenedCurve (Nist256p1Curve b)
(* curve/ed25519/mod.rs 32-41, under curve/mod.rs 72 *)
| i_ed b : F f_slip10 -> impls F E Ed25519Backend b -> impls F E Curve (Ed25519Curve b)
| i_ed_slip10 b : F f_slip10 -> impls F E Ed25519Backend b -> impls F E Slip10Curve (Ed25519Curve b)
| i_ed_hardened b : F f_slip10 -> impls F E Ed25519Backend b ->
    impls F E Slip10HardenedOnlyCurve (Ed25519Curve b)
(* k256.rs 78, secp256k1.rs 129, p256.rs 79, ed25519_dalek.rs 48 *)
| i_k256 : module_on F K256Backend -> impls F E Secp256k1Backend K256Backend
| i_ffi : module_on F Secp256k1FfiBackend -> impls F E Secp256k1Backend Secp256k1FfiBackend
| i_p256 : module_on F P256Backend -> impls F E Nist256p1Backend P256Backend
| i_dalek : module_on F Ed25519DalekBackend -> impls F E Ed25519Backend Ed25519DalekBackend
(* the key types: all four files *)
| i_lib_prv b : module_on F b -> impls F E CurvePrivateKey (LibPrv b)
| i_lib_pub b : module_on F b -> impls F E CurvePublicKey (LibPub b)
(* k256.rs 29, 65; secp256k1.rs 85, 119; p256.rs 30, 66 *)
| i_lib_prv_tweak b : module_on F b -> b <> Ed25519DalekBackend -> impls F E TweakableKey (LibPrv b)
| i_lib_pub_tweak b : module_on F b -> b <> Ed25519DalekBackend -> impls F E TweakableKey (LibPub b)
(* downstream, by the orphan rule *)
| i_local t n : d_impl E t n -> impls F E t (Local n).

(** The bounds rustc checks on impls from downstream: supertraits and bounds of
    associated types (curve/mod.rs 6-15, 63; slip10.rs 6-12; backends/mod.rs 6-11); a trait
    must exist to be implemented. *)
Definition backend_bounds (F : feature -> Prop) (E : downstream) (tweak : Prop) (n : N) : Prop :=
  impls F E CurvePrivateKey (d_prv E n) /\ bytes_of_key E (d_prv E n) = Some 32%nat /\
  impls F E CurvePublicKey (d_pub E n) /\ bytes_of_key E (d_pub E n) = Some 33%nat /\
  (tweak -> impls F E TweakableKey (d_prv E n) /\ impls F E TweakableKey (d_pub E n)).
Definition compiles (F : feature -> Prop) (E : downstream) : Prop := forall n,
  (d_impl E Curve n -> impls F E CurvePrivateKey (d_prv E n) /\ impls F E CurvePublicKey (d_pub E n)) /\
  (d_impl E Bip32Curve n -> d_impl E Curve n) /\
  (d_impl E Slip10Curve n -> F f_slip10 /\ d_impl E Curve n) /\
  (d_impl E Slip10HardenedOnlyCurve n -> d_impl E Slip10Curve n) /\
  (d_impl E Slip10NonHardenedCurve n -> d_impl E Slip10Curve n) /\
  (d_impl E Secp256k1Backend n -> backend_bounds F E True n) /\
  (d_impl E Nist256p1Backend n -> F f_slip10 /\ backend_bounds F E True n) /\
  (d_impl E Ed25519Backend n -> F f_slip10 /\ backend_bounds F E False n).

(** ** Operations on [ExtendedPrivateKey<C>] and [ExtendedPublicKey<C>] *)
Inductive operation : Type :=
| PrvNew              (* core/private.rs 30-35 *)
| PrvPublicKey        (* core/private.rs 58 *)
| PrvDerive           (* core/private.rs 87-129: derive_child, derive_path *)
| PrvEncode           (* core/private.rs 145-161: encode_with, encode_with_unchecked *)
| PrvParse            (* core/private.rs 176-192: FromStr, TryFrom<ExtendedKeyPayload> *)
| PubDerive           (* core/public.rs 47-89 *)
| PubEncode           (* core/public.rs 99-115 *)
| PubParse            (* core/public.rs 125-141 *)
| SlipMaster          (* slip10.rs 50-53: new_slip10 *)
| SlipHardened        (* slip10.rs 93-96: hardened-only derivation *)
| SlipPrvDerive       (* slip10.rs 148-152: derivation of private keys, hardened or not *)
| SlipPubDerive.      (* slip10.rs 210-213 *)

Definition prv32 (F : feature -> Prop) (E : downstream) (c : ty) : Prop :=
  impls F E CurvePrivateKey (prv_of E c) /\ bytes_of_key E (prv_of E c) = Some 32%nat.
Definition pub33 (F : feature -> Prop) (E : downstream) (c : ty) : Prop :=
  impls F E CurvePublicKey (pub_of E c) /\ bytes_of_key E (pub_of E c) = Some 33%nat.

(** The [where] clauses; the module [slip10] is under xkey/mod.rs 5. *)
Definition available (F : feature -> Prop) (E : downstream) (o : operation) (c : ty) : Prop :=
  impls F E Curve c /\
  match o with
  | PrvNew => prv32 F E c
  | PrvPublicKey => True
  | PrvDerive => impls F E Bip32Curve c /\ impls F E TweakableKey (prv_of E c)
  | PrvEncode | PrvParse => impls F E Bip32Curve c /\ prv32 F E c
  | PubDerive => impls F E Bip32Curve c /\ impls F E TweakableKey (pub_of E c)
  | PubEncode | PubParse => impls F E Bip32Curve c /\ pub33 F E c
  | SlipMaster => F f_slip10 /\ impls F E Slip10Curve c /\ prv32 F E c
  | SlipHardened => F f_slip10 /\ impls F E Slip10HardenedOnlyCurve c /\ prv32 F E c
  | SlipPrvDerive =>
      F f_slip10 /\ impls F E Slip10NonHardenedCurve c /\ prv32 F E c /\
      impls F E TweakableKey (prv_of E c) /\ pub33 F E c
  | SlipPubDerive =>
      F f_slip10 /\ impls F E Slip10NonHardenedCurve c /\ pub33 F E c /\ impls F E TweakableKey (pub_of E c)
  end.

(** ** [CurveError::new], curve/error.rs 14-31 *)
(** An error type of a downstream crate: does it implement [core::error::Error] (which
    requires [Display] and [Debug]), [Display] and [Debug]?  All are [Send + Sync + 'static]. *)
Record error_ty : Type := { t_error : bool; t_display_debug : bool }.
Definition error_ty_ok (t : error_ty) : bool := implb (t_error t) (t_display_debug t).
(** With [std] the type must be [Into<anyhow::Error>], which holds for error types;
    without, [Display + Debug] is enough. *)
Definition curve_error_new (F : feature -> Prop) (t : error_ty) : Prop :=
  (F f_std -> t_error t = true) /\ (~ F f_std -> t_display_debug t = true).
