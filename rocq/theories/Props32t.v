(** Property theorems for the bip0032 crate: the feature matrices of README.md and
    SLIP-0010.md (C88), and additivity of Cargo features (C89). *)
From Verif Require Import Base Traits32.

(** ** C88 *)
(** The features in terms of the requested ones. *)
Theorem C88_features (R : feature -> Prop) :
  (enabled R f_default <-> R f_default) /\
  (enabled R f_std <-> R f_std \/ R f_default) /\
  (enabled R f_k256 <-> R f_k256 \/ R f_default) /\
  (enabled R f_secp256k1 <-> R f_secp256k1) /\
  (enabled R f_p256 <-> R f_p256) /\
  (enabled R f_dalek <-> R f_dalek) /\
  (enabled R f_slip10 <-> R f_slip10 \/ R f_p256 \/ R f_dalek).
Proof.
  assert (Back : forall f, enabled R f ->
    R f \/ (f = f_std /\ R f_default) \/ (f = f_k256 /\ R f_default) \/
    (f = f_slip10 /\ (R f_p256 \/ R f_dalek))).
  { induction 1 as [f H|f g H IH I]; [left; exact H|].
    destruct f; cbn [cargo_table In] in I;
      repeat match goal with X : _ \/ _ |- _ => destruct X | X : Feat _ = Feat _ |- _ => injection X as <-
             | X : _ /\ _ |- _ => destruct X end; try discriminate; try contradiction; tauto. }
  assert (Fw : forall f g, R f -> In (Feat g) (cargo_table f) -> enabled R g).
  { intros f g H I. exact (en_implied R f g (en_requested R f H) I). }
  repeat split; intros H;
    try (destruct (Back _ H) as [?|[[? ?]|[[? ?]|[? ?]]]]; try discriminate; tauto);
    repeat match goal with X : _ \/ _ |- _ => destruct X end;
    try (apply en_requested; assumption).
  - apply (Fw f_default); [assumption|cbn; tauto].
  - apply (Fw f_default); [assumption|cbn; tauto].
  - apply (Fw f_p256); [assumption|cbn; tauto].
  - apply (Fw f_dalek); [assumption|cbn; tauto].
Qed.

(** The crate behind a backend. *)
Definition crate_of (b : ty) : option crate :=
  match b with
  | K256Backend => Some c_k256 | Secp256k1FfiBackend => Some c_secp256k1
  | P256Backend => Some c_p256 | Ed25519DalekBackend => Some c_dalek
  | _ => None
  end.
(** A backend module is compiled just if its crate is built, whatever is requested; the crate
    features [std] and [arithmetic] are on when they should be. *)
Theorem C88_dependencies R b c : crate_of b = Some c ->
  (module_on (enabled R) b <-> built R c) /\
  (crate_feature_on R c cf_std <-> built R c /\ enabled R f_std /\ c <> c_dalek) /\
  (crate_feature_on R c cf_arithmetic <-> built R c /\ (c = c_k256 \/ c = c_p256)).
Proof.
  intros E.
  assert (SP : enabled R f_p256 -> enabled R f_slip10) by (intros H; apply (en_implied R _ _ H); cbn; tauto).
  assert (SD : enabled R f_dalek -> enabled R f_slip10) by (intros H; apply (en_implied R _ _ H); cbn; tauto).
  assert (B : built R c -> optional c = true -> exists f, enabled R f /\
     (f, c) = (f_k256, c_k256) \/ enabled R f /\ (f, c) = (f_secp256k1, c_secp256k1) \/
     enabled R f /\ (f, c) = (f_p256, c_p256) \/ enabled R f /\ (f, c) = (f_dalek, c_dalek)).
  { intros [d H|f d H I|f d x H I] O; [congruence| |]; exists f; destruct f; cbn in I;
      repeat match goal with X : _ \/ _ |- _ => destruct X | X : Dep _ = Dep _ |- _ => injection X as <-
             | X : DepFeat _ _ = DepFeat _ _ |- _ => injection X as <- <- end;
      try discriminate; try contradiction; tauto. }
  assert (O : optional c = true) by (destruct b; try discriminate E; injection E as <-; reflexivity).
  assert (M : module_on (enabled R) b <-> built R c).
  { split.
    - destruct b; try discriminate E; injection E as <-; cbn [module_on]; intros H.
      + apply (b_depfeat R f_k256 _ cf_arithmetic H). cbn; tauto.
      + apply (b_dep R f_secp256k1 _ H). cbn; tauto.
      + apply (b_depfeat R f_p256 _ cf_arithmetic (proj2 H)). cbn; tauto.
      + apply (b_dep R f_dalek _ (proj2 H)). cbn; tauto.
    - intros H. destruct (B H O) as [f D].
      destruct b; try discriminate E; injection E as <-; cbn [module_on];
        destruct D as [[D Q]|[[D Q]|[[D Q]|[D Q]]]]; try discriminate Q; injection Q as ->; auto. }
  assert (CF : forall x, crate_feature_on R c x -> built R c /\
     ((x = cf_std /\ enabled R f_std /\ c <> c_dalek) \/ (x = cf_arithmetic /\ (c = c_k256 \/ c = c_p256)))).
  { intros x [f d y H I|f d y H I H'].
    - split; [exact (b_depfeat R f d y H I)|]. destruct f; cbn in I;
        repeat match goal with X : _ \/ _ |- _ => destruct X | X : DepFeat _ _ = DepFeat _ _ |- _ => injection X as <- <- end;
        try discriminate; try contradiction; auto; left; (split; [reflexivity|split; [exact H|discriminate]]).
    - split; [exact H'|]. destruct f; cbn in I;
        repeat match goal with X : _ \/ _ |- _ => destruct X | X : WeakDepFeat _ _ = WeakDepFeat _ _ |- _ => injection X as <- <- end;
        try discriminate; try contradiction; left; (split; [reflexivity|split; [exact H|discriminate]]). }
  split; [exact M|]. split; split.
  - intros H. destruct (CF _ H) as [H1 [[_ H2]|[H2 _]]]; [tauto|discriminate].
  - intros [H1 [H2 H3]]. destruct b; try discriminate E; injection E as <-; try contradiction;
      (apply (cf_weak R f_std); [exact H2|cbn; tauto|exact H1]).
  - intros H. destruct (CF _ H) as [H1 [[H2 _]|[_ H2]]]; [discriminate|tauto].
  - intros [H1 H2]. destruct (B H1 O) as [f D].
    destruct H2 as [-> | ->]; destruct D as [[D Q]|[[D Q]|[[D Q]|[D Q]]]]; try discriminate Q; injection Q as ->;
      (apply (cf_strong R f_k256) + apply (cf_strong R f_p256)); try exact D; cbn; tauto.
Qed.

(** Column "Backends": the library backends that a curve accepts. *)
Theorem C88_backends R E b : (forall n, b <> Local n) ->
  (impls (enabled R) E Curve (Secp256k1Curve b) <->
     (b = K256Backend /\ enabled R f_k256) \/ (b = Secp256k1FfiBackend /\ enabled R f_secp256k1)) /\
  (impls (enabled R) E Curve (Nist256p1Curve b) <-> b = P256Backend /\ enabled R f_p256) /\
  (impls (enabled R) E Curve (Ed25519Curve b) <-> b = Ed25519DalekBackend /\ enabled R f_dalek).
Proof.
  intros NL.
  assert (SP : enabled R f_p256 -> enabled R f_slip10) by (intros H; apply (en_implied R _ _ H); cbn; tauto).
  assert (SD : enabled R f_dalek -> enabled R f_slip10) by (intros H; apply (en_implied R _ _ H); cbn; tauto).
  repeat split.
  - intros H. inversion H as [x B| | | | | | | | | | | | | | | | | |]; subst.
    inversion B; subst; cbn [module_on] in *; [left; auto|right; auto|exfalso; eapply NL; reflexivity].
  - intros [[-> H]|[-> H]]; apply i_secp; [apply i_k256|apply i_ffi]; exact H.
  - inversion H as [| | | |x S B| | | | | | | | | | | | | |]; subst.
    inversion B; subst; [reflexivity|exfalso; eapply NL; reflexivity].
  - inversion H as [| | | |x S B| | | | | | | | | | | | | |]; subst.
    inversion B; subst; cbn [module_on] in *; [tauto|exfalso; eapply NL; reflexivity].
  - intros [-> H]. apply i_nist; [auto|]. apply i_p256. cbn [module_on]. auto.
  - inversion H as [| | | | | | |x S B| | | | | | | | | | |]; subst.
    inversion B; subst; [reflexivity|exfalso; eapply NL; reflexivity].
  - inversion H as [| | | | | | |x S B| | | | | | | | | | |]; subst.
    inversion B; subst; cbn [module_on] in *; [tauto|exfalso; eapply NL; reflexivity].
  - intros [-> H]. apply i_ed; [auto|]. apply i_dalek. cbn [module_on]. auto.
Qed.

(** The rows of the tables: what a key of a curve can do.  Both kinds of SLIP-0010
    derivation of private keys include hardened steps. *)
Record row : Type := {
  r_bip32 : bool;             (* BIP-0032 derivation, of private and of public keys *)
  r_serialize : bool;         (* encode_with, FromStr, TryFrom *)
  r_slip_hardened : bool;
  r_slip_prv : bool;          (* non-hardened, private *)
  r_slip_pub : bool           (* non-hardened, public *)
}.
Definition has_row (F : feature -> Prop) (E : downstream) (c : ty) (r : row) : Prop :=
  (available F E PrvDerive c <-> r_bip32 r = true) /\
  (available F E PubDerive c <-> r_bip32 r = true) /\
  (forall o, In o [PrvEncode; PrvParse; PubEncode; PubParse] -> available F E o c <-> r_serialize r = true) /\
  (available F E SlipMaster c <-> r_slip_hardened r = true) /\
  (available F E SlipHardened c \/ available F E SlipPrvDerive c <-> r_slip_hardened r = true) /\
  (available F E SlipPrvDerive c <-> r_slip_prv r = true) /\
  (available F E SlipPubDerive c <-> r_slip_pub r = true).

Section Rows.
Variables (F : feature -> Prop) (E : downstream).
Hypothesis HE : compiles F E.

Lemma backend_keys t b : impls F E t b -> t = Secp256k1Backend \/ t = Nist256p1Backend \/ t = Ed25519Backend ->
  impls F E CurvePrivateKey (backend_prv E b) /\ bytes_of_key E (backend_prv E b) = Some 32%nat /\
  impls F E CurvePublicKey (backend_pub E b) /\ bytes_of_key E (backend_pub E b) = Some 33%nat /\
  (t <> Ed25519Backend -> impls F E TweakableKey (backend_prv E b) /\ impls F E TweakableKey (backend_pub E b)).
Proof.
  intros H T. destruct H as [ | | | | | | | | | |M|M|M|M|b M|b M|b M|b M|t n D];
    try (destruct T as [T|[T|T]]; discriminate T);
    cbn [backend_prv backend_pub bytes_of_key].
  1-4: split; [apply i_lib_prv; exact M|]; split; [reflexivity|]; split; [apply i_lib_pub; exact M|]; split; [reflexivity|];
    intros NE; try contradiction; (split; [apply i_lib_prv_tweak|apply i_lib_pub_tweak]; [exact M|discriminate|exact M|discriminate]).
  destruct (HE n) as (_ & _ & _ & _ & _ & A & B & C). unfold backend_bounds in *.
  destruct T as [-> | [-> | ->]].
  - specialize (A D). tauto.
  - specialize (B D). tauto.
  - specialize (C D). destruct C as [_ (C1 & C2 & C3 & C4 & _)]. repeat split; try assumption; contradiction.
Qed.

Lemma secp_row b : impls F E Secp256k1Backend b ->
  (F f_slip10 -> has_row F E (Secp256k1Curve b) (Build_row true true true true true)) /\
  (~ F f_slip10 -> has_row F E (Secp256k1Curve b) (Build_row true true false false false)) /\
  ~ available F E SlipHardened (Secp256k1Curve b).
Proof.
  intros H. destruct (backend_keys _ _ H (or_introl eq_refl)) as (K1 & K2 & K3 & K4 & K5).
  destruct K5 as [K5 K6]; [discriminate|].
  assert (NH : ~ available F E SlipHardened (Secp256k1Curve b)).
  { intros (_ & _ & Q & _). inversion Q. }
  assert (C := i_secp F E b H). assert (C32 := i_secp_bip32 F E b H).
  unfold has_row; cbn [r_bip32 r_serialize r_slip_hardened r_slip_prv r_slip_pub].
  split; [|split; [|exact NH]]; intros S.
  - assert (S1 := i_secp_slip10 F E b S H). assert (S2 := i_secp_nonhardened F E b S H).
    unfold available, prv32, pub33. cbn [prv_of pub_of].
    repeat split; try tauto; try (destruct H0 as [<-|[<-|[<-|[<-|[]]]]]; tauto); try exact C;
      try (destruct H0 as [<-|[<-|[<-|[<-|[]]]]]; intros; split; [exact C|]; split; [exact C32|]; split; assumption).
  - unfold available, prv32, pub33. cbn [prv_of pub_of].
    repeat split; try tauto; try discriminate;
      try (destruct H0 as [<-|[<-|[<-|[<-|[]]]]]; tauto).
Qed.

Lemma nist_row b : impls F E Nist256p1Backend b ->
  F f_slip10 /\ has_row F E (Nist256p1Curve b) (Build_row false false true true true) /\
  ~ available F E SlipHardened (Nist256p1Curve b).
Proof.
  intros H. destruct (backend_keys _ _ H (or_intror (or_introl eq_refl))) as (K1 & K2 & K3 & K4 & K5).
  destruct K5 as [K5 K6]; [discriminate|].
  assert (S : F f_slip10).
  { inversion H as [ | | | | | | | | | | | |M| | | | | |t n D]; subst; [exact (proj1 M)|].
    destruct (HE n) as (_ & _ & _ & _ & _ & _ & B & _). exact (proj1 (B D)). }
  assert (NB : ~ impls F E Bip32Curve (Nist256p1Curve b)) by (intros Q; inversion Q).
  assert (NS : ~ impls F E Slip10HardenedOnlyCurve (Nist256p1Curve b)) by (intros Q; inversion Q).
  assert (C := i_nist F E b S H). assert (S1 := i_nist_slip10 F E b S H). assert (S2 := i_nist_nonhardened F E b S H).
  split; [exact S|]. unfold has_row; cbn [r_bip32 r_serialize r_slip_hardened r_slip_prv r_slip_pub].
  unfold available, prv32, pub33. cbn [prv_of pub_of].
  repeat split; try tauto; try discriminate; try (destruct H0 as [<-|[<-|[<-|[<-|[]]]]]; tauto).
Qed.
Lemma ed_row b : impls F E Ed25519Backend b ->
  F f_slip10 /\ has_row F E (Ed25519Curve b) (Build_row false false true false false) /\
  available F E SlipHardened (Ed25519Curve b).
Proof.
  intros H. destruct (backend_keys _ _ H (or_intror (or_intror eq_refl))) as (K1 & K2 & K3 & K4 & _).
  assert (S : F f_slip10).
  { inversion H as [ | | | | | | | | | | | | |M| | | | |t n D]; subst; [exact (proj1 M)|].
    destruct (HE n) as (_ & _ & _ & _ & _ & _ & _ & B). exact (proj1 (B D)). }
  assert (NB : ~ impls F E Bip32Curve (Ed25519Curve b)) by (intros Q; inversion Q).
  assert (NS : ~ impls F E Slip10NonHardenedCurve (Ed25519Curve b)) by (intros Q; inversion Q).
  assert (C := i_ed F E b S H). assert (S1 := i_ed_slip10 F E b S H). assert (S2 := i_ed_hardened F E b S H).
  split; [exact S|]. unfold has_row; cbn [r_bip32 r_serialize r_slip_hardened r_slip_prv r_slip_pub].
  unfold available, prv32, pub33. cbn [prv_of pub_of].
  repeat split; try tauto; try discriminate; try (destruct H0 as [<-|[<-|[<-|[<-|[]]]]]; tauto).
Qed.
End Rows.

(** C88: the tables, for every backend of the crate and of any downstream crate. *)
Theorem C88_matrix (R : feature -> Prop) E b : compiles (enabled R) E ->
  (* README.md; SLIP-0010.md, first row *)
  (impls (enabled R) E Secp256k1Backend b ->
     (enabled R f_slip10 -> has_row (enabled R) E (Secp256k1Curve b)
        {| r_bip32 := true; r_serialize := true; r_slip_hardened := true; r_slip_prv := true; r_slip_pub := true |}) /\
     (~ enabled R f_slip10 -> has_row (enabled R) E (Secp256k1Curve b)
        {| r_bip32 := true; r_serialize := true; r_slip_hardened := false; r_slip_prv := false; r_slip_pub := false |})) /\
  (* SLIP-0010.md, second and third row *)
  (impls (enabled R) E Nist256p1Backend b -> has_row (enabled R) E (Nist256p1Curve b)
     {| r_bip32 := false; r_serialize := false; r_slip_hardened := true; r_slip_prv := true; r_slip_pub := true |}) /\
  (impls (enabled R) E Ed25519Backend b -> has_row (enabled R) E (Ed25519Curve b)
     {| r_bip32 := false; r_serialize := false; r_slip_hardened := true; r_slip_prv := false; r_slip_pub := false |}).
Proof.
  intros HE. split; [|split]; intros H.
  - destruct (secp_row _ E HE b H) as (A & B & _). split; assumption.
  - apply (nist_row _ E HE b H).
  - apply (ed_row _ E HE b H).
Qed.
(** Nothing a downstream crate can write lets an ed25519 key be derived without hardening,
    or an ed25519 or nist256p1 key be derived by BIP-0032 or serialised; no curve of the
    crate has both kinds of SLIP-0010 derivation. *)
Theorem C88_never F E b :
  (forall o, In o [PrvDerive; PrvEncode; PrvParse; PubDerive; PubEncode; PubParse; SlipPrvDerive; SlipPubDerive] ->
     ~ available F E o (Ed25519Curve b)) /\
  (forall o, In o [PrvDerive; PrvEncode; PrvParse; PubDerive; PubEncode; PubParse; SlipHardened] ->
     ~ available F E o (Nist256p1Curve b)) /\
  ~ available F E SlipHardened (Secp256k1Curve b).
Proof.
  assert (A : ~ impls F E Bip32Curve (Ed25519Curve b)) by (intros Q; inversion Q).
  assert (A1 : ~ impls F E Slip10NonHardenedCurve (Ed25519Curve b)) by (intros Q; inversion Q).
  assert (B : ~ impls F E Bip32Curve (Nist256p1Curve b)) by (intros Q; inversion Q).
  assert (B1 : ~ impls F E Slip10HardenedOnlyCurve (Nist256p1Curve b)) by (intros Q; inversion Q).
  assert (C : ~ impls F E Slip10HardenedOnlyCurve (Secp256k1Curve b)) by (intros Q; inversion Q).
  split; [|split].
  - intros o H V. repeat destruct H as [<-|H]; try contradiction; unfold available in V; tauto.
  - intros o H V. repeat destruct H as [<-|H]; try contradiction; unfold available in V; tauto.
  - unfold available. tauto.
Qed.
(** Nor can it for a curve of its own on ed25519-dalek's key types, which cannot be tweaked. *)
Theorem C88_dalek_keys F E c :
  (prv_of E c = LibPrv Ed25519DalekBackend -> ~ available F E PrvDerive c /\ ~ available F E SlipPrvDerive c) /\
  (pub_of E c = LibPub Ed25519DalekBackend -> ~ available F E PubDerive c /\ ~ available F E SlipPubDerive c).
Proof.
  assert (A : ~ impls F E TweakableKey (LibPrv Ed25519DalekBackend)) by (intros Q; inversion Q; congruence).
  assert (B : ~ impls F E TweakableKey (LibPub Ed25519DalekBackend)) by (intros Q; inversion Q; congruence).
  split; intros K; unfold available; rewrite K; tauto.
Qed.
(** [ExtendedPrivateKey::new] asks for less: it makes master keys of every curve, by the rule of
    BIP-0032 without retries, also where only SLIP-0010 is defined. *)
Theorem C88_new_everywhere F E b : compiles F E ->
  (impls F E Nist256p1Backend b -> available F E PrvNew (Nist256p1Curve b)) /\
  (impls F E Ed25519Backend b -> available F E PrvNew (Ed25519Curve b)).
Proof.
  intros HE. split; intros H.
  - destruct (nist_row F E HE b H) as [S _].
    destruct (backend_keys F E HE _ _ H (or_intror (or_introl eq_refl))) as (K1 & K2 & _).
    split; [exact (i_nist F E b S H)|]. split; assumption.
  - destruct (ed_row F E HE b H) as [S _].
    destruct (backend_keys F E HE _ _ H (or_intror (or_intror eq_refl))) as (K1 & K2 & _).
    split; [exact (i_ed F E b S H)|]. split; assumption.
Qed.
Print Assumptions C88_features.
Print Assumptions C88_dependencies.
Print Assumptions C88_backends.
Print Assumptions C88_matrix.
Print Assumptions C88_never.
Print Assumptions C88_dalek_keys.
Print Assumptions C88_new_everywhere.

(** A downstream crate with an ed25519 backend of its own over k256's key types, which meet
    the bounds, requesting [ed25519-dalek] and the default features: both its backend and the
    crate's give keys with hardened derivation only. *)
Definition case_features (f : feature) : Prop := f = f_default \/ f = f_dalek.
Definition case_downstream : downstream := {|
  d_impl := fun t n => t = Ed25519Backend /\ n = 0;
  d_prv := fun _ => LibPrv K256Backend;
  d_pub := fun _ => LibPub K256Backend;
  d_bytes := fun _ => None
|}.
Example C88_case :
  let F := enabled case_features in
  compiles F case_downstream /\
  impls F case_downstream Ed25519Backend (Local 0) /\
  impls F case_downstream Ed25519Backend Ed25519DalekBackend /\
  impls F case_downstream Secp256k1Backend K256Backend /\
  available F case_downstream SlipHardened (Ed25519Curve (Local 0)) /\
  ~ available F case_downstream SlipPrvDerive (Ed25519Curve (Local 0)) /\
  available F case_downstream SlipPubDerive (Secp256k1Curve K256Backend).
Proof.
  cbv zeta. pose proof (C88_features case_features) as (_ & _ & (_ & K) & _ & _ & (_ & D) & (_ & SL)).
  assert (FK : enabled case_features f_k256) by (apply K; right; left; reflexivity).
  assert (FD : enabled case_features f_dalek) by (apply D; right; reflexivity).
  assert (FS : enabled case_features f_slip10) by (apply SL; right; right; right; reflexivity).
  assert (HE : compiles (enabled case_features) case_downstream).
  { intros n. cbn [d_impl case_downstream]. repeat split; try (intros [Q _]; discriminate Q);
      try (destruct H as [Q _]; discriminate Q); try exact FS.
    - apply i_lib_prv. exact FK.
    - apply i_lib_pub. exact FK.
    - destruct H0.
    - destruct H0. }
  split; [exact HE|].
  assert (L : impls (enabled case_features) case_downstream Ed25519Backend (Local 0)) by (apply i_local; split; reflexivity).
  split; [exact L|]. split; [apply i_dalek; split; assumption|]. split; [apply i_k256; exact FK|].
  split; [apply (ed_row _ _ HE _ L)|]. split; [apply C88_never; cbn; tauto|].
  destruct (secp_row _ _ HE K256Backend (i_k256 _ _ FK)) as [A _].
  destruct (A FS) as (_ & _ & _ & _ & _ & _ & Q). apply Q. reflexivity.
Qed.

(** ** C89 *)
Definition more (F F' : feature -> Prop) : Prop := forall f, F f -> F' f.

(** C89: turning on a feature, in this crate or by another user of it, removes no impl and no
    operation and breaks no impl of a downstream crate. *)
Theorem C89_additive R R' E : more R R' ->
  more (enabled R) (enabled R') /\
  (forall c, built R c -> built R' c) /\
  (forall t x, impls (enabled R) E t x -> impls (enabled R') E t x) /\
  (forall o c, available (enabled R) E o c -> available (enabled R') E o c) /\
  (compiles (enabled R) E -> compiles (enabled R') E).
Proof.
  intros M.
  assert (A : more (enabled R) (enabled R')).
  { induction 1 as [f H|f g H IH I]; [apply en_requested, M, H|exact (en_implied R' f g IH I)]. }
  assert (MO : forall b, module_on (enabled R) b -> module_on (enabled R') b).
  { intros b. destruct b; cbn [module_on]; auto; intros [? ?]; auto. }
  assert (I : forall t x, impls (enabled R) E t x -> impls (enabled R') E t x).
  { induction 1; try (constructor; auto; fail). }
  assert (P : forall c, prv32 (enabled R) E c -> prv32 (enabled R') E c) by (intros c [? ?]; split; auto).
  assert (Q : forall c, pub33 (enabled R) E c -> pub33 (enabled R') E c) by (intros c [? ?]; split; auto).
  assert (BB : forall t n, backend_bounds (enabled R) E t n -> backend_bounds (enabled R') E t n).
  { intros t n (X1 & X2 & X3 & X4 & X5). repeat split; auto; apply I, X5; assumption. }
  split; [exact A|]. split; [|split; [exact I|split]].
  - intros c [d H|f d H J|f d x H J]; [apply b_always; exact H|exact (b_dep R' f d (A f H) J)|exact (b_depfeat R' f d x (A f H) J)].
  - intros o c [H1 H2]. split; [auto|]. destruct o; intuition.
  - intros HE n. destruct (HE n) as (X1 & X2 & X3 & X4 & X5 & X6 & X7 & X8).
    split; [intros D; destruct (X1 D); split; auto|]. split; [exact X2|].
    split; [intros D; destruct (X3 D); split; auto|]. split; [exact X4|]. split; [exact X5|].
    split; [intros D; exact (BB _ _ (X6 D))|].
    split; [intros D; destruct (X7 D); split; auto|]. intros D. destruct (X8 D). split; auto.
Qed.
(** One item is not additive: [CurveError::new] takes more types without [std] than with it, so
    a backend that compiles without stops compiling when any user of the crate turns it on. *)
Theorem C89_curve_error_refuted :
  exists R R' t, more R R' /\ error_ty_ok t = true /\
    curve_error_new (enabled R) t /\ ~ curve_error_new (enabled R') t.
Proof.
  exists (fun f => f = f_k256), (fun f => f = f_k256 \/ f = f_std), {| t_error := false; t_display_debug := true |}.
  split; [intros f H; left; exact H|]. split; [reflexivity|].
  pose proof (C88_features (fun f => f = f_k256)) as (_ & S & _).
  pose proof (C88_features (fun f => f = f_k256 \/ f = f_std)) as (_ & S' & _). split.
  - split; [|reflexivity]. intros H. apply S in H. destruct H; discriminate.
  - intros [H _]. assert (Q : false = true); [|discriminate Q]. apply H, S'. left. right. reflexivity.
Qed.
(** Error types proper are taken either way. *)
Theorem C89_curve_error_types F t : error_ty_ok t = true -> t_error t = true -> curve_error_new F t.
Proof.
  unfold error_ty_ok. intros H E. split; intros _; [exact E|]. rewrite E in H. exact H.
Qed.
Print Assumptions C89_additive.
Print Assumptions C89_curve_error_refuted.
Print Assumptions C89_curve_error_types.

(** From [k256] alone to all features. *)
Example C89_case : more (fun f => f = f_k256) (fun _ => True) /\
  compiles (enabled (fun f => f = f_k256))
    {| d_impl := fun t n => t = Secp256k1Backend; d_prv := fun _ => LibPrv K256Backend;
       d_pub := fun _ => LibPub K256Backend; d_bytes := fun _ => None |} /\
  available (enabled (fun f => f = f_k256))
    {| d_impl := fun t n => t = Secp256k1Backend; d_prv := fun _ => LibPrv K256Backend;
       d_pub := fun _ => LibPub K256Backend; d_bytes := fun _ => None |} PubDerive (Secp256k1Curve (Local 7)).
Proof.
  set (R := fun f => f = f_k256). set (E := Build_downstream _ _ _ _).
  assert (FK : enabled R f_k256) by (apply en_requested; reflexivity).
  assert (HE : compiles (enabled R) E).
  { intros n. cbn [d_impl E]. repeat split; try discriminate.
    - apply i_lib_prv. exact FK.
    - apply i_lib_pub. exact FK.
    - apply i_lib_prv_tweak; [exact FK|discriminate].
    - apply i_lib_pub_tweak; [exact FK|discriminate]. }
  split; [intros f _; exact I|]. split; [exact HE|].
  assert (L : impls (enabled R) E Secp256k1Backend (Local 7)) by (apply i_local; reflexivity).
  split; [exact (i_secp _ _ _ L)|]. split; [exact (i_secp_bip32 _ _ _ L)|].
  apply (backend_keys _ _ HE _ _ L (or_introl eq_refl)). discriminate.
Qed.
