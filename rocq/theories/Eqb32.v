(** Boolean equality of results of the bip0032 model, for the examples. *)
From Verif Require Import Base Str Error32 Version32 Path32 Meta32 Payload32 Curve32 XKey32.

Definition kind_eqb (a b : ErrorKind) : bool :=
  match a, b with
  | InvalidPath, InvalidPath | InvalidPayload, InvalidPayload | InvalidVersion, InvalidVersion
  | InvalidKeyData, InvalidKeyData | InvalidDerivation, InvalidDerivation => true
  | _, _ => false
  end.
Definition source_eqb (a b : Source) : bool :=
  match a, b with
  | SText s, SText t => str_eqb s t
  | SEllipticCurve, SEllipticCurve | SSecpPublicKey, SSecpPublicKey
  | SSecpSecretKey, SSecpSecretKey | SSecpTweak, SSecpTweak | SScalarRange, SScalarRange
  | SDalek, SDalek | SBufferTooSmall, SBufferTooSmall | SNoChecksum, SNoChecksum => true
  | SInvalidCharacter c i, SInvalidCharacter d j => (c =? d) && (i =? j)%nat
  | SNonAscii i, SNonAscii j => (i =? j)%nat
  | SChecksum a b, SChecksum c d => bytes_eqb a c && bytes_eqb b d
  | _, _ => false
  end.
Definition pair_eqb (a b : str * str) : bool := str_eqb (fst a) (fst b) && str_eqb (snd a) (snd b).
Definition osource_eqb (a b : option Source) : bool :=
  match a, b with Some a, Some b => source_eqb a b | None, None => true | _, _ => false end.
Definition error_eqb (a b : Error) : bool :=
  kind_eqb (e_kind a) (e_kind b) && str_eqb (e_message a) (e_message b) &&
  list_eqb pair_eqb (e_context a) (e_context b) && osource_eqb (e_source a) (e_source b).

Lemma kind_eqb_eq a b : kind_eqb a b = true -> a = b.
Proof. destruct a, b; cbn; congruence. Qed.
Lemma source_eqb_eq a b : source_eqb a b = true -> a = b.
Proof.
  destruct a, b; cbn; intros E; try discriminate; try reflexivity.
  - apply str_eqb_eq in E. congruence.
  - apply andb_true_iff in E as [E1 E2]. apply N.eqb_eq in E1. apply Nat.eqb_eq in E2. congruence.
  - apply Nat.eqb_eq in E. congruence.
  - apply andb_true_iff in E as [E1 E2]. apply bytes_eqb_eq in E1, E2. congruence.
Qed.
Lemma pair_eqb_eq a b : pair_eqb a b = true <-> a = b.
Proof.
  unfold pair_eqb. destruct a, b; cbn. rewrite andb_true_iff, !str_eqb_eq.
  split; [intros [-> ->]; reflexivity|intros [= -> ->]; auto].
Qed.
Lemma error_eqb_eq a b : error_eqb a b = true -> a = b.
Proof.
  unfold error_eqb. rewrite !andb_true_iff. intros [[[H1 H2] H3] H4].
  apply kind_eqb_eq in H1. apply str_eqb_eq in H2. apply (list_eqb_eq _ pair_eqb_eq) in H3.
  assert (H5 : e_source a = e_source b).
  { destruct (e_source a), (e_source b); cbn in H4; try discriminate; [|reflexivity].
    apply source_eqb_eq in H4. congruence. }
  destruct a, b; cbn in *. congruence.
Qed.

Definition res32_eqb {A : Type} (eqb : A -> A -> bool) (a b : res Error A) : bool :=
  match a, b with
  | Ok x, Ok y => eqb x y
  | Err x, Err y => error_eqb x y
  | Panic, Panic => true
  | _, _ => false
  end.
Lemma res32_eqb_eq {A : Type} (eqb : A -> A -> bool) (H : forall x y, eqb x y = true -> x = y) a b :
  res32_eqb eqb a b = true -> a = b.
Proof.
  destruct a, b; cbn; intros E; try discriminate; try reflexivity; f_equal.
  - apply H. exact E.
  - apply error_eqb_eq. exact E.
Qed.

Definition meta_eqb (a b : Metadata) : bool :=
  byte_eqb (m_depth a) (m_depth b) && bytes_eqb (m_fingerprint a) (m_fingerprint b) &&
  (m_child a =? m_child b) && bytes_eqb (m_chain a) (m_chain b).
Lemma meta_eqb_eq a b : meta_eqb a b = true -> a = b.
Proof.
  unfold meta_eqb. rewrite !andb_true_iff. intros [[[H1 H2] H3] H4].
  apply byte_eqb_eq in H1. apply bytes_eqb_eq in H2, H4. apply N.eqb_eq in H3.
  destruct a, b; cbn in *. congruence.
Qed.
Lemma version_eqb_eq a b : version_eqb a b = true -> a = b.
Proof. destruct a, b; cbn; intros E; try discriminate; apply N.eqb_eq in E; congruence. Qed.
Definition payload_eqb (a b : Payload) : bool :=
  version_eqb (p_version a) (p_version b) && meta_eqb (p_meta a) (p_meta b) &&
  bytes_eqb (p_key a) (p_key b).
Lemma payload_eqb_eq a b : payload_eqb a b = true -> a = b.
Proof.
  unfold payload_eqb. rewrite !andb_true_iff. intros [[H1 H2] H3].
  apply version_eqb_eq in H1. apply meta_eqb_eq in H2. apply bytes_eqb_eq in H3.
  destruct a, b; cbn in *. congruence.
Qed.

Lemma run_path a b : res32_eqb (list_eqb N.eqb) a b = true -> a = b.
Proof. apply res32_eqb_eq. intros. apply (list_eqb_eq _ N.eqb_eq). assumption. Qed.
Lemma run_n a b : res32_eqb N.eqb a b = true -> a = b.
Proof. apply res32_eqb_eq. intros. apply N.eqb_eq. assumption. Qed.
Lemma run_string a b : res32_eqb str_eqb a b = true -> a = b.
Proof. apply res32_eqb_eq. intros. apply str_eqb_eq. assumption. Qed.
Lemma run_payload a b : res32_eqb payload_eqb a b = true -> a = b.
Proof. apply res32_eqb_eq. exact payload_eqb_eq. Qed.
Lemma run_opt_string (a b : option str) :
  match a, b with Some x, Some y => str_eqb x y | None, None => true | _, _ => false end = true -> a = b.
Proof. destruct a, b; intros E; try discriminate; [apply str_eqb_eq in E; congruence|reflexivity]. Qed.
Lemma run_decode (a b : Source + list byte) :
  match a, b with
  | inl x, inl y => source_eqb x y
  | inr x, inr y => bytes_eqb x y
  | _, _ => false
  end = true -> a = b.
Proof.
  destruct a, b; intros E; try discriminate;
    [apply source_eqb_eq in E|apply bytes_eqb_eq in E]; congruence.
Qed.
Ltac eval_by l := apply l; vm_cast_no_check (eq_refl true).
