(** Boolean equality of results, so that examples reduce to [true = true]. *)
From Verif Require Import Base Str Mnemonic39.

Definition err39_eqb (a b : err39) : bool :=
  match a, b with
  | BadWordCount n, BadWordCount m => n =? m
  | BadEntropyBitCount n, BadEntropyBitCount m => n =? m
  | UnknownWord w, UnknownWord v => str_eqb w v
  | InvalidChecksum, InvalidChecksum => true
  | _, _ => false
  end.
Definition mnem_eqb (a b : Mnemonic) : bool :=
  str_eqb (m_phrase a) (m_phrase b) && bytes_eqb (m_entropy a) (m_entropy b).
Definition res_eqb {A : Type} (eqb : A -> A -> bool) (a b : res err39 A) : bool :=
  match a, b with
  | Ok x, Ok y => eqb x y
  | Err x, Err y => err39_eqb x y
  | Panic, Panic => true
  | _, _ => false
  end.

Lemma err39_eqb_eq a b : err39_eqb a b = true -> a = b.
Proof.
  destruct a, b; cbn; intros E; try discriminate; try reflexivity; f_equal.
  - apply N.eqb_eq. exact E.
  - apply N.eqb_eq. exact E.
  - apply str_eqb_eq. exact E.
Qed.
Lemma mnem_eqb_eq a b : mnem_eqb a b = true -> a = b.
Proof.
  unfold mnem_eqb. intros E. apply andb_true_iff in E as [E1 E2].
  apply str_eqb_eq in E1. apply bytes_eqb_eq in E2. destruct a, b. cbn in *. congruence.
Qed.
Lemma res_eqb_eq {A : Type} (eqb : A -> A -> bool) (H : forall x y, eqb x y = true -> x = y) a b :
  res_eqb eqb a b = true -> a = b.
Proof.
  destruct a, b; cbn; intros E; try discriminate; try reflexivity; f_equal.
  - apply H. exact E.
  - apply err39_eqb_eq. exact E.
Qed.
Lemma resm a b : res_eqb mnem_eqb a b = true -> a = b.
Proof. apply res_eqb_eq. exact mnem_eqb_eq. Qed.
Lemma ress a b : res_eqb str_eqb a b = true -> a = b.
Proof. apply res_eqb_eq. intros. apply str_eqb_eq. assumption. Qed.
Lemma resu a b : res_eqb (fun _ _ => true) a b = true -> a = b :> res err39 unit.
Proof. apply res_eqb_eq. intros [] []. reflexivity. Qed.
Lemma streq a b : str_eqb a b = true -> a = b.
Proof. apply str_eqb_eq. Qed.

Ltac run_m := apply resm; vm_cast_no_check (eq_refl true).
Ltac run_s := apply ress; vm_cast_no_check (eq_refl true).
Ltac run_u := apply resu; vm_cast_no_check (eq_refl true).
Ltac run_str := apply streq; vm_cast_no_check (eq_refl true).
