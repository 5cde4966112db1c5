(** Foundations shared by both crate models: results with explicit panics,
    bytes, and a few list functions. *)
From Coq Require Export List NArith Arith Bool Lia String Ascii.
From Coq.Strings Require Export Byte.
From Coq Require Export ZifyBool ZifyNat ZifyN.
Export ListNotations.
Open Scope list_scope.
Open Scope N_scope.
(* [length] is the list length everywhere (String exports another one). *)
Notation length := List.length.
Notation concat := List.concat.

(** A Rust computation returns [Ok v], [Err e], or panics.  [Panic] stands for
    every panic source of the code: failed [debug_assert!], arithmetic overflow
    with overflow checks on, out-of-range index or slice, [copy_from_slice]
    length mismatch, [expect] on an error.  *)
Inductive res (E A : Type) : Type :=
| Ok (a : A)
| Err (e : E)
| Panic.
Arguments Ok {E A} a.
Arguments Err {E A} e.
Arguments Panic {E A}.

(** Rust's [?] operator. *)
Definition bind {E A B : Type} (r : res E A) (f : A -> res E B) : res E B :=
  match r with Ok a => f a | Err e => Err e | Panic => Panic end.
Notation "'let?' x ':=' r 'in' k" := (bind r (fun x => k))
  (at level 200, x pattern, r at level 100, k at level 200, right associativity).

(** [Result::map] / [map_err]. *)
Definition res_map {E A B : Type} (f : A -> B) (r : res E A) : res E B :=
  match r with Ok a => Ok (f a) | Err e => Err e | Panic => Panic end.
Definition map_err {E F A : Type} (f : E -> F) (r : res E A) : res F A :=
  match r with Ok a => Ok a | Err e => Err (f e) | Panic => Panic end.

Definition is_ok {E A : Type} (r : res E A) : bool :=
  match r with Ok _ => true | _ => false end.

(** [Option::ok_or]. *)
Definition ok_or {E A : Type} (o : option A) (e : E) : res E A :=
  match o with Some a => Ok a | None => Err e end.

(** ** Bytes *)

(** [b as u64] etc.: widening cast. *)
Definition b2n (b : byte) : N := Byte.to_N b.

(** [n as u8]: truncating cast. *)
Definition n2b (n : N) : byte :=
  match Byte.of_N (n mod 256) with Some b => b | None => x00 end.

Lemma b2n_bound b : b2n b < 256.
Proof. unfold b2n. pose proof (Byte.to_N_bounded b). lia. Qed.

Lemma b2n_n2b n : b2n (n2b n) = n mod 256.
Proof.
  unfold n2b, b2n. destruct (Byte.of_N (n mod 256)) as [b|] eqn:E.
  - apply Byte.to_of_N in E. exact E.
  - apply Byte.of_N_None_iff in E. assert (n mod 256 < 256) by (apply N.mod_lt; lia). lia.
Qed.

Lemma n2b_b2n b : n2b (b2n b) = b.
Proof.
  unfold n2b, b2n. rewrite N.mod_small by (pose proof (Byte.to_N_bounded b); lia).
  rewrite Byte.of_to_N. reflexivity.
Qed.

Lemma b2n_inj a b : b2n a = b2n b -> a = b.
Proof. intros H. rewrite <- (n2b_b2n a), <- (n2b_b2n b), H. reflexivity. Qed.

Definition byte_eqb (a b : byte) : bool := b2n a =? b2n b.
Lemma byte_eqb_eq a b : byte_eqb a b = true <-> a = b.
Proof.
  unfold byte_eqb. rewrite N.eqb_eq. split; [apply b2n_inj | intros ->; reflexivity].
Qed.

(** Equality of lists given a boolean equality. *)
Fixpoint list_eqb {A : Type} (eqb : A -> A -> bool) (l m : list A) : bool :=
  match l, m with
  | [], [] => true
  | a :: l', b :: m' => eqb a b && list_eqb eqb l' m'
  | _, _ => false
  end.

Lemma list_eqb_eq {A : Type} (eqb : A -> A -> bool) :
  (forall a b, eqb a b = true <-> a = b) ->
  forall l m, list_eqb eqb l m = true <-> l = m.
Proof.
  intros H. induction l as [|a l IH]; destruct m as [|b m]; cbn; split; intros E;
    try reflexivity; try discriminate.
  - apply andb_true_iff in E. destruct E as [E1 E2]. apply H in E1. apply IH in E2.
    subst. reflexivity.
  - injection E as -> ->. apply andb_true_iff. split; [apply H | apply IH]; reflexivity.
Qed.

Definition bytes_eqb : list byte -> list byte -> bool := list_eqb byte_eqb.
Lemma bytes_eqb_eq l m : bytes_eqb l m = true <-> l = m.
Proof. apply list_eqb_eq. exact byte_eqb_eq. Qed.

(** ** Big-endian integers *)

(** Value of a big-endian byte string ([u32::from_be_bytes] for 4 bytes). *)
Definition be_val (l : list byte) : N :=
  fold_left (fun acc b => acc * 256 + b2n b) l 0.

(** [len] big-endian bytes of [n] ([u32::to_be_bytes] for [len = 4]); the value
    is reduced modulo 256^len. *)
Fixpoint be_bytes (len : nat) (n : N) : list byte :=
  match len with
  | O => []
  | S len' => be_bytes len' (n / 256) ++ [n2b n]
  end.

Definition u32_from_be (l : list byte) : N := be_val l.
Definition u32_to_be (n : N) : list byte := be_bytes 4 n.

Lemma be_bytes_length len n : length (be_bytes len n) = len.
Proof.
  revert n; induction len as [|len IH]; intros n; cbn [be_bytes]; [reflexivity|].
  rewrite app_length, IH. cbn. lia.
Qed.

Lemma be_val_app l m : be_val (l ++ m) = be_val l * 256 ^ N.of_nat (length m) + be_val m.
Proof.
  unfold be_val. rewrite fold_left_app.
  generalize (fold_left (fun acc b => acc * 256 + b2n b) l 0) as a.
  induction m as [|x m IH] using rev_ind; intros a.
  - cbn. lia.
  - rewrite !fold_left_app. cbn [fold_left]. rewrite (IH a), (IH 0).
    rewrite app_length. cbn [length].
    replace (N.of_nat (length m + 1)) with (N.succ (N.of_nat (length m))) by lia.
    rewrite N.pow_succ_r'. lia.
Qed.

Lemma be_val_snoc l b : be_val (l ++ [b]) = be_val l * 256 + b2n b.
Proof. unfold be_val. rewrite fold_left_app. reflexivity. Qed.

Lemma be_val_bound l : be_val l < 256 ^ N.of_nat (length l).
Proof.
  induction l as [|x l IH] using rev_ind; [cbn; lia|].
  rewrite be_val_snoc, app_length. cbn [length].
  replace (N.of_nat (length l + 1)) with (N.succ (N.of_nat (length l))) by lia.
  rewrite N.pow_succ_r'. pose proof (b2n_bound x). lia.
Qed.

Lemma be_val_be_bytes len n : be_val (be_bytes len n) = n mod 256 ^ N.of_nat len.
Proof.
  revert n; induction len as [|len IH]; intros n.
  - cbn [be_bytes N.of_nat]. rewrite N.pow_0_r, N.mod_1_r. reflexivity.
  - cbn [be_bytes]. rewrite be_val_snoc, IH, b2n_n2b.
    replace (N.of_nat (S len)) with (N.succ (N.of_nat len)) by lia.
    rewrite N.pow_succ_r'.
    assert (256 ^ N.of_nat len <> 0) by (apply N.pow_nonzero; lia).
    rewrite N.mod_mul_r by lia. lia.
Qed.

Lemma be_bytes_be_val l : be_bytes (length l) (be_val l) = l.
Proof.
  induction l as [|x l IH] using rev_ind; [reflexivity|].
  rewrite app_length. cbn [length]. replace (length l + 1)%nat with (S (length l)) by lia.
  cbn [be_bytes]. rewrite be_val_snoc.
  pose proof (b2n_bound x) as Hx.
  assert (E1 : (be_val l * 256 + b2n x) / 256 = be_val l).
  { rewrite N.div_add_l by lia. rewrite N.div_small by lia. lia. }
  rewrite E1, IH. f_equal. f_equal. apply b2n_inj. rewrite b2n_n2b.
  rewrite N.add_comm, N.mod_add by lia. apply N.mod_small. exact Hx.
Qed.

Lemma be_val_inj l m : length l = length m -> be_val l = be_val m -> l = m.
Proof.
  intros HL HV. rewrite <- (be_bytes_be_val l), <- (be_bytes_be_val m), HL, HV. reflexivity.
Qed.

(** ** List slices: Rust [&v[a..b]] *)
Definition slice {A : Type} (a b : nat) (l : list A) : list A := firstn (b - a) (skipn a l).

Lemma slice_length {A : Type} a b (l : list A) :
  (a <= b)%nat -> (b <= length l)%nat -> length (slice a b l) = (b - a)%nat.
Proof. intros H1 H2. unfold slice. rewrite firstn_length, skipn_length. lia. Qed.

(** [v[i] = x] on an in-range index. *)
Fixpoint upd {A : Type} (i : nat) (x : A) (l : list A) : list A :=
  match l, i with
  | [], _ => []
  | _ :: l', O => x :: l'
  | a :: l', S i' => a :: upd i' x l'
  end.

(** Indexed assignment with the bounds check Rust performs. *)
Definition set_at {E A : Type} (i : nat) (x : A) (l : list A) : res E (list A) :=
  if (i <? length l)%nat then Ok (upd i x l) else Panic.

Lemma upd_length {A : Type} i (x : A) l : length (upd i x l) = length l.
Proof. revert i; induction l as [|a l IH]; intros [|i]; cbn; congruence. Qed.

Lemma Forall2_len {A B : Type} (R : A -> B -> Prop) l m : Forall2 R l m -> length l = length m.
Proof. induction 1; cbn; congruence. Qed.

(** Literals: an ASCII Coq string as bytes. *)
Definition bytes_of (s : string) : list byte := list_byte_of_string s.
