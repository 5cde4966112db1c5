(** Checked computation of multiples on a twisted Edwards curve, in extended
    coordinates, with a table of the doubles of the base point. *)
From Coq Require Import ZArith Znumtheory Ring Field.
From Verif Require Import Base Primes Fp Edwards EdCurve CurveCert.
Open Scope Z_scope.

(** X, Y, Z, T with x = X/Z, y = Y/Z, xy = T/Z *)
Definition ext : Type := Z * Z * Z * Z.
(** x, y, 2dxy *)
Definition entry : Type := Z * Z * Z.

Section Steps.
Context (p : Z) (mul : Z -> Z -> Z) (dz : Z).
Local Notation red := (canon 6 p).
(** The unified addition of Hisil, Wong, Carter and Dawson, with Z2 = 1. *)
Definition madd (E : ext) (e : entry) : ext :=
  let '(X, Y, Zc, T) := E in
  let '(x, y, k) := e in
  let a := mul (red (Y - X)) (red (y - x)) in
  let b := mul (red (Y + X)) (red (y + x)) in
  let c := mul T (red k) in
  let z := 2 * Zc in
  let e := red (b - a) in let f := red (z - c) in
  let g := red (z + c) in let h := red (b + a) in
  (mul e f, mul g h, mul f g, mul e h).
Definition entry_neg (e : entry) : entry := let '(x, y, k) := e in (- x, y, - k).
Definition start_at (e : entry) : ext := let '(x, y, k) := e in (x, y, 1, mul x y).
(** [next] is twice [e], and its third component is right. *)
Definition doubled (e next : entry) : bool :=
  let '(x, y, k) := e in
  let '(x2, y2, k2) := next in
  let xy := mul x y in
  let t := mul dz (mul xy xy) in
  (red (mul x2 (1 + t) - 2 * xy) =? 0) && (red (mul y2 (red (1 - t)) - (mul y y + mul x x)) =? 0) &&
  (red (k2 - 2 * mul dz (mul x2 y2)) =? 0).
Fixpoint doubles_check (e : entry) (table : list entry) : bool :=
  match table with
  | [] => true
  | next :: table => doubled e next && doubles_check next table
  end.
Fixpoint ext_digits (acc : ext) (table : list entry) (digits : list Z) {struct digits} : option ext :=
  match digits, table with
  | [], _ => Some acc
  | d :: digits, e :: table =>
      if d =? 0 then ext_digits acc table digits
      else if d =? 1 then ext_digits (madd acc e) table digits
      else if d =? -1 then ext_digits (madd acc (entry_neg e)) table digits
      else None
  | _, [] => None
  end.
(** The affine point is the one found. *)
Definition ext_is (E : option ext) (x y : Z) : bool :=
  match E with
  | None => false
  | Some (X, Y, Zc, T) => (red (mul x Zc - X) =? 0) && (red (mul y Zc - Y) =? 0)
  end.
Definition ext_run (table : list entry) (start : nat) (digits : list Z) : option ext :=
  match nth_error table start with
  | Some e => ext_digits (start_at e) (skipn (S start) table) digits
  | None => None
  end.
End Steps.

Section Correct.
Context (p : Z) (Hp : prime p) (mul : Z -> Z -> Z) (Hmul : mul_ok p mul).
Local Notation F := (fp p).
Local Notation f0 := (fzero p Hp).
Local Notation f1 := (fone p Hp).
Local Notation fadd := (Fp.fadd p Hp).
Local Notation fmul := (Fp.fmul p Hp mul).
Local Notation fsub := (Fp.fsub p Hp).
Local Notation fopp := (Fp.fopp p Hp).
Local Notation fdiv := (Fp.fdiv p Hp mul).
Local Notation finv := (Fp.finv p Hp mul).
Local Notation FT := (field_laws p Hp mul Hmul).
Add Field FF : FT.
Declare Scope f_scope.
Delimit Scope f_scope with f.
Local Notation "0" := f0 : f_scope.
Local Notation "1" := f1 : f_scope.
Local Notation "x + y" := (fadd x y) : f_scope.
Local Notation "x - y" := (fsub x y) : f_scope.
Local Notation "x * y" := (fmul x y) : f_scope.
Local Notation "x / y" := (fdiv x y) : f_scope.
Local Notation "- x" := (fopp x) : f_scope.
Context (dz : Z) (i : F).
Local Notation oZ := (of_Z p Hp).
Local Notation d := (oZ dz).
Context (two_nz : (1 + 1 <> 0)%f) (i_sq : (i * i = - (1))%f) (d_nonsq : forall r, (r * r <> d)%f).
Local Notation epoint := (epoint p Hp mul d).
Local Notation coords := (coords p Hp mul d).
Local Notation eadd := (eadd p Hp mul Hmul d i two_nz i_sq d_nonsq).
Local Notation emul := (emul p Hp mul Hmul d i two_nz i_sq d_nonsq).
Local Notation eneg := (eneg p Hp mul Hmul d).
Local Notation ezero := (ezero p Hp mul Hmul d).
Local Notation red := (canon 6 p).

Definition represents (E : ext) (P : epoint) : Prop :=
  let '(X, Y, Zc, T) := E in
  let '(x, y) := coords P in
  oZ Zc <> f0 /\ oZ X = (x * oZ Zc)%f /\ oZ Y = (y * oZ Zc)%f /\ oZ T = (x * y * oZ Zc)%f.
Definition listed (e : entry) (P : epoint) : Prop :=
  let '(x, y, k) := e in coords P = (oZ x, oZ y) /\ oZ k = ((1 + 1) * d * oZ x * oZ y)%f.

Lemma oZ_red z : oZ (red z) = oZ z.
Proof. apply of_Z_eq. apply canon_mod. Qed.
Lemma oZ_sub z z' : oZ (z - z') = (oZ z - oZ z')%f.
Proof. symmetry. apply of_Z_sub. Qed.
Lemma oZ_add z z' : oZ (z + z') = (oZ z + oZ z')%f.
Proof. symmetry. apply of_Z_add. Qed.
Lemma oZ_opp z : oZ (- z) = (- oZ z)%f.
Proof. symmetry. apply of_Z_opp. Qed.
Lemma oZ_mul z z' : oZ (mul z z') = (oZ z * oZ z')%f.
Proof. rewrite mul_of_Z by exact Hmul. symmetry. apply of_Z_mul. exact Hmul. Qed.
Lemma oZ_two z : oZ (2 * z) = ((1 + 1) * oZ z)%f.
Proof. replace (2 * z) with (z + z) by lia. rewrite oZ_add. ring. Qed.
Lemma oZ_one : oZ 1 = f1.
Proof. reflexivity. Qed.
Lemma red_zero z : (red z =? 0) = true -> oZ z = f0.
Proof. intros E. apply Z.eqb_eq in E. rewrite <- oZ_red, E. reflexivity. Qed.
Lemma sub_zero (x y : F) : (x - y = 0)%f -> x = y.
Proof. exact (Edwards.sub_z F f0 f1 fadd fmul fsub fopp fdiv finv FT x y). Qed.
Lemma mul_nz (x y : F) : x <> f0 -> y <> f0 -> (x * y <> 0)%f.
Proof. exact (Edwards.mul_nz F f0 f1 fadd fmul fsub fopp fdiv finv FT fp_eq x y). Qed.
Lemma denominators (P Q : epoint) x1 y1 x2 y2 : coords P = (x1, y1) -> coords Q = (x2, y2) ->
  (1 + d * (x1 * x2) * (y1 * y2) <> 0)%f /\ (1 - d * (x1 * x2) * (y1 * y2) <> 0)%f.
Proof.
  intros EP EQ. pose proof (coords_on p Hp mul d P) as OP. pose proof (coords_on p Hp mul d Q) as OQ.
  rewrite EP in OP. rewrite EQ in OQ. split.
  - exact (den_plus F f0 f1 fadd fmul fsub fopp fdiv finv FT fp_eq d i two_nz i_sq d_nonsq _ _ _ _ OP OQ).
  - exact (den_minus F f0 f1 fadd fmul fsub fopp fdiv finv FT fp_eq d i two_nz i_sq d_nonsq _ _ _ _ OP OQ).
Qed.
Lemma madd_ok E e P Q : represents E P -> listed e Q -> represents (madd p mul E e) (eadd P Q).
Proof.
  destruct E as [[[X Y] Zc] T], e as [[x k0] k]. rename k0 into y. unfold represents, listed.
  cbn [EdCurve.eadd EdCurve.coords]. destruct (coords P) as [x1 y1] eqn:EP. intros (NZ & EX & EY & ET) [EQ Ek].
  destruct (denominators P Q _ _ _ _ EP EQ) as [DP DM].
  rewrite EQ. unfold madd. cbn [Edwards.add]. cbv zeta.
  repeat rewrite ?oZ_mul, ?oZ_red, ?oZ_sub, ?oZ_add, ?oZ_two. rewrite EX, EY, ET, Ek.
  set (z := oZ Zc) in *. set (x2 := oZ x) in *. set (y2 := oZ y) in *. clearbody z x2 y2.
  clear EX EY ET Ek EQ EP X Y Zc T x y k P Q.
  split; [|split; [|split]].
  - replace (((1 + 1) * z - x1 * y1 * z * ((1 + 1) * d * x2 * y2)) * ((1 + 1) * z + x1 * y1 * z * ((1 + 1) * d * x2 * y2)))%f
      with (((1 + 1) * z) * (1 - d * (x1 * x2) * (y1 * y2)) * (((1 + 1) * z) * (1 + d * (x1 * x2) * (y1 * y2))))%f by ring.
    repeat apply mul_nz; assumption.
  - field. exact DP.
  - field. exact DM.
  - field. split; assumption.
Qed.
Lemma entry_neg_ok e Q : listed e Q -> listed (entry_neg e) (eneg Q).
Proof.
  destruct e as [[x y] k]. unfold listed, entry_neg. cbn [EdCurve.eneg EdCurve.coords]. intros [-> Ek].
  cbn [Edwards.neg]. rewrite !oZ_opp. split; [reflexivity|]. rewrite Ek. ring.
Qed.
Lemma start_ok e Q : listed e Q -> represents (start_at mul e) Q.
Proof.
  destruct e as [[x y] k]. unfold listed, represents, start_at. intros [-> _]. rewrite oZ_mul, oZ_one.
  split; [apply (F_1_neq_0 FT)|]. repeat split; ring.
Qed.
Lemma div_eq (n t q : F) : t <> f0 -> n = (q * t)%f -> (n / t = q)%f.
Proof. exact (Edwards.div_eq F f0 f1 fadd fmul fsub fopp fdiv finv FT n t q). Qed.
Lemma doubled_ok e next P : listed e P -> doubled p mul dz e next = true -> listed next (eadd P P).
Proof.
  destruct e as [[x y] k], next as [[x2 y2] k2]. unfold listed, doubled. intros [EP _]. cbv zeta.
  rewrite !andb_true_iff. intros [[H1 H2] H3].
  destruct (denominators P P _ _ _ _ EP EP) as [DP DM].
  apply red_zero in H1, H2, H3.
  repeat rewrite ?oZ_mul, ?oZ_red, ?oZ_sub, ?oZ_add, ?oZ_two, ?oZ_one in H1.
  repeat rewrite ?oZ_mul, ?oZ_red, ?oZ_sub, ?oZ_add, ?oZ_two, ?oZ_one in H2.
  repeat rewrite ?oZ_mul, ?oZ_red, ?oZ_sub, ?oZ_add, ?oZ_two, ?oZ_one in H3.
  apply sub_zero in H1, H2, H3. cbn [EdCurve.eadd EdCurve.coords]. rewrite EP. cbn [Edwards.add]. split.
  - f_equal; apply div_eq; [exact DP| |exact DM|].
    + transitivity ((1 + 1) * (oZ x * oZ y))%f; [ring|]. rewrite <- H1. ring.
    + rewrite <- H2. ring.
  - rewrite H3. ring.
Qed.
Lemma doubles_ok table : forall e P, listed e P -> doubles_check p mul dz e table = true ->
  forall j e', nth_error (e :: table) j = Some e' -> listed e' (emul (2 ^ N.of_nat j) P).
Proof.
  induction table as [|next table IH]; intros e P L C j e' Hj.
  - destruct j as [|[|j]]; [|discriminate|discriminate]. injection Hj as <-. exact L.
  - cbn [doubles_check] in C. apply andb_prop in C as [C1 C2]. pose proof (doubled_ok e next P L C1) as L2.
    destruct j as [|j]; [injection Hj as <-; exact L|].
    specialize (IH next _ L2 C2 j e' Hj).
    replace (2 ^ N.of_nat (S j))%N with (2 ^ N.of_nat j * 2)%N by (rewrite Nat2N.inj_succ, N.pow_succ_r'; lia).
    rewrite emul_mul. exact IH.
Qed.

Context (B : epoint).
Definition holds (acc : ext) (kp kn : N) : Prop :=
  exists A : epoint, represents acc A /\ eadd A (emul kn B) = emul kp B.
Local Notation e_assoc := (eadd_assoc p Hp mul Hmul d i two_nz i_sq d_nonsq).
Local Notation e_comm := (eadd_comm p Hp mul Hmul d i two_nz i_sq d_nonsq).
Local Notation e_zero := (eadd_zero p Hp mul Hmul d i two_nz i_sq d_nonsq).
Local Notation e_neg := (eadd_neg p Hp mul Hmul d i two_nz i_sq d_nonsq).
Local Notation e_add := (emul_add p Hp mul Hmul d i two_nz i_sq d_nonsq).
Lemma digits_ok digits : forall j table acc kp kn R,
  (forall j' e, nth_error table j' = Some e -> listed e (emul (2 ^ N.of_nat (j + j')) B)) ->
  holds acc kp kn -> ext_digits p mul acc table digits = Some R ->
  exists kp' kn', holds R kp' kn' /\
    Z.of_N kp' - Z.of_N kn' = Z.of_N kp - Z.of_N kn + weigh (2 ^ Z.of_nat j) digits.
Proof.
  induction digits as [|c digits IH]; intros j table acc kp kn R T H C; cbn [ext_digits weigh] in *.
  - injection C as <-. exists kp, kn. split; [exact H|lia].
  - destruct table as [|e table]; [discriminate|].
    assert (T' : forall j' e, nth_error table j' = Some e -> listed e (emul (2 ^ N.of_nat (S j + j')) B)).
    { intros j' e' E. replace (S j + j')%nat with (j + S j')%nat by lia. apply T. exact E. }
    assert (W : 2 * 2 ^ Z.of_nat j = 2 ^ Z.of_nat (S j)) by (rewrite Nat2Z.inj_succ, Z.pow_succ_r by lia; reflexivity).
    rewrite W. assert (WN : Z.of_N (2 ^ N.of_nat j) = 2 ^ Z.of_nat j) by (rewrite N2Z.inj_pow, nat_N_Z; reflexivity).
    pose proof (T 0%nat e eq_refl) as L. rewrite Nat.add_0_r in L. set (w := (2 ^ N.of_nat j)%N) in *.
    destruct H as (A & EA & HA).
    destruct (Z.eqb_spec c 0) as [-> | N0].
    { destruct (IH (S j) table acc kp kn R T' (ex_intro _ A (conj EA HA)) C) as (kp' & kn' & H' & E).
      exists kp', kn'. split; [exact H'|]. lia. }
    destruct (Z.eqb_spec c 1) as [-> | N1].
    { assert (H' : holds (madd p mul acc e) (kp + w) kn).
      { exists (eadd A (emul w B)). split; [apply madd_ok; assumption|].
        rewrite e_assoc, (e_comm (emul w B)), <- e_assoc, HA. symmetry. apply e_add. }
      destruct (IH (S j) table _ (kp + w)%N kn R T' H' C) as (kp' & kn' & H2 & E2).
      exists kp', kn'. split; [exact H2|]. lia. }
    destruct (Z.eqb_spec c (-1)) as [-> | N2]; [|discriminate].
    assert (H' : holds (madd p mul acc (entry_neg e)) kp (kn + w)).
    { exists (eadd A (eneg (emul w B))). split; [apply madd_ok; [exact EA|apply entry_neg_ok; exact L]|].
      rewrite e_add, e_assoc, (e_comm (eneg _)), !e_assoc, e_neg, e_zero. exact HA. }
    destruct (IH (S j) table _ kp (kn + w)%N R T' H' C) as (kp' & kn' & H2 & E2).
    exists kp', kn'. split; [exact H2|]. lia.
Qed.
Theorem ext_run_ok e table start digits k x y :
  listed e B -> doubles_check p mul dz e table = true ->
  ext_is p mul (ext_run p mul (e :: table) start digits) x y = true ->
  2 ^ Z.of_nat start + weigh (2 ^ Z.of_nat (S start)) digits = Z.of_N k ->
  coords (emul k B) = (oZ x, oZ y).
Proof.
  intros LB DC C K. pose proof (doubles_ok table e B LB DC) as T. unfold ext_run in C.
  destruct (nth_error (e :: table) start) as [e0|] eqn:E0; [|discriminate].
  destruct (ext_digits p mul (start_at mul e0) (skipn (S start) (e :: table)) digits) as [R|] eqn:ED; [|discriminate].
  assert (H : holds (start_at mul e0) (2 ^ N.of_nat start) 0).
  { exists (emul (2 ^ N.of_nat start) B). split; [apply start_ok; apply T; exact E0|]. apply e_zero. }
  assert (T' : forall j e', nth_error (skipn (S start) (e :: table)) j = Some e' ->
     listed e' (emul (2 ^ N.of_nat (S start + j)) B)).
  { intros j e1 E1. apply T. rewrite <- E1. symmetry. clear. generalize (e :: table) as l. clear.
    generalize (S start) as m. induction m as [|m IH]; intros l; [reflexivity|].
    destruct l as [|a l]; [destruct j; reflexivity|]. apply IH. }
  destruct (digits_ok digits (S start) _ _ _ _ R T' H ED) as (kp & kn & (A & EA & HA) & E).
  rewrite N2Z.inj_pow, nat_N_Z in E. change (Z.of_N 2) with 2 in E. change (Z.of_N 0) with 0 in E.
  assert (Ek : kp = (k + kn)%N) by lia.
  assert (EAk : emul k B = A).
  { symmetry. apply (eadd_cancel p Hp mul Hmul d i two_nz i_sq d_nonsq _ _ (emul kn B)). rewrite HA, Ek, e_add. reflexivity. }
  rewrite EAk. destruct R as [[[X Y] Zc] T0]. unfold represents in EA. cbn [ext_is] in C.
  apply andb_prop in C as [C1 C2]. apply red_zero in C1, C2. rewrite oZ_sub, oZ_mul in C1, C2.
  apply sub_zero in C1, C2. destruct (coords A) as [xa ya] eqn:EC. destruct EA as (NZ & EX & EY & _).
  f_equal; apply (Edwards.cancel F f0 f1 fadd fmul fsub fopp fdiv finv FT fp_eq (oZ Zc) _ _ NZ).
  - transitivity (oZ X); [rewrite EX; ring|]. rewrite <- C1. ring.
  - transitivity (oZ Y); [rewrite EY; ring|]. rewrite <- C2. ring.
Qed.
End Correct.
