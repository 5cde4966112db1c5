(** Checked computation of multiples on a short Weierstrass curve.  The slopes of all
    chords and tangents come with the certificate, so that no inversion is needed. *)
From Coq Require Import ZArith Znumtheory.
From Verif Require Import Base Curve32 Primes Weierstrass Fp ShortCurve.
Open Scope Z_scope.

(** A representative of [z] modulo p, in range if [z] is within a few multiples of p. *)
Fixpoint canon (fuel : nat) (p z : Z) : Z :=
  match fuel with
  | O => z
  | S fuel => if z <? 0 then canon fuel p (z + p) else if z <? p then z else canon fuel p (z - p)
  end.
Lemma canon_mod fuel p z : canon fuel p z mod p = z mod p.
Proof.
  destruct (Z.eq_dec p 0) as [->|N]; [rewrite !Zmod_0_r|].
  - revert z. induction fuel as [|fuel IH]; intros z; cbn [canon]; [reflexivity|].
    rewrite Z.add_0_r, Z.sub_0_r, !IH. destruct (z <? 0); reflexivity.
  - revert z. induction fuel as [|fuel IH]; intros z; cbn [canon]; [reflexivity|].
    destruct (z <? 0); [rewrite IH|destruct (z <? p); [reflexivity|rewrite IH]].
    + rewrite <- (Z.mod_add z 1) by exact N. f_equal. lia.
    + rewrite <- (Z.mod_add (z - p) 1) by exact N. f_equal. lia.
Qed.
Definition nonzero (p d : Z) : bool := (0 <? d) && (d <? p).

Section Steps.
Context (p : Z) (mul : Z -> Z -> Z) (a : Z).
Local Notation red := (canon 6 p).
Definition finish (l x1 y1 x2 : Z) : Z * Z :=
  let x3 := red (mul l l - x1 - x2) in
  (x3, red (mul l (red (x1 - x3)) - y1)).
Definition chord (P Q : Z * Z) (l : Z) : option (Z * Z) :=
  let '(x1, y1) := P in let '(x2, y2) := Q in
  let d := red (x2 - x1) in
  if nonzero p d && (red (mul l d - (y2 - y1)) =? 0) then Some (finish l x1 y1 x2) else None.
Definition tangent (P : Z * Z) (l : Z) : option (Z * Z) :=
  let '(x, y) := P in
  let d := red (2 * y) in
  if nonzero p d && (red (mul l d - (3 * mul x x + a)) =? 0) then Some (finish l x y x) else None.
(** P, 2P, 4P, ... *)
Fixpoint doubles (P : Z * Z) (ls : list Z) : option (list (Z * Z)) :=
  match ls with
  | [] => Some [P]
  | l :: ls =>
      match tangent P l with
      | None => None
      | Some Q => match doubles Q ls with None => None | Some t => Some (P :: t) end
      end
  end.
(** Adds the entries of a table of doubles with digits 0, 1 and -1. *)
Fixpoint combine_digits (acc : Z * Z) (table : list (Z * Z)) (digits ls : list Z) {struct digits} : option (Z * Z) :=
  match digits, table with
  | [], _ => match ls with [] => Some acc | _ => None end
  | d :: digits, (x, y) :: table =>
      if d =? 0 then combine_digits acc table digits ls
      else
        match ls with
        | [] => None
        | l :: ls =>
            match chord acc (if d =? 1 then (x, y) else (x, - y)) l with
            | None => None
            | Some acc => if (d =? 1) || (d =? -1) then combine_digits acc table digits ls else None
            end
        end
  | _, [] => None
  end.
(** The number written by [digits], where the first digit has weight [w]. *)
Fixpoint weigh (w : Z) (digits : list Z) : Z :=
  match digits with [] => 0 | d :: digits => d * w + weigh (2 * w) digits end.
End Steps.

Section Correct.
Context (p : Z) (Hp : prime p) (mul : Z -> Z -> Z) (Hmul : mul_ok p mul).
Local Notation F := (fp p).
Local Notation f0 := (fzero p Hp).
Local Notation f1 := (fone p Hp).
Local Notation fadd := (Fp.fadd p Hp).
Local Notation fmul := (Fp.fmul p Hp mul).
Local Notation fsub := (Fp.fsub p Hp).
Local Notation fopp := (Fp.fopp p Hp).
Local Notation fdiv := (Fp.fdiv p Hp mul).
Local Notation finv := (Fp.finv p Hp mul).
Context (a : Z) (b : F).
Local Notation fa := (of_Z p Hp a).
Context (two_nz : fadd f1 f1 <> f0).
Context (disc_nz : fadd (fmul (fmul (fadd f1 f1) (fadd f1 f1)) (fmul (fmul fa fa) fa))
  (fmul (fmul (fadd f1 (fadd f1 f1)) (fmul (fadd f1 (fadd f1 f1)) (fadd f1 (fadd f1 f1)))) (fmul b b)) <> f0).
Local Notation FT := (field_laws p Hp mul Hmul).
Local Notation radd := (add F f1 fadd fmul fsub fopp fdiv fp_eq fa).
Local Notation cpoint := (cpoint p Hp mul fa b).
Local Notation cadd := (cadd p Hp mul Hmul fa b two_nz).
Local Notation cmul := (cmul p Hp mul Hmul fa b two_nz).
Local Notation cinf := (cinf p Hp mul fa b).
Local Notation red := (canon 6 p).
Local Notation oZ := (of_Z p Hp).
Local Notation raw_of := (raw_of p Hp mul fa b).

Definition rep (P : Z * Z) : pt F := Aff F (oZ (fst P)) (oZ (snd P)).

Lemma oZ_red z : oZ (red z) = oZ z.
Proof. apply of_Z_eq. apply canon_mod. Qed.
Lemma oZ_sub z z' : oZ (z - z') = fsub (oZ z) (oZ z').
Proof. symmetry. apply of_Z_sub. Qed.
Lemma oZ_mul z z' : oZ (mul z z') = fmul (oZ z) (oZ z').
Proof. rewrite mul_of_Z by exact Hmul. symmetry. apply of_Z_mul. exact Hmul. Qed.
Lemma oZ_nonzero d : nonzero p d = true -> oZ d <> f0.
Proof.
  unfold nonzero. rewrite andb_true_iff, !Z.ltb_lt. intros [H1 H2] E. apply of_Z_inj in E.
  rewrite Z.mod_small, Z.mod_0_l in E by lia. lia.
Qed.
Lemma finish_ok l x1 y1 x2 :
  rep (finish p mul l x1 y1 x2) = third F fmul fsub (oZ l) (oZ x1) (oZ y1) (oZ x2).
Proof.
  unfold rep, finish, third. cbv zeta. cbn [fst snd].
  repeat rewrite ?oZ_red, ?oZ_sub, ?oZ_mul. reflexivity.
Qed.
Lemma red_zero z : (red z =? 0) = true -> oZ z = f0.
Proof. intros E. apply Z.eqb_eq in E. rewrite <- oZ_red, E. reflexivity. Qed.
Lemma sub_zero (x y : F) : fsub x y = f0 -> x = y.
Proof. exact (sub_z F f0 f1 fadd fmul fsub fopp fdiv finv FT x y). Qed.
Lemma chord_ok P Q l R : chord p mul P Q l = Some R -> radd (rep P) (rep Q) = rep R.
Proof.
  destruct P as [x1 y1], Q as [x2 y2]. unfold chord.
  destruct (nonzero p (red (x2 - x1)) && (red (mul l (red (x2 - x1)) - (y2 - y1)) =? 0)) eqn:C; [|discriminate].
  apply andb_prop in C as [C1 C2]. intros E. injection E as <-. rewrite finish_ok.
  apply oZ_nonzero in C1. apply red_zero in C2. rewrite oZ_red, oZ_sub in C1.
  rewrite oZ_sub, oZ_mul, oZ_red, !oZ_sub in C2. apply sub_zero in C2.
  exact (add_chord F f0 f1 fadd fmul fsub fopp fdiv finv FT fp_eq fa (oZ l) _ _ _ _ C1 C2).
Qed.
Lemma tangent_ok P l R : tangent p mul a P l = Some R -> radd (rep P) (rep P) = rep R.
Proof.
  destruct P as [x y]. unfold tangent.
  destruct (nonzero p (red (2 * y)) && (red (mul l (red (2 * y)) - (3 * mul x x + a)) =? 0)) eqn:C; [|discriminate].
  apply andb_prop in C as [C1 C2]. intros E. injection E as <-. rewrite finish_ok.
  apply oZ_nonzero in C1. apply red_zero in C2. rewrite oZ_red in C1.
  assert (E2 : oZ (2 * y) = fmul (fadd f1 f1) (oZ y)).
  { unfold fone. rewrite of_Z_add, of_Z_mul by exact Hmul. reflexivity. }
  assert (E3 : oZ (3 * mul x x + a) = fadd (fmul (fadd f1 (fadd f1 f1)) (fmul (oZ x) (oZ x))) fa).
  { rewrite <- of_Z_add. f_equal. rewrite <- oZ_mul. unfold fone. rewrite !of_Z_add, of_Z_mul by exact Hmul. reflexivity. }
  rewrite oZ_sub, oZ_mul, oZ_red, E2, E3 in C2. apply sub_zero in C2. rewrite E2 in C1.
  refine (add_tangent F f0 f1 fadd fmul fsub fopp fdiv finv FT fp_eq fa two_nz (oZ l) (oZ x) (oZ y) _ C2).
  intros Z0. apply C1. rewrite Z0. unfold fone, fzero. rewrite of_Z_add, of_Z_mul by exact Hmul. reflexivity.
Qed.

(** ** Multiples *)
Definition cneg (P : cpoint) : cpoint.
Proof.
  refine (mkpt p Hp mul fa b (neg F fopp (raw_of P)) _).
  apply onb_on. apply (on_neg F f0 f1 fadd fmul fsub fopp fdiv finv FT). apply raw_on.
Defined.
Lemma cadd_neg P : cadd P (cneg P) = cinf.
Proof.
  apply cpoint_ext. cbn [ShortCurve.cadd ShortCurve.raw_of ShortCurve.cinf cneg].
  apply (add_neg_r F f0 f1 fadd fmul fsub fopp fdiv finv FT).
Qed.
Local Notation c_assoc := (cadd_assoc p Hp mul Hmul fa b two_nz disc_nz).
Local Notation c_comm := (cadd_comm p Hp mul Hmul fa b two_nz).
Local Notation c_inf := (cadd_inf p Hp mul Hmul fa b two_nz).
Local Notation c_add := (cmul_add p Hp mul Hmul fa b two_nz disc_nz).
Lemma cadd_cancel P Q R : cadd P R = cadd Q R -> P = Q.
Proof.
  intros E. rewrite <- (c_inf P), <- (c_inf Q), <- (cadd_neg R), <- !c_assoc, E. reflexivity.
Qed.

Lemma doubles_ok ls : forall P (Q : cpoint) t, raw_of Q = rep P -> doubles p mul a P ls = Some t ->
  forall i R, nth_error t i = Some R -> exists S : cpoint, raw_of S = rep R /\ S = cmul (2 ^ N.of_nat i)%N Q.
Proof.
  induction ls as [|l ls IH]; intros P Q t EQ D i R Hi; cbn [doubles] in D.
  - injection D as <-. destruct i as [|[|i]]; [|discriminate|discriminate]. injection Hi as <-.
    exists Q. split; [exact EQ|reflexivity].
  - destruct (tangent p mul a P l) as [P2|] eqn:E2; [|discriminate].
    destruct (doubles p mul a P2 ls) as [t'|] eqn:Ed; [|discriminate]. injection D as <-.
    destruct i as [|i].
    + injection Hi as <-. exists Q. split; [exact EQ|reflexivity].
    + apply tangent_ok in E2.
      assert (E2' : raw_of (cadd Q Q) = rep P2) by (cbn [ShortCurve.cadd ShortCurve.raw_of]; rewrite EQ; exact E2).
      destruct (IH P2 (cadd Q Q) t' E2' Ed i R Hi) as (S0 & ES & EM). exists S0. split; [exact ES|].
      rewrite EM. replace (2 ^ N.of_nat (S i))%N with (2 ^ N.of_nat i * 2)%N.
      * rewrite (cmul_mul p Hp mul Hmul fa b two_nz disc_nz). f_equal.
      * rewrite Nat2N.inj_succ, N.pow_succ_r'. lia.
Qed.
Context (G : cpoint).
(** [acc] is kp G - kn G *)
Definition holds (acc : Z * Z) (kp kn : N) : Prop :=
  exists A : cpoint, raw_of A = rep acc /\ cadd A (cmul kn G) = cmul kp G.
Lemma combine_ok digits : forall i table acc ls kp kn R,
  (forall j T, nth_error table j = Some T ->
     exists S0 : cpoint, raw_of S0 = rep T /\ S0 = cmul (2 ^ N.of_nat (i + j))%N G) ->
  holds acc kp kn -> combine_digits p mul acc table digits ls = Some R ->
  exists kp' kn', holds R kp' kn' /\
    Z.of_N kp' - Z.of_N kn' = Z.of_N kp - Z.of_N kn + weigh (2 ^ Z.of_nat i) digits.
Proof.
  induction digits as [|d digits IH]; intros i table acc ls kp kn R T H C; cbn [combine_digits weigh] in *.
  - destruct ls; [|discriminate]. injection C as <-. exists kp, kn. split; [exact H|lia].
  - destruct table as [|[x y] table]; [discriminate|].
    assert (T' : forall j T, nth_error table j = Some T ->
      exists S0 : cpoint, raw_of S0 = rep T /\ S0 = cmul (2 ^ N.of_nat (S i + j))%N G).
    { intros j T0 E. destruct (T (S j) T0 E) as (S0 & HS). exists S0.
      replace (S i + j)%nat with (i + S j)%nat by lia. exact HS. }
    assert (W : 2 * 2 ^ Z.of_nat i = 2 ^ Z.of_nat (S i)) by (rewrite Nat2Z.inj_succ, Z.pow_succ_r by lia; reflexivity).
    rewrite W. assert (WN : Z.of_N (2 ^ N.of_nat i) = 2 ^ Z.of_nat i) by (rewrite N2Z.inj_pow, nat_N_Z; reflexivity).
    destruct (Z.eqb_spec d 0) as [->|Nd].
    { destruct (IH (S i) table acc ls kp kn R T' H C) as (kp' & kn' & H' & E). exists kp', kn'.
      split; [exact H'|]. lia. }
    destruct ls as [|l ls]; [discriminate|].
    destruct (chord p mul acc (if d =? 1 then (x, y) else (x, - y)) l) as [acc'|] eqn:E; [|discriminate].
    destruct ((d =? 1) || (d =? -1)) eqn:D; [|discriminate]. apply chord_ok in E.
    destruct (T 0%nat (x, y) eq_refl) as (S0 & ES & EM). rewrite Nat.add_0_r in EM.
    destruct H as (A & EA & HA). set (w := (2 ^ N.of_nat i)%N) in *.
    destruct (Z.eqb_spec d 1) as [->|N1].
    + assert (H' : holds acc' (kp + w) kn).
      { exists (cadd A S0). split; [cbn [ShortCurve.cadd ShortCurve.raw_of]; rewrite EA, ES; exact E|].
        rewrite c_assoc, (c_comm S0), <- c_assoc, HA, EM. symmetry. apply c_add. }
      destruct (IH (S i) table acc' ls (kp + w)%N kn R T' H' C) as (kp' & kn' & H2 & E2).
      exists kp', kn'. split; [exact H2|]. lia.
    + cbn [orb] in D. apply Z.eqb_eq in D. subst d.
      assert (H' : holds acc' kp (kn + w)).
      { exists (cadd A (cneg S0)). split.
        - cbn [ShortCurve.cadd ShortCurve.raw_of cneg]. rewrite EA, ES. unfold rep at 2. cbn [neg fst snd].
          rewrite of_Z_opp. exact E.
        - rewrite c_add, <- EM, c_assoc, (c_comm (cneg S0)), !c_assoc, cadd_neg, c_inf. exact HA. }
      destruct (IH (S i) table acc' ls kp (kn + w)%N R T' H' C) as (kp' & kn' & H2 & E2).
      exists kp', kn'. split; [exact H2|]. lia.
Qed.
(** The first digit is 1 or -1 at position [start]; the rest is added. *)
Theorem multiple_ok P table start digits ls k R :
  raw_of G = rep P ->
  (forall i T, nth_error table i = Some T -> exists S0 : cpoint, raw_of S0 = rep T /\ S0 = cmul (2 ^ N.of_nat i)%N G) ->
  match nth_error table start with
  | Some T => combine_digits p mul T (skipn (S start) table) digits ls
  | None => None
  end = Some R ->
  2 ^ Z.of_nat start + weigh (2 ^ Z.of_nat (S start)) digits = Z.of_N k ->
  raw_of (cmul k G) = rep R.
Proof.
  intros EG T C K. destruct (nth_error table start) as [T0|] eqn:E0; [|discriminate].
  assert (H : holds T0 (2 ^ N.of_nat start) 0).
  { destruct (T start T0 E0) as (S0 & ES & EM). exists S0. split; [exact ES|].
    cbn [ShortCurve.cmul]. rewrite c_inf. exact EM. }
  assert (T' : forall j T, nth_error (skipn (S start) table) j = Some T ->
     exists S0 : cpoint, raw_of S0 = rep T /\ S0 = cmul (2 ^ N.of_nat (S start + j))%N G).
  { intros j T1 E1. apply T. rewrite <- E1. symmetry. clear. revert table.
    generalize (S start) as m. induction m as [|m IH]; intros table; [reflexivity|].
    destruct table as [|x table]; [destruct j; reflexivity|]. apply IH. }
  destruct (combine_ok digits (S start) _ T0 ls _ _ R T' H C) as (kp & kn & (A & EA & HA) & E).
  rewrite N2Z.inj_pow, nat_N_Z in E. change (Z.of_N 2) with 2 in E. change (Z.of_N 0) with 0 in E.
  assert (Ek : kp = (k + kn)%N) by lia. rewrite <- EA. f_equal. symmetry.
  apply (cadd_cancel _ _ (cmul kn G)). rewrite HA, Ek, c_add. reflexivity.
Qed.
End Correct.

(** Comparisons, to check the results of runs. *)
Definition pair_eqb (P Q : Z * Z) : bool := (fst P =? fst Q) && (snd P =? snd Q).
Lemma pair_eqb_eq P Q : pair_eqb P Q = true -> P = Q.
Proof.
  destruct P, Q. unfold pair_eqb. cbn [fst snd]. rewrite andb_true_iff, !Z.eqb_eq. intros [-> ->]. reflexivity.
Qed.
Definition point_eqb (P : option (Z * Z)) (Q : Z * Z) : bool :=
  match P with Some P => pair_eqb P Q | None => false end.
Lemma point_eqb_eq P Q : point_eqb P Q = true -> P = Some Q.
Proof. destruct P; cbn [point_eqb]; [|discriminate]. intros H. f_equal. apply pair_eqb_eq. exact H. Qed.
Fixpoint pairs_eqb (l m : list (Z * Z)) : bool :=
  match l, m with
  | [], [] => true
  | P :: l, Q :: m => pair_eqb P Q && pairs_eqb l m
  | _, _ => false
  end.
Lemma pairs_eqb_eq l : forall m, pairs_eqb l m = true -> l = m.
Proof.
  induction l as [|P l IH]; intros [|Q m]; cbn [pairs_eqb]; try discriminate; [reflexivity|].
  rewrite andb_true_iff. intros [H1 H2]. f_equal; [apply pair_eqb_eq; exact H1|apply IH; exact H2].
Qed.
Definition points_eqb (l : option (list (Z * Z))) (m : list (Z * Z)) : bool :=
  match l with Some l => pairs_eqb l m | None => false end.
Lemma points_eqb_eq l m : points_eqb l m = true -> l = Some m.
Proof. destruct l; cbn [points_eqb]; [|discriminate]. intros H. f_equal. apply pairs_eqb_eq. exact H. Qed.
