(** The group law of a short Weierstrass curve y^2 = x^3 + ax + b over a field of
    characteristic other than 2, with the usual chord and tangent addition. *)
From Coq Require Import NsatzTactic Ring Field Setoid Morphisms.

Section Weierstrass.
Context (F : Type) (f0 f1 : F) (fadd fmul fsub : F -> F -> F) (fopp : F -> F)
  (fdiv : F -> F -> F) (finv : F -> F).
Context (FT : field_theory f0 f1 fadd fmul fsub fopp fdiv finv (@eq F)).
Context (feq : forall x y : F, {x = y} + {x <> y}).
Add Field FF : FT.
#[local] Instance Fops : @Ring_ops F f0 f1 fadd fmul fsub fopp (@eq F) := {}.
#[local] Instance Fring : Ring (Ro := Fops).
Proof.
  constructor; try solve [intros; cbv; ring]; try apply eq_equivalence; try (repeat intro; cbv in *; congruence).
Qed.
#[local] Instance Fcring : Cring (Rr := Fring).
Proof. repeat intro; cbv; ring. Qed.

Declare Scope f_scope.
Delimit Scope f_scope with f.
Local Open Scope f_scope.
Local Notation "0" := f0 : f_scope.
Local Notation "1" := f1 : f_scope.
Local Notation "x + y" := (fadd x y) : f_scope.
Local Notation "x - y" := (fsub x y) : f_scope.
Local Notation "x * y" := (fmul x y) : f_scope.
Local Notation "x / y" := (fdiv x y) : f_scope.
Local Notation "- x" := (fopp x) : f_scope.
Local Notation "2" := (1 + 1) : f_scope.
Local Notation "3" := (1 + (1 + 1)) : f_scope.
Local Notation "4" := (2 * 2) : f_scope.
Local Notation "27" := (3 * (3 * 3)) : f_scope.

Lemma mul_zero x y : x * y = 0 -> x = 0 \/ y = 0.
Proof.
  intros H. destruct (feq x 0) as [E|E]; [left; exact E|right].
  transitivity (finv x * (x * y)); [field; exact E|rewrite H; ring].
Qed.
#[local] Instance Fdom : Integral_domain (Rcr := Fcring).
Proof.
  constructor; cbv.
  - apply mul_zero.
  - intros H. apply (F_1_neq_0 FT). exact H.
Qed.
Lemma sub_nz x y : x <> y -> x - y <> 0.
Proof. intros N E. apply N. transitivity (x - y + y); [ring|]. rewrite E. ring. Qed.
Lemma sub_z x y : x - y = 0 -> x = y.
Proof. intros E. transitivity (x - y + y); [ring|]. rewrite E. ring. Qed.
Lemma cancel d x y : d <> 0 -> d * x = d * y -> x = y.
Proof.
  intros N E. apply sub_z. destruct (mul_zero d (x - y)) as [H|H]; [|contradiction|exact H].
  transitivity (d * x - d * y); [ring|]. rewrite E. ring.
Qed.
Lemma slope_ex n d : d <> 0 -> exists l, l * d = n.
Proof. intros H. exists (n / d). field. exact H. Qed.

Context (a b : F).
Context (two_nz : 2 <> 0) (disc_nz : 4 * (a * a * a) + 27 * (b * b) <> 0).

(** ** Points *)
Inductive pt : Type := Inf | Aff (x y : F).
Definition on (P : pt) : Prop :=
  match P with Inf => True | Aff x y => y * y = x * x * x + a * x + b end.
Definition neg (P : pt) : pt := match P with Inf => Inf | Aff x y => Aff x (- y) end.

(** The third point of the line of slope [l] through (x1, y1) and a point with
    abscissa [x2], mirrored. *)
Definition third (l x1 y1 x2 : F) : pt :=
  Aff (l * l - x1 - x2) (l * (x1 - (l * l - x1 - x2)) - y1).
Definition add (P Q : pt) : pt :=
  match P, Q with
  | Inf, _ => Q
  | _, Inf => P
  | Aff x1 y1, Aff x2 y2 =>
      if feq x1 x2 then
        if feq y1 (- y2) then Inf
        else third ((3 * (x1 * x1) + a) / (2 * y1)) x1 y1 x2
      else third ((y2 - y1) / (x2 - x1)) x1 y1 x2
  end.

Lemma add_chord l x1 y1 x2 y2 : x2 - x1 <> 0 -> l * (x2 - x1) = y2 - y1 ->
  add (Aff x1 y1) (Aff x2 y2) = third l x1 y1 x2.
Proof.
  intros N E. cbn [add]. destruct (feq x1 x2) as [H|_].
  - elim N. rewrite H. ring.
  - f_equal. rewrite <- E. field. exact N.
Qed.
Lemma add_tangent l x y : y <> 0 -> l * (2 * y) = 3 * (x * x) + a ->
  add (Aff x y) (Aff x y) = third l x y x.
Proof.
  intros N E. cbn [add]. destruct (feq x x) as [_|H]; [|congruence].
  destruct (feq y (- y)) as [H|_].
  - elim N. apply (cancel 2); [exact two_nz|]. transitivity (y + y); [ring|]. rewrite H at 1. ring.
  - f_equal. rewrite <- E. field. auto.
Qed.
Lemma add_vertical x y : add (Aff x y) (Aff x (- y)) = Inf.
Proof.
  cbn [add]. destruct (feq x x) as [_|H]; [|congruence].
  destruct (feq y (- - y)) as [_|H]; [reflexivity|]. elim H. ring.
Qed.

Lemma self_neg y : y = - y -> y = 0.
Proof.
  intros H. apply (cancel 2); [exact two_nz|]. transitivity (y + y); [ring|]. rewrite H at 1. ring.
Qed.
Lemma same_x x y1 y2 : on (Aff x y1) -> on (Aff x y2) -> y1 = y2 \/ y1 = - y2.
Proof.
  cbn [on]. intros H1 H2. destruct (mul_zero (y1 - y2) (y1 + y2)) as [H|H].
  - nsatz.
  - left. apply sub_z. exact H.
  - right. apply sub_z. rewrite <- H. ring.
Qed.
Lemma nonsing x : on (Aff x 0) -> 3 * (x * x) + a <> 0.
Proof. cbn [on]. intros H E. apply disc_nz. nsatz. Qed.

(** The three ways two affine points can be added. *)
Lemma add_cases P Q : on P -> on Q ->
  P = Inf \/ Q = Inf \/ Q = neg P \/
  (exists x y l, P = Aff x y /\ Q = Aff x y /\ y <> 0 /\ l * (2 * y) = 3 * (x * x) + a) \/
  (exists x1 y1 x2 y2 l, P = Aff x1 y1 /\ Q = Aff x2 y2 /\ x2 - x1 <> 0 /\ l * (x2 - x1) = y2 - y1).
Proof.
  destruct P as [|x1 y1], Q as [|x2 y2]; auto. intros H1 H2.
  destruct (feq x1 x2) as [<-|N].
  - destruct (feq y2 (- y1)) as [->|N]; [auto|]. right; right; right; left.
    assert (E : y2 = y1).
    { destruct (same_x x1 y2 y1 H2 H1) as [E|E]; [exact E|contradiction]. }
    subst y2. assert (Z : y1 <> 0).
    { intros ->. apply N. ring. }
    destruct (slope_ex (3 * (x1 * x1) + a) (2 * y1)) as [l El].
    { intros E. destruct (mul_zero _ _ E); contradiction. }
    exists x1, y1, l. auto.
  - right; right; right; right. assert (D : x2 - x1 <> 0) by (apply sub_nz; congruence).
    destruct (slope_ex (y2 - y1) _ D) as [l El]. exists x1, y1, x2, y2, l. auto.
Qed.

(** ** The easy laws *)
Lemma add_inf_l P : add Inf P = P.
Proof. reflexivity. Qed.
Lemma add_inf_r P : add P Inf = P.
Proof. destruct P; reflexivity. Qed.
Lemma neg_neg P : neg (neg P) = P.
Proof. destruct P; cbn [neg]; [reflexivity|]. f_equal. ring. Qed.
Lemma add_neg_r P : add P (neg P) = Inf.
Proof. destruct P; [reflexivity|]. apply add_vertical. Qed.
Lemma add_neg_l P : add (neg P) P = Inf.
Proof. rewrite <- (neg_neg P) at 2. apply add_neg_r. Qed.
Lemma on_neg P : on P -> on (neg P).
Proof. destruct P; cbn [on neg]; [auto|]. intros H. rewrite <- H. ring. Qed.

Lemma third_on l x1 y1 x2 y2 : on (Aff x1 y1) -> on (Aff x2 y2) ->
  x2 - x1 <> 0 -> l * (x2 - x1) = y2 - y1 -> on (third l x1 y1 x2).
Proof.
  cbn [on third]. intros H1 H2 D E. apply (cancel (x2 - x1)); [exact D|]. nsatz.
Qed.
Lemma third_tangent_on l x y : on (Aff x y) -> y <> 0 -> l * (2 * y) = 3 * (x * x) + a ->
  on (third l x y x).
Proof.
  cbn [on third]. intros H1 D E. nsatz.
Qed.
Lemma on_add P Q : on P -> on Q -> on (add P Q).
Proof.
  intros HP HQ. destruct (add_cases P Q HP HQ) as [->|[->|[->|[(x & y & l & -> & -> & N & E)|(x1 & y1 & x2 & y2 & l & -> & -> & N & E)]]]].
  - exact HQ.
  - rewrite add_inf_r. exact HP.
  - rewrite add_neg_r. exact I.
  - rewrite (add_tangent l) by assumption. apply third_tangent_on; assumption.
  - rewrite (add_chord l) by assumption. apply (third_on l x1 y1 x2 y2); assumption.
Qed.

Lemma add_comm P Q : on P -> on Q -> add P Q = add Q P.
Proof.
  intros HP HQ. destruct (add_cases P Q HP HQ) as [->|[->|[->|[(x & y & l & -> & -> & N & E)|(x1 & y1 & x2 & y2 & l & -> & -> & N & E)]]]].
  - symmetry. apply add_inf_r.
  - apply add_inf_r.
  - rewrite add_neg_r, add_neg_l. reflexivity.
  - reflexivity.
  - assert (N' : x1 - x2 <> 0).
    { intros H. apply N. transitivity (- (x1 - x2)); [ring|]. rewrite H. ring. }
    assert (E' : l * (x1 - x2) = y1 - y2).
    { transitivity (- (l * (x2 - x1))); [ring|]. rewrite E. ring. }
    rewrite (add_chord l), (add_chord l) by assumption. unfold third. f_equal; [ring|]. nsatz.
Qed.

Lemma neg_third l x1 y1 x2 : neg (third l x1 y1 x2) = third (- l) x1 (- y1) x2.
Proof. unfold third, neg. f_equal; ring. Qed.
Lemma neg_add P Q : on P -> on Q -> neg (add P Q) = add (neg P) (neg Q).
Proof.
  intros HP HQ. destruct (add_cases P Q HP HQ) as [->|[->|[->|[(x & y & l & -> & -> & N & E)|(x1 & y1 & x2 & y2 & l & -> & -> & N & E)]]]].
  - reflexivity.
  - rewrite !add_inf_r. reflexivity.
  - rewrite add_neg_r, add_neg_r. reflexivity.
  - rewrite (add_tangent l) by assumption. cbn [neg]. rewrite (add_tangent (- l)).
    + apply neg_third.
    + intros H. apply N. transitivity (- - y); [ring|]. rewrite H. ring.
    + rewrite <- E. ring.
  - rewrite (add_chord l) by assumption. cbn [neg]. rewrite (add_chord (- l)).
    + apply neg_third.
    + exact N.
    + transitivity (- (l * (x2 - x1))); [ring|]. rewrite E. ring.
Qed.

(** ** Cancellation: (P + Q) - Q = P *)
Lemma add_sub_chord l x1 y1 x2 y2 : on (Aff x1 y1) -> on (Aff x2 y2) ->
  x2 - x1 <> 0 -> l * (x2 - x1) = y2 - y1 ->
  add (third l x1 y1 x2) (Aff x2 (- y2)) = Aff x1 y1.
Proof.
  intros H1 H2 N E. unfold third. set (x4 := l * l - x1 - x2).
  set (y4 := l * (x1 - x4) - y1).
  assert (Y4 : y4 = - (y2 + l * (x4 - x2))) by (unfold y4; nsatz).
  destruct (feq x2 x4) as [Hx|Hx].
  - (* the line is tangent at Q *)
    assert (Hy : y4 = - y2) by (rewrite Y4, <- Hx; ring). rewrite <- Hx, Hy.
    assert (T : l * (2 * y2) = 3 * (x2 * x2) + a).
    { apply (cancel (x2 - x1)); [exact N|]. cbn [on] in H1, H2. unfold x4 in Hx. nsatz. }
    assert (Z : y2 <> 0).
    { intros Z. subst y2. apply (nonsing x2 H2). rewrite <- T. ring. }
    rewrite (add_tangent (- l)).
    + unfold third. unfold x4 in Hx. f_equal; [|]; nsatz.
    + intros H. apply Z. transitivity (- - y2); [ring|]. rewrite H. ring.
    + rewrite <- T. ring.
  - rewrite (add_chord (- l)).
    + unfold third. f_equal; [unfold x4; ring|]. unfold y4, x4. nsatz.
    + apply sub_nz. exact Hx.
    + rewrite Y4. ring.
Qed.
Lemma add_sub_tangent l x y : on (Aff x y) -> y <> 0 -> l * (2 * y) = 3 * (x * x) + a ->
  add (third l x y x) (Aff x (- y)) = Aff x y.
Proof.
  intros H N E. unfold third. set (x4 := l * l - x - x). set (y4 := l * (x - x4) - y).
  destruct (feq x x4) as [Hx|Hx].
  - assert (Hy : y4 = - y) by (unfold y4; rewrite <- Hx; ring). rewrite <- Hx, Hy.
    rewrite (add_tangent (- l)).
    + unfold third. unfold x4 in Hx. f_equal; nsatz.
    + intros H'. apply N. transitivity (- - y); [ring|]. rewrite H'. ring.
    + rewrite <- E. ring.
  - rewrite (add_chord (- l)).
    + unfold third. f_equal; [unfold x4; ring|]. unfold y4, x4. ring.
    + apply sub_nz. exact Hx.
    + unfold y4. ring.
Qed.
Lemma add_sub P Q : on P -> on Q -> add (add P Q) (neg Q) = P.
Proof.
  intros HP HQ. destruct (add_cases P Q HP HQ) as [->|[->|[->|[(x & y & l & -> & -> & N & E)|(x1 & y1 & x2 & y2 & l & -> & -> & N & E)]]]].
  - apply add_neg_r.
  - rewrite !add_inf_r. reflexivity.
  - rewrite add_neg_r, neg_neg. reflexivity.
  - rewrite (add_tangent l) by assumption. apply add_sub_tangent; assumption.
  - rewrite (add_chord l) by assumption. apply add_sub_chord; assumption.
Qed.
Lemma add_cancel P Q R : on P -> on Q -> on R -> add P R = add Q R -> P = Q.
Proof. intros HP HQ HR E. rewrite <- (add_sub P R), E by assumption. apply add_sub; assumption. Qed.
Lemma add_zero_eq P Q : on P -> on Q -> add P Q = Inf -> P = neg Q.
Proof. intros HP HQ E. rewrite <- (add_sub P Q), E by assumption. reflexivity. Qed.

(** ** Associativity, generic case *)
(** Coordinates relative to the middle point (x2, y2): the lines through it have
    slopes l and m, the other points on them are at u1, v4 and u3, v5. *)
Lemma relative l x1 y1 x2 y2 : on (Aff x1 y1) -> on (Aff x2 y2) -> x1 - x2 <> 0 ->
  l * (x1 - x2) = y1 - y2 ->
  2 * y2 * l + (x1 - x2) * (l * l) = 3 * (x2 * x2) + a + 3 * x2 * (x1 - x2) + (x1 - x2) * (x1 - x2).
Proof.
  cbn [on]. intros H1 H2 N E. apply (cancel (x1 - x2)); [exact N|]. nsatz.
Qed.

Lemma assoc_generic x1 y1 x2 y2 x3 y3 x4 y4 x5 y5 :
  on (Aff x1 y1) -> on (Aff x2 y2) -> on (Aff x3 y3) ->
  x1 <> x2 -> x2 <> x3 ->
  add (Aff x1 y1) (Aff x2 y2) = Aff x4 y4 -> add (Aff x2 y2) (Aff x3 y3) = Aff x5 y5 ->
  x4 <> x3 -> x5 <> x1 ->
  add (Aff x4 y4) (Aff x3 y3) = add (Aff x1 y1) (Aff x5 y5).
Proof.
  intros H1 H2 H3 N12 N23 E4 E5 N43 N51.
  assert (D1 : x1 - x2 <> 0) by (apply sub_nz; exact N12).
  assert (D3 : x3 - x2 <> 0) by (apply sub_nz; congruence).
  destruct (slope_ex (y1 - y2) _ D1) as [l El]. destruct (slope_ex (y3 - y2) _ D3) as [m Em].
  rewrite add_comm in E4 by assumption. rewrite (add_chord l) in E4 by assumption.
  rewrite (add_chord m) in E5 by assumption. injection E4 as X4 Y4. injection E5 as X5 Y5.
  pose proof (relative l x1 y1 x2 y2 H1 H2 D1 El) as R1.
  pose proof (relative m x3 y3 x2 y2 H3 H2 D3 Em) as R3.
  clear H1 H2 H3.
  (* w = 2 y2, t = 3 x2 *)
  assert (S : 2 * y2 * (l - m) = (x3 - x2) * (x5 - x2) - (x1 - x2) * (x4 - x2)) by nsatz.
  destruct (feq l m) as [<-|Nlm].
  - (* all on one line: P1 = P3 *)
    assert (Z : (x1 - x3) * (x1 - x5) = 0) by nsatz.
    destruct (mul_zero _ _ Z) as [Z1|Z1].
    + apply sub_z in Z1. subst x3. assert (y3 = y1) by nsatz. subst y3.
      assert (E5 : x5 = x4) by (rewrite <- X4, <- X5; ring).
      assert (F5 : y5 = y4) by (rewrite <- Y4, <- Y5; ring). rewrite E5, F5.
      assert (D : x4 - x1 <> 0) by (apply sub_nz; exact N43).
      destruct (slope_ex (y4 - y1) _ D) as [k Ek].
      assert (D' : x1 - x4 <> 0).
      { apply sub_nz. congruence. }
      rewrite (add_chord k x1 y1 x4 y4) by assumption.
      rewrite (add_chord k x4 y4 x1 y1); [|exact D'|].
      * unfold third. f_equal; [ring|]. nsatz.
      * transitivity (- (k * (x4 - x1))); [ring|]. rewrite Ek. ring.
    + elim N51. symmetry. apply sub_z. exact Z1.
  - assert (D : l - m <> 0) by (apply sub_nz; exact Nlm).
    assert (D43 : x3 - x4 <> 0) by (apply sub_nz; congruence).
    assert (D51 : x5 - x1 <> 0) by (apply sub_nz; congruence).
    destruct (slope_ex (x4 + x3 - x1 - x5) _ D) as [k Ek].
    (* the two slopes are -(k + d)/2 and -(k - d)/2 *)
    destruct (slope_ex (- (k + (l - m))) 2 two_nz) as [n En].
    destruct (slope_ex (- (k - (l - m))) 2 two_nz) as [r Er].
    assert (Sn : n * (x3 - x4) = y3 - y4).
    { clear r Er. apply (cancel 2); [exact two_nz|]. apply (cancel (l - m)); [exact D|]. nsatz. }
    assert (Sr : r * (x5 - x1) = y5 - y1).
    { clear n En Sn. apply (cancel 2); [exact two_nz|]. apply (cancel (l - m)); [exact D|]. nsatz. }
    rewrite (add_chord n), (add_chord r) by assumption. unfold third.
    assert (X : n * n - x4 - x3 = r * r - x1 - x5).
    { apply (cancel 4). { intros Z. destruct (mul_zero _ _ Z); contradiction. } nsatz. }
    f_equal; [exact X|]. rewrite X.
    apply (cancel 4). { intros Z. destruct (mul_zero _ _ Z); contradiction. }
    nsatz.
Qed.

(** (P + Q) + (P - Q) = 2P *)
Lemma sum_diff x1 y1 x2 y2 x4 y4 x5 y5 :
  on (Aff x1 y1) -> on (Aff x2 y2) -> x1 <> x2 -> y2 <> 0 ->
  add (Aff x2 y2) (Aff x1 y1) = Aff x4 y4 -> add (Aff x2 y2) (Aff x1 (- y1)) = Aff x5 y5 ->
  x4 <> x5 -> add (Aff x4 y4) (Aff x5 y5) = add (Aff x2 y2) (Aff x2 y2).
Proof.
  intros H1 H2 N12 Ny E4 E5 N45.
  assert (D1 : x1 - x2 <> 0) by (apply sub_nz; exact N12).
  destruct (slope_ex (y1 - y2) _ D1) as [l El]. destruct (slope_ex (- y1 - y2) _ D1) as [m Em].
  rewrite (add_chord l) in E4 by assumption. rewrite (add_chord m) in E5 by assumption.
  injection E4 as X4 Y4. injection E5 as X5 Y5.
  pose proof (relative l x1 y1 x2 y2 H1 H2 D1 El) as R1.
  assert (H1' : on (Aff x1 (- y1))) by (apply (on_neg (Aff x1 y1)); exact H1).
  pose proof (relative m x1 (- y1) x2 y2 H1' H2 D1 Em) as R3.
  clear H1 H1' H2.
  assert (W : (l + m) * (x1 - x2) = - (2 * y2)) by nsatz.
  assert (Ns : l + m <> 0).
  { intros Z. rewrite Z in W. apply Ny. apply (cancel 2); [exact two_nz|].
    transitivity (- (- (2 * y2))); [ring|]. rewrite <- W. ring. }
  assert (D45 : x5 - x4 <> 0) by (apply sub_nz; congruence).
  set (c := l * l - (x4 - x2)).
  destruct (slope_ex (l * m + c) _ Ns) as [t Et].
  destruct (slope_ex (- (l * l + l * m + m * m - c)) _ Ns) as [s Es].
  assert (St : t * (2 * y2) = 3 * (x2 * x2) + a).
  { apply (cancel (l + m)); [exact Ns|]. clear s Es. unfold c in *. nsatz. }
  assert (Ss : s * (x5 - x4) = y5 - y4).
  { apply (cancel (l + m)); [exact Ns|]. clear t Et St. unfold c in *. nsatz. }
  rewrite (add_tangent t), (add_chord s) by assumption. unfold third.
  assert (S1 : s - t = - (l + m)).
  { apply (cancel (l + m)); [exact Ns|]. unfold c in *. nsatz. }
  assert (X : s * s - x4 - x5 = t * t - x2 - x2).
  { assert (S2 : (s + t) * (l + m) = - (l * l + m * m) + 2 * c) by (unfold c in *; nsatz).
    unfold c in *. nsatz. }
  f_equal; [exact X|]. rewrite X.
  apply (cancel (l + m)); [exact Ns|]. clear R1 R3 El Em Es St Ss X Y5 X5. unfold c in *. nsatz.
Qed.

(** Adding a point of order two does not change the double. *)
Lemma double_shift e x1 y1 x4 y4 :
  on (Aff x1 y1) -> on (Aff e 0) -> x1 <> e -> y1 <> 0 ->
  add (Aff x1 y1) (Aff e 0) = Aff x4 y4 ->
  add (Aff x4 y4) (Aff x4 y4) = add (Aff x1 y1) (Aff x1 y1).
Proof.
  intros H1 H2 N Ny E4.
  assert (D1 : x1 - e <> 0) by (apply sub_nz; exact N).
  destruct (slope_ex (y1 - 0) _ D1) as [l El].
  rewrite add_comm in E4 by assumption. rewrite (add_chord l) in E4 by assumption.
  injection E4 as X4 Y4.
  pose proof (relative l x1 y1 e 0 H1 H2 D1 El) as R1.
  pose proof (nonsing e H2) as NS.
  assert (Nl : l <> 0).
  { intros ->. apply Ny. transitivity (y1 - 0); [ring|]. rewrite <- El. ring. }
  assert (M : (x1 - e) * (x4 - e) = 3 * (e * e) + a) by nsatz.
  assert (N4 : x4 - e <> 0).
  { intros Z. apply NS. rewrite <- M, Z. ring. }
  assert (Ey4 : y4 = - (l * (x4 - e))) by nsatz.
  assert (Ny4 : y4 <> 0).
  { intros Z. destruct (mul_zero l (x4 - e)) as [Z'|Z']; [|contradiction..].
    transitivity (- y4); [rewrite Ey4; ring|]. rewrite Z. ring. }
  assert (N2l : 2 * l <> 0) by (intros Z; destruct (mul_zero _ _ Z); contradiction).
  destruct (slope_ex (x1 - x4) _ N2l) as [k Ek].
  assert (Ey1 : y1 = l * (x1 - e)) by (rewrite El; ring).
  assert (Ea : a = (x1 - e) * (x4 - e) - 3 * (e * e)) by (rewrite M; ring).
  assert (Ell : l * l = x4 + e + x1) by (rewrite <- X4; ring).
  assert (T1 : (l + k) * (2 * y1) = 3 * (x1 * x1) + a).
  { transitivity (2 * (l * l) * (x1 - e) + (k * (2 * l)) * (x1 - e)); [rewrite Ey1; ring|].
    rewrite Ek, Ell, Ea. ring. }
  assert (T4 : (k - l) * (2 * y4) = 3 * (x4 * x4) + a).
  { transitivity (2 * (l * l) * (x4 - e) - (k * (2 * l)) * (x4 - e)); [rewrite Ey4; ring|].
    rewrite Ek, Ell, Ea. ring. }
  rewrite (add_tangent (l + k) x1 y1), (add_tangent (k - l) x4 y4) by assumption. unfold third.
  assert (X : (k - l) * (k - l) - x4 - x4 = (l + k) * (l + k) - x1 - x1).
  { transitivity ((l + k) * (l + k) - 2 * (k * (2 * l)) - x4 - x4); [ring|]. rewrite Ek. ring. }
  f_equal; [exact X|]. rewrite X. set (w := (l + k) * (l + k) - x1 - x1).
  transitivity (k * x4 - k * w + l * w - l * e); [rewrite Ey4; ring|].
  transitivity (k * x1 - k * w - l * w + l * e); [|rewrite Ey1; ring].
  assert (Ew : w = e + k * k).
  { transitivity (l * l + k * (2 * l) + k * k - x1 - x1); [unfold w; ring|]. rewrite Ell, Ek. ring. }
  rewrite Ew. transitivity (k * x1 - k * (e + k * k) - l * (e + k * k) + l * e - k * (x1 - x4) + k * (k * (2 * l))); [ring|].
  rewrite Ek. ring.
Qed.

(** ** Associativity *)
Lemma neg_inj P Q : neg P = neg Q -> P = Q.
Proof. intros E. rewrite <- (neg_neg P), E. apply neg_neg. Qed.
Lemma affine P : P <> Inf -> exists x y, P = Aff x y.
Proof. destruct P; [congruence|eauto]. Qed.
Lemma same_abs x y1 y2 : on (Aff x y1) -> on (Aff x y2) -> Aff x y1 = Aff x y2 \/ Aff x y1 = neg (Aff x y2).
Proof. intros H1 H2. destruct (same_x x y1 y2 H1 H2) as [-> | ->]; auto. Qed.
Lemma diff_abs x1 y1 x2 y2 : on (Aff x1 y1) -> on (Aff x2 y2) ->
  Aff x1 y1 <> Aff x2 y2 -> Aff x1 y1 <> neg (Aff x2 y2) -> x1 <> x2.
Proof. intros H1 H2 N N' <-. destruct (same_abs x1 y1 y2 H1 H2); contradiction. Qed.
Lemma pt_eq (P Q : pt) : {P = Q} + {P <> Q}.
Proof.
  destruct P as [|x y], Q as [|x' y']; try (right; congruence); [left; reflexivity|].
  destruct (feq x x') as [-> | ]; [|right; congruence]. destruct (feq y y') as [-> | ]; [|right; congruence].
  left. reflexivity.
Qed.

(** The generic case, on points. *)
Lemma assoc_gen A B C : on A -> on B -> on C -> A <> Inf -> B <> Inf -> C <> Inf ->
  A <> B -> A <> neg B -> B <> C -> B <> neg C ->
  add A B <> C -> add A B <> neg C -> add B C <> A -> add B C <> neg A ->
  add (add A B) C = add A (add B C).
Proof.
  intros HA HB HC NA NB NC. pose proof (on_add A B HA HB) as HS. pose proof (on_add B C HB HC) as HT.
  destruct A as [|x1 y1]; [contradiction|]. destruct B as [|x2 y2]; [contradiction|].
  destruct C as [|x3 y3]; [contradiction|]. intros N1 N2 N3 N4 N5 N6 N7 N8.
  destruct (add (Aff x1 y1) (Aff x2 y2)) as [|x4 y4] eqn:E4.
  { elim N2. apply add_zero_eq; assumption. }
  destruct (add (Aff x2 y2) (Aff x3 y3)) as [|x5 y5] eqn:E5.
  { elim N4. apply add_zero_eq; assumption. }
  apply (assoc_generic x1 y1 x2 y2 x3 y3 x4 y4 x5 y5); try assumption; eapply diff_abs; eassumption.
Qed.
(** (P + Q) + (P - Q) = 2P *)
Lemma sum_diff_pt P Q : on P -> on Q -> P <> Inf -> Q <> Inf -> P <> Q -> P <> neg Q -> P <> neg P ->
  add P Q <> add P (neg Q) -> add P Q <> neg (add P (neg Q)) ->
  add (add P Q) (add P (neg Q)) = add P P.
Proof.
  intros HP HQ NP NQ. pose proof (on_add P Q HP HQ) as HS. pose proof (on_add P (neg Q) HP (on_neg Q HQ)) as HT.
  destruct P as [|x2 y2]; [contradiction|]. destruct Q as [|x1 y1]; [contradiction|].
  intros N1 N2 N3 N4 N5. cbn [neg] in *.
  destruct (add (Aff x2 y2) (Aff x1 y1)) as [|x4 y4] eqn:E4.
  { elim N2. apply (add_zero_eq _ (Aff x1 y1)); assumption. }
  destruct (add (Aff x2 y2) (Aff x1 (- y1))) as [|x5 y5] eqn:E5.
  { elim N1. rewrite (add_zero_eq _ (Aff x1 (- y1)) HP (on_neg (Aff x1 y1) HQ) E5).
    exact (neg_neg (Aff x1 y1)). }
  apply (sum_diff x1 y1 x2 y2); try assumption.
  - intros <-. destruct (same_abs x1 y2 y1 HP HQ); contradiction.
  - intros ->. apply N3. f_equal. ring.
  - eapply diff_abs; eassumption.
Qed.
Lemma double_shift_pt A B : on A -> on B -> A <> Inf -> B <> Inf -> B = neg B -> A <> B -> A <> neg A ->
  add (add A B) (add A B) = add A A.
Proof.
  intros HA HB NA NB. destruct A as [|x1 y1]; [contradiction|]. destruct B as [|e y]; [contradiction|].
  intros E N1 N2. assert (y = 0) by (apply self_neg; cbn [neg] in E; congruence). subst y.
  assert (N : x1 <> e).
  { intros <-. destruct (same_abs x1 y1 0 HA HB); congruence. }
  destruct (add (Aff x1 y1) (Aff e 0)) as [|x4 y4] eqn:E4.
  { elim N1. rewrite E. apply add_zero_eq; assumption. }
  apply (double_shift e x1 y1); try assumption.
  intros ->. apply N2. cbn [neg]. f_equal. ring.
Qed.

Definition assoc_at (A B C : pt) : Prop := add (add A B) C = add A (add B C).
Lemma assoc_sym A B C : on A -> on B -> on C -> assoc_at C B A -> assoc_at A B C.
Proof.
  unfold assoc_at. intros HA HB HC E. rewrite (add_comm A B), (add_comm B C) by assumption.
  rewrite (add_comm (add B A) C), <- E by (try apply on_add; assumption).
  apply add_comm; [apply on_add|]; assumption.
Qed.
Lemma sub_add P Q : on P -> on Q -> add (add P (neg Q)) Q = P.
Proof. intros HP HQ. rewrite <- (neg_neg Q) at 2. apply add_sub; [|apply on_neg]; assumption. Qed.
(** A - (A + C) = - C *)
Lemma sub_sum A C : on A -> on C -> add A (neg (add A C)) = neg C.
Proof.
  intros HA HC. rewrite neg_add, (add_comm (neg A)) by (try apply on_neg; assumption).
  rewrite add_comm by (repeat first [apply on_add|apply on_neg]; assumption).
  apply sub_add; [apply on_neg|]; assumption.
Qed.
Lemma assoc_opp B C : on B -> on C -> assoc_at (neg B) B C.
Proof.
  intros HB HC. unfold assoc_at. rewrite add_neg_l, add_inf_l.
  rewrite add_comm by (repeat first [apply on_add|apply on_neg]; assumption).
  rewrite (add_comm B C) by assumption. symmetry. apply add_sub; assumption.
Qed.
Lemma assoc_sum_opp A B : on A -> on B -> assoc_at A B (neg (add A B)).
Proof.
  intros HA HB. unfold assoc_at. rewrite add_neg_r. rewrite (add_comm A B), sub_sum by assumption.
  symmetry. apply add_neg_r.
Qed.
Lemma assoc_double A C : on A -> on C -> A <> Inf -> C <> Inf -> A <> neg A -> A <> neg C -> C <> A ->
  add A C <> neg A -> assoc_at A A C.
Proof.
  intros HA HC NA NC N1 N2 N3 N4. unfold assoc_at. pose proof (on_add A C HA HC) as HD.
  assert (ND : add A C <> Inf) by (intros E; apply N2; apply add_zero_eq; assumption).
  assert (N5 : A <> add A C).
  { intros E. apply NC. apply (add_cancel C Inf A); [assumption|exact I|assumption|].
    rewrite add_comm by assumption. symmetry. exact E. }
  pose proof (sub_sum A C HA HC) as ES.
  destruct (pt_eq (add A (add A C)) (neg C)) as [E|NE].
  - assert (ED : add A C = neg (add A C)).
    { apply (add_cancel _ _ A); [assumption|apply on_neg; assumption|assumption|].
      rewrite !(add_comm _ A) by (try apply on_neg; assumption). congruence. }
    rewrite E, <- (double_shift_pt A (add A C)) by assumption. rewrite E. apply sub_add; [apply on_neg|]; assumption.
  - destruct (pt_eq (add A (add A C)) C) as [E|NE'].
    + elim N1. apply (add_cancel _ _ C); [assumption|apply on_neg; assumption|assumption|].
      rewrite (add_comm (neg A)) by (try apply on_neg; assumption). rewrite <- E at 2.
      rewrite (add_comm A (add A C)) by assumption. symmetry. apply add_sub; assumption.
    + assert (EG : add (add A (add A C)) (neg C) = add A A).
      { rewrite <- ES. apply sum_diff_pt; try assumption.
        - intros E. apply N4. rewrite E at 2. symmetry. apply neg_neg.
        - rewrite ES. exact NE.
        - rewrite ES, neg_neg. exact NE'. }
      rewrite <- EG. apply sub_add; [apply on_add|]; assumption.
Qed.
Lemma assoc_repeat A B : on A -> on B -> A <> Inf -> B <> Inf -> A <> B -> A <> neg B ->
  B <> add A B -> B <> neg (add A B) -> add A B <> neg (add A B) -> add B (add A B) <> neg A ->
  assoc_at A B (add A B).
Proof.
  intros HA HB NA NB N1 N2 N3 N4 N5 N6. unfold assoc_at. pose proof (on_add A B HA HB) as HS.
  assert (NS : add A B <> Inf) by (intros E; apply N2; apply add_zero_eq; assumption).
  pose proof (add_sub A B HA HB) as EA.
  destruct (pt_eq (add B (add A B)) A) as [E|NE].
  - assert (EB : B = neg B).
    { apply (add_cancel _ _ (add A B)); [assumption|apply on_neg; assumption|assumption|].
      rewrite (add_comm (neg B)) by (try apply on_neg; assumption). congruence. }
    rewrite E. apply double_shift_pt; try assumption.
    intros E'. apply N5. rewrite neg_add by assumption. congruence.
  - rewrite <- (sum_diff_pt (add A B) B); try assumption.
    + rewrite EA, (add_comm (add A B) B) by assumption. apply add_comm; [apply on_add|]; assumption.
    + congruence.
    + intros E. apply N4. rewrite E. symmetry. apply neg_neg.
    + rewrite EA, add_comm by assumption. exact NE.
    + rewrite EA, add_comm by assumption. exact N6.
Qed.
Theorem add_assoc A B C : on A -> on B -> on C -> add (add A B) C = add A (add B C).
Proof.
  intros HA HB HC. change (assoc_at A B C).
  destruct (pt_eq A Inf) as [-> | NA]; [reflexivity|].
  destruct (pt_eq B Inf) as [-> | NB]; [unfold assoc_at; rewrite add_inf_r; reflexivity|].
  destruct (pt_eq C Inf) as [-> | NC]; [unfold assoc_at; rewrite !add_inf_r; reflexivity|].
  destruct (pt_eq A (neg B)) as [-> | N1]; [apply assoc_opp; assumption|].
  destruct (pt_eq C (neg B)) as [-> | N2].
  { apply assoc_sym; try assumption. apply assoc_opp; assumption. }
  destruct (pt_eq C (neg (add A B))) as [-> | N3]; [apply assoc_sum_opp; assumption|].
  destruct (pt_eq A (neg (add C B))) as [-> | N4].
  { apply assoc_sym; try assumption. apply assoc_sum_opp; assumption. }
  assert (N1' : B <> neg A) by (intros E; apply N1; rewrite E; symmetry; apply neg_neg).
  assert (N2' : B <> neg C) by (intros E; apply N2; rewrite E; symmetry; apply neg_neg).
  assert (N3' : add A B <> neg C) by (intros E; apply N3; rewrite E; symmetry; apply neg_neg).
  assert (N4' : add C B <> neg A) by (intros E; apply N4; rewrite E; symmetry; apply neg_neg).
  destruct (pt_eq A B) as [<- | N5].
  { destruct (pt_eq C A) as [-> | N6].
    - unfold assoc_at. apply add_comm; [apply on_add|]; assumption.
    - rewrite (add_comm C A) in N4' by assumption. apply assoc_double; assumption. }
  destruct (pt_eq C B) as [<- | N6].
  { apply assoc_sym; try assumption. rewrite (add_comm A C) in N3' by assumption.
    apply assoc_double; try assumption. }
  destruct (pt_eq C (add A B)) as [-> | N7].
  { rewrite (add_comm (add A B) B) in N4' by assumption. apply assoc_repeat; try assumption. congruence. }
  destruct (pt_eq A (add C B)) as [-> | N8].
  { apply assoc_sym; try assumption. rewrite (add_comm (add C B) B) in N3' by assumption.
    apply assoc_repeat; try assumption. congruence. }
  rewrite (add_comm C B) in N4', N8 by assumption. apply assoc_gen; congruence || assumption.
Qed.
End Weierstrass.
