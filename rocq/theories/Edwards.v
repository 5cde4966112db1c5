(** The twisted Edwards curve -x^2 + y^2 = 1 + d x^2 y^2 over a field in which -1 is a
    square and d is not: the addition law is complete. *)
From Coq Require Import NsatzTactic Ring Field Setoid Morphisms.

Section Edwards.
Context (F : Type) (f0 f1 : F) (fadd fmul fsub : F -> F -> F) (fopp : F -> F)
  (fdiv : F -> F -> F) (finv : F -> F).
Context (FT : field_theory f0 f1 fadd fmul fsub fopp fdiv finv (@eq F)).
Context (feq : forall x y : F, {x = y} + {x <> y}).
Add Field FF : FT.
#[local] Instance Fops : @Ring_ops F f0 f1 fadd fmul fsub fopp (@eq F) := {}.
#[local] Instance Fring : Ring (Ro := Fops).
Proof.
  constructor; try solve [intros; cbv; ring]; try apply eq_equivalence; try (repeat intro; cbv in *; congruence).
Qed.
#[local] Instance Fcring : Cring (Rr := Fring).
Proof. repeat intro; cbv; ring. Qed.

Declare Scope f_scope.
Delimit Scope f_scope with f.
Local Open Scope f_scope.
Local Notation "0" := f0 : f_scope.
Local Notation "1" := f1 : f_scope.
Local Notation "x + y" := (fadd x y) : f_scope.
Local Notation "x - y" := (fsub x y) : f_scope.
Local Notation "x * y" := (fmul x y) : f_scope.
Local Notation "x / y" := (fdiv x y) : f_scope.
Local Notation "- x" := (fopp x) : f_scope.
Local Notation "2" := (1 + 1) : f_scope.

Lemma mul_zero x y : x * y = 0 -> x = 0 \/ y = 0.
Proof.
  intros H. destruct (feq x 0) as [E|E]; [left; exact E|right].
  transitivity (finv x * (x * y)); [field; exact E|rewrite H; ring].
Qed.
#[local] Instance Fdom : Integral_domain (Rcr := Fcring).
Proof.
  constructor; cbv.
  - apply mul_zero.
  - intros H. apply (F_1_neq_0 FT). exact H.
Qed.
Lemma sub_z x y : x - y = 0 -> x = y.
Proof. intros E. transitivity (x - y + y); [ring|]. rewrite E. ring. Qed.
Lemma cancel d x y : d <> 0 -> d * x = d * y -> x = y.
Proof.
  intros N E. apply sub_z. destruct (mul_zero d (x - y)) as [H|H]; [|contradiction|exact H].
  transitivity (d * x - d * y); [ring|]. rewrite E. ring.
Qed.
Lemma mul_nz x y : x <> 0 -> y <> 0 -> x * y <> 0.
Proof. intros A B E. destruct (mul_zero x y E); contradiction. Qed.

Context (d i : F).
Context (two_nz : 2 <> 0) (i_sq : i * i = - (1)) (d_nonsq : forall r, r * r <> d).

Definition on (P : F * F) : Prop := let '(x, y) := P in y * y - x * x = 1 + d * (x * x) * (y * y).
Definition zero : F * F := (0, 1).
Definition neg (P : F * F) : F * F := let '(x, y) := P in (- x, y).
Definition add (P Q : F * F) : F * F :=
  let '(x1, y1) := P in
  let '(x2, y2) := Q in
  let t := d * (x1 * x2) * (y1 * y2) in
  ((x1 * y2 + x2 * y1) / (1 + t), (y1 * y2 + x1 * x2) / (1 - t)).

(** ** Completeness: the denominators do not vanish *)
Lemma not_sq y s : s <> 0 -> s * s * d = y * y -> False.
Proof.
  intros N E. apply (d_nonsq (y / s)). apply (cancel (s * s)); [apply mul_nz; exact N|].
  rewrite E. field. exact N.
Qed.
Lemma unit_product x1 y1 x2 y2 e : on (x1, y1) -> on (x2, y2) -> e * e = 1 ->
  d * (x1 * x2) * (y1 * y2) <> e.
Proof.
  intros E1 E2 Ee T. unfold on in E1, E2.
  assert (N : x1 * y1 <> 0 /\ x2 <> 0).
  { split.
    - intros Z. apply (F_1_neq_0 FT). rewrite <- Ee, <- T.
      transitivity (d * d * (x1 * y1) * (x1 * y1) * (x2 * y2) * (x2 * y2)); [ring|]. rewrite Z. ring.
    - intros Z. apply (F_1_neq_0 FT). rewrite <- Ee, <- T, Z. ring. }
  destruct N as [N1 N2].
  (* with u = i x: (u1 + e' y1)^2 = - d u1^2 y1^2 (u2 + y2)^2 *)
  assert (A : (x1 * y1 * (i * x2 + y2)) * (x1 * y1 * (i * x2 + y2)) * d = (i * x1 + e * y1) * (i * x1 + e * y1)).
  { nsatz. }
  assert (B : (x1 * y1 * (i * x2 - y2)) * (x1 * y1 * (i * x2 - y2)) * d = (i * x1 - e * y1) * (i * x1 - e * y1)).
  { nsatz. }
  assert (NA : i * x2 + y2 = 0).
  { destruct (feq (i * x2 + y2) 0) as [Z|Z]; [exact Z|]. exfalso.
    eapply not_sq; [apply (mul_nz _ _ N1 Z)|exact A]. }
  assert (NB : i * x2 - y2 = 0).
  { destruct (feq (i * x2 - y2) 0) as [Z|Z]; [exact Z|]. exfalso.
    eapply not_sq; [apply (mul_nz _ _ N1 Z)|exact B]. }
  assert (Z : 2 * (i * x2) = 0).
  { transitivity ((i * x2 + y2) + (i * x2 - y2)); [ring|]. rewrite NA, NB. ring. }
  destruct (mul_zero _ _ Z) as [Z'|Z']; [contradiction|].
  destruct (mul_zero _ _ Z') as [Z2|Z2]; [|contradiction].
  rewrite Z2 in i_sq. apply (F_1_neq_0 FT). transitivity (- - (1)); [ring|]. rewrite <- i_sq. ring.
Qed.
Lemma den_plus x1 y1 x2 y2 : on (x1, y1) -> on (x2, y2) -> 1 + d * (x1 * x2) * (y1 * y2) <> 0.
Proof.
  intros E1 E2 Z. apply (unit_product x1 y1 x2 y2 (- (1)) E1 E2); [ring|].
  transitivity (1 + d * (x1 * x2) * (y1 * y2) - 1); [ring|]. rewrite Z. ring.
Qed.
Lemma den_minus x1 y1 x2 y2 : on (x1, y1) -> on (x2, y2) -> 1 - d * (x1 * x2) * (y1 * y2) <> 0.
Proof.
  intros E1 E2 Z. apply (unit_product x1 y1 x2 y2 1 E1 E2); [ring|].
  transitivity (1 - (1 - d * (x1 * x2) * (y1 * y2))); [ring|]. rewrite Z. ring.
Qed.

Theorem zero_on : on zero.
Proof. unfold on, zero. ring. Qed.
Theorem neg_on P : on P -> on (neg P).
Proof. destruct P as [x y]. unfold on, neg. intros E. transitivity (y * y - x * x); [ring|]. rewrite E. ring. Qed.
Theorem add_comm P Q : add P Q = add Q P.
Proof.
  destruct P as [x1 y1], Q as [x2 y2]. unfold add. f_equal; f_equal; try ring; f_equal; ring.
Qed.
Lemma div_eq n t q : t <> 0 -> n = q * t -> n / t = q.
Proof. intros N ->. field. exact N. Qed.
Theorem add_zero P : add P zero = P.
Proof.
  destruct P as [x y]. unfold add, zero.
  assert (Z : d * (x * 0) * (y * 1) = 0) by ring. rewrite Z.
  f_equal; field; intros E; apply (F_1_neq_0 FT); rewrite <- E; ring.
Qed.
Theorem add_on P Q : on P -> on Q -> on (add P Q).
Proof.
  destruct P as [x1 y1], Q as [x2 y2]. intros E1 E2.
  pose proof (den_plus _ _ _ _ E1 E2) as N1. pose proof (den_minus _ _ _ _ E1 E2) as N2.
  unfold on, add in *. set (t := d * (x1 * x2) * (y1 * y2)) in *.
  assert (Ht : t = d * (x1 * x2) * (y1 * y2)) by reflexivity. clearbody t.
  set (x3 := _ / (1 + t)). set (y3 := _ / (1 - t)).
  assert (H3 : x3 * (1 + t) = x1 * y2 + x2 * y1) by (unfold x3; field; exact N1).
  assert (H4 : y3 * (1 - t) = y1 * y2 + x1 * x2) by (unfold y3; field; exact N2).
  clearbody x3 y3.
  apply (cancel ((1 + t) * (1 + t) * ((1 - t) * (1 - t)))); [repeat apply mul_nz; assumption|].
  assert (K : - (x1 * y2 + x2 * y1) * (x1 * y2 + x2 * y1) * ((1 - t) * (1 - t)) +
     (y1 * y2 + x1 * x2) * (y1 * y2 + x1 * x2) * ((1 + t) * (1 + t)) =
     (1 + t) * (1 + t) * ((1 - t) * (1 - t)) +
     d * (x1 * y2 + x2 * y1) * (x1 * y2 + x2 * y1) * ((y1 * y2 + x1 * x2) * (y1 * y2 + x1 * x2))).
  { subst t. clear H3 H4 N1 N2. nsatz. }
  rewrite <- H3, <- H4 in K. 
  transitivity (- (x3 * (1 + t)) * (x3 * (1 + t)) * ((1 - t) * (1 - t)) +
    y3 * (1 - t) * (y3 * (1 - t)) * ((1 + t) * (1 + t))); [ring|]. rewrite K. ring.
Qed.
Theorem add_neg P : on P -> add P (neg P) = zero.
Proof.
  destruct P as [x y]. intros E. pose proof (neg_on _ E) as E'. cbn [neg] in E'.
  pose proof (den_plus _ _ _ _ E E') as N1. pose proof (den_minus _ _ _ _ E E') as N2.
  unfold add, neg, zero. f_equal.
  - apply div_eq; [exact N1|]. ring.
  - apply div_eq; [exact N2|]. unfold on in E. transitivity (y * y - x * x); [ring|]. rewrite E. ring.
Qed.

Lemma assoc_x x1 y1 x2 y2 x3 y3 : on (x1, y1) -> on (x2, y2) -> on (x3, y3) ->
  let t12 := d * (x1 * x2) * (y1 * y2) in let t23 := d * (x2 * x3) * (y2 * y3) in
  let a12 := x1 * y2 + x2 * y1 in let b12 := y1 * y2 + x1 * x2 in
  let a23 := x2 * y3 + x3 * y2 in let b23 := y2 * y3 + x2 * x3 in
  (a12 * (1 - t12) * y3 + x3 * (b12 * (1 + t12))) * ((1 - t23 * t23) + d * (x1 * y1) * (a23 * b23)) =
  (x1 * (b23 * (1 + t23)) + a23 * (1 - t23) * y1) * ((1 - t12 * t12) + d * (x3 * y3) * (a12 * b12)).
Proof.
  unfold on. intros E1 E2 E3. cbv zeta. nsatz.
Qed.
Lemma assoc_y x1 y1 x2 y2 x3 y3 : on (x1, y1) -> on (x2, y2) -> on (x3, y3) ->
  let t12 := d * (x1 * x2) * (y1 * y2) in let t23 := d * (x2 * x3) * (y2 * y3) in
  let a12 := x1 * y2 + x2 * y1 in let b12 := y1 * y2 + x1 * x2 in
  let a23 := x2 * y3 + x3 * y2 in let b23 := y2 * y3 + x2 * x3 in
  (b12 * (1 + t12) * y3 + a12 * (1 - t12) * x3) * ((1 - t23 * t23) - d * (x1 * y1) * (a23 * b23)) =
  (y1 * (b23 * (1 + t23)) + x1 * (a23 * (1 - t23))) * ((1 - t12 * t12) - d * (x3 * y3) * (a12 * b12)).
Proof. unfold on. intros E1 E2 E3. cbv zeta. nsatz. Qed.
Lemma cross c c' N M N' M' n m n' m' : c <> 0 -> m <> 0 -> c' <> 0 -> m' <> 0 ->
  c * n = N -> c * m = M -> c' * n' = N' -> c' * m' = M' -> N * M' = N' * M -> n / m = n' / m'.
Proof.
  intros Nc Nm Nc' Nm' <- <- <- <- E. apply (cancel (m * m')); [apply mul_nz; assumption|].
  apply (cancel (c * c')); [apply mul_nz; assumption|].
  transitivity (c * n * (c' * m')); [field; exact Nm|]. rewrite E. field. exact Nm'.
Qed.
Theorem add_assoc P Q R : on P -> on Q -> on R -> add (add P Q) R = add P (add Q R).
Proof.
  destruct P as [x1 y1], Q as [x2 y2], R as [x3 y3]. intros E1 E2 E3.
  pose proof (add_on _ _ E1 E2) as E12. pose proof (add_on _ _ E2 E3) as E23.
  pose proof (den_plus _ _ _ _ E1 E2) as P12. pose proof (den_minus _ _ _ _ E1 E2) as M12.
  pose proof (den_plus _ _ _ _ E2 E3) as P23. pose proof (den_minus _ _ _ _ E2 E3) as M23.
  pose proof (assoc_x _ _ _ _ _ _ E1 E2 E3) as AX. pose proof (assoc_y _ _ _ _ _ _ E1 E2 E3) as AY.
  cbv zeta in AX, AY.
  set (t12 := d * (x1 * x2) * (y1 * y2)) in *. set (t23 := d * (x2 * x3) * (y2 * y3)) in *.
  cbn [add] in E12, E23 |- *. fold t12 in E12 |- *. fold t23 in E23 |- *.
  set (a12 := x1 * y2 + x2 * y1) in *. set (b12 := y1 * y2 + x1 * x2) in *.
  set (a23 := x2 * y3 + x3 * y2) in *. set (b23 := y2 * y3 + x2 * x3) in *.
  pose proof (den_plus _ _ _ _ E12 E3) as PL. pose proof (den_minus _ _ _ _ E12 E3) as ML.
  pose proof (den_plus _ _ _ _ E1 E23) as PR. pose proof (den_minus _ _ _ _ E1 E23) as MR.
  clearbody t12 t23 a12 b12 a23 b23. clear E1 E2 E3 E12 E23.
  assert (C12 : (1 + t12) * (1 - t12) <> 0) by (apply mul_nz; assumption).
  assert (C23 : (1 + t23) * (1 - t23) <> 0) by (apply mul_nz; assumption).
  f_equal.
  - refine (cross _ _ _ _ _ _ _ _ _ _ C12 PL C23 PR _ _ _ _ AX); field; split; assumption.
  - refine (cross _ _ _ _ _ _ _ _ _ _ C12 ML C23 MR _ _ _ _ AY); field; split; assumption.
Qed.
End Edwards.
