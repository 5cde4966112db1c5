(** Twisted Edwards curves -x^2 + y^2 = 1 + d x^2 y^2 modulo p, in integers (RFC 8032,
    5.1). *)
From Coq Require Import ZArith.
Open Scope Z_scope.

Definition on_edwards (p d x y : Z) : Prop :=
  0 <= x < p /\ 0 <= y < p /\ (y * y - x * x - (1 + d * (x * x) * (y * y))) mod p = 0.
(** RFC 8032, 5.1.4: x3 = (x1 y2 + x2 y1) / (1 + d x1 x2 y1 y2),
    y3 = (y1 y2 + x1 x2) / (1 - d x1 x2 y1 y2) *)
Definition edwards_sum (p d x1 y1 x2 y2 x3 y3 : Z) : Prop :=
  0 <= x3 < p /\ 0 <= y3 < p /\
  (x3 * (1 + d * (x1 * x2) * (y1 * y2)) - (x1 * y2 + x2 * y1)) mod p = 0 /\
  (y3 * (1 - d * (x1 * x2) * (y1 * y2)) - (y1 * y2 + x1 * x2)) mod p = 0.
(** k times the point (bx, by), by repeated addition *)
Inductive edwards_multiple (p d bx by_ : Z) : N -> Z -> Z -> Prop :=
| multiple_zero : edwards_multiple p d bx by_ 0 0 1
| multiple_succ k x y x' y' : edwards_multiple p d bx by_ k x y -> edwards_sum p d bx by_ x y x' y' ->
    edwards_multiple p d bx by_ (N.succ k) x' y'.
(** The parameters of edwards25519: d = -121665/121666, B = (x, 4/5) with x even *)
Definition edwards25519 (p d bx by_ : Z) : Prop :=
  p = 2 ^ 255 - 19 /\ 0 <= d < p /\ (121666 * d + 121665) mod p = 0 /\
  on_edwards p d bx by_ /\ (5 * by_ - 4) mod p = 0 /\ Z.even bx = true.
