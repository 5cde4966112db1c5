(** The curve y^2 = x^3 + ax + b modulo p, in integers (SEC1 2.2.1, 2.3.3). *)
From Coq Require Import ZArith List.
Import ListNotations.
Open Scope bool_scope.
Open Scope Z_scope.

(** (x, y) is an affine point of the curve. *)
Definition affine_point (p a b x y : Z) : Prop :=
  0 <= x < p /\ 0 <= y < p /\ (y * y - (x * x * x + a * x + b)) mod p = 0.

(** Addition of two affine points, SEC1 2.2.1 rules 3 to 5; [None] is the point at
    infinity. *)
Definition chord_tangent (p a x1 y1 x2 y2 : Z) (r : option (Z * Z)) : Prop :=
  if (x1 =? x2) && ((y1 + y2) mod p =? 0) then r = None
  else exists l x3 y3, r = Some (x3, y3) /\ 0 <= x3 < p /\ 0 <= y3 < p /\
    (if x1 =? x2 then (l * (2 * y1) - (3 * (x1 * x1) + a)) mod p = 0
     else (l * (x2 - x1) - (y2 - y1)) mod p = 0) /\
    (x3 - (l * l - x1 - x2)) mod p = 0 /\ (y3 - (l * (x1 - x3) - y1)) mod p = 0.
