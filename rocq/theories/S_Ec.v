(** Short Weierstrass curves over Z/pZ: the chord rule for adding two points with distinct
    x-coordinates (SEC 1, section 2.2.1), stated as relations. *)
From Coq Require Import ZArith Znumtheory.
Local Open Scope Z_scope.

Definition congr (p a b : Z) : Prop := a mod p = b mod p.
Definition on_curve (p a b x y : Z) : Prop := congr p (y * y) (x * x * x + a * x + b).
(** (x3, y3) is the sum of (x1, y1) and (x2, y2), x1 <> x2 *)
Definition chord_sum (p x1 y1 x2 y2 x3 y3 : Z) : Prop :=
  exists l, congr p (l * (x2 - x1)) (y2 - y1) /\
            congr p x3 (l * l - x1 - x2) /\ congr p y3 (l * (x1 - x3) - y1).
