(* Solutions of differential equations and their invariants, written without reference to the model. *)
From Coq Require Import Reals.
From Verif Require Import Base.
Open Scope R_scope.

(* y solves y' = F(t,y) on [a,b]; F stores the derivative in an array that it is given *)
Definition solves (n : Z) (F : R -> (Z -> R) -> (Z -> R) -> out (Z -> R)) (y : R -> Z -> R) (a b : R) : Prop :=
  forall t z, a <= t <= b -> wp (F t (y t) z) (fun d => forall k, (0 <= k < n)%Z -> derivable_pt_lim (fun s => y s k) t (d k)).
(* a component that is 0 while the others are not negative does not decrease *)
Definition keeps_positive (n : Z) (F : R -> (Z -> R) -> (Z -> R) -> out (Z -> R)) : Prop :=
  forall t x z k, (0 <= k < n)%Z -> (forall i, (0 <= i < n)%Z -> 0 <= x i) -> x k = 0 -> wp (F t x z) (fun d => 0 <= d k).
(* the right-hand side does not depend on t *)
Definition autonomous (n : Z) (F : R -> (Z -> R) -> (Z -> R) -> out (Z -> R)) : Prop :=
  forall t s x z, wp (F t x z) (fun d => wp (F s x z) (fun e => forall k, (0 <= k < n)%Z -> d k = e k)).
(* E5 of Hairer & Wanner, vol. II, IV.10 *)
Definition e5_field (A B M C : R) (y : Z -> R) (k : Z) : R :=
  if (k =? 0)%Z then - A * y 0%Z - B * y 0%Z * y 2%Z
  else if (k =? 1)%Z then A * y 0%Z - M * C * y 1%Z * y 2%Z
  else if (k =? 2)%Z then A * y 0%Z - B * y 0%Z * y 2%Z - M * C * y 1%Z * y 2%Z + C * y 3%Z
  else B * y 0%Z * y 2%Z - C * y 3%Z.
(* the amounts of the five species (0: K, 1: Na, 2: Ca, 3: Cl, 4: glutamate) in neurons, astrocytes and the extracellular space;
   x 17, x 18: volume fractions of the neurons and of the astrocytes *)
Definition amount (i : Z) (x : Z -> R) : R := x 17%Z * x i + x 18%Z * x (i + 5)%Z + (1 - x 17%Z - x 18%Z) * x (i + 10)%Z.
(* the charge of the ions in the neurons (o = 0) or the astrocytes (o = 5); w: their volume fraction *)
Definition charge (o w : Z) (x : Z -> R) : R := x w * (x o + x (o + 1)%Z + 2 * x (o + 2)%Z - x (o + 3)%Z - x (o + 4)%Z).
(* a sphere of volume v: its radius (with 0.6203504908 for the cube root of 3/(4 pi)) and the capacity of its surface, 0.01 per unit *)
Definition radius (v : R) : R := 6203504908 / 10 ^ 10 * Rpower v (1 / 3).
Definition cap (v : R) : R := 4 * (3141592654 / 10 ^ 9) * radius v * radius v * (1 / 100).
(* astrocytes per neuron, and neurons in a volume of 25000 of which cells of volume 10000 and 9000 fill 0.8 *)
Definition ratio (rat : bool) : R := if rat then 65 / 35 else 10.
Definition cells (rat : bool) : R := 8 / 10 * 25000 / (10000 + ratio rat * 9000).
(* the three volumes are not empty *)
Definition nonempty (x : Z -> R) : Prop := x 17%Z <> 0 /\ x 18%Z <> 0 /\ 1 - x 18%Z - x 17%Z <> 0.
