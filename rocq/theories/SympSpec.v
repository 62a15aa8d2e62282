(* Specification used by the properties of the symplectic integrator. *)
From Coq Require Import Reals.
From Verif Require Import Base FieldLU HessModel Spec.
Open Scope R_scope.

Section Gauss.
Variables (n s : Z) (a : Z -> Z -> R) (b : Z -> R) (h : R) (f : vec Rnum -> vec Rnum) (u : vec Rnum).
(* the right-hand sides of the stage equations Y_i = u + h sum_j a_ij f(Y_j) *)
Definition stage_eq (Y : Z -> vec Rnum) (i : Z) : vec Rnum := fun l => u l + h * rsum 0 (s - 1) (fun j => a i j * f (Y j) l).
(* how far the stages are from a solution: the sum of the squares of the differences *)
Definition residual (Y : Z -> vec Rnum) : R :=
  rsum 0 (s - 1) (fun i => rsum 0 (n - 1) (fun l => (stage_eq Y i l - Y i l) * (stage_eq Y i l - Y i l))).
Definition advanced (Y : Z -> vec Rnum) : vec Rnum := fun l => u l + h * rsum 0 (s - 1) (fun i => b i * f (Y i) l).
End Gauss.

(* the bilinear form with matrix C *)
Definition bil (n : Z) (C : Z -> Z -> R) (x y : vec Rnum) : R := rsum 0 (n - 1) (fun p => rsum 0 (n - 1) (fun q => C p q * x p * y q)).
(* the quadratic form x^T C x is constant along the solutions of y' = f y *)
Definition quad_invariant (n : Z) (C : Z -> Z -> R) (f : vec Rnum -> vec Rnum) : Prop :=
  (forall p q, (0 <= p < n)%Z -> (0 <= q < n)%Z -> C p q = C q p) /\ forall y, bil n C y (f y) = 0.
(* the coefficients in Cooper's theorem *)
Definition cooper (a : Z -> Z -> R) (b : Z -> R) (i j : Z) : R := b i * a i j + b j * a j i - b i * b j.

(* the simplifying conditions of Butcher: c_i, B(k), C(k) *)
Definition row_sum (s : Z) (a : Z -> Z -> R) (i : Z) : R := rsum 0 (s - 1) (fun j => a i j).
Definition defect_B (s : Z) (a : Z -> Z -> R) (b : Z -> R) (k : Z) : R := rsum 0 (s - 1) (fun i => b i * row_sum s a i ^ Z.to_nat (k - 1)) - / IZR k.
Definition defect_C (s : Z) (a : Z -> Z -> R) (i k : Z) : R :=
  rsum 0 (s - 1) (fun j => a i j * row_sum s a j ^ Z.to_nat (k - 1)) - row_sum s a i ^ Z.to_nat k / IZR k.
