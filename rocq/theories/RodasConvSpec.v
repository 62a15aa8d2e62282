(* Specification for C96: the solution of y' = J y (entries numbered from 1, as in the Fortran codes), the size of its
   component along an eigenvector. *)
From Coq Require Import Reals.
From Verif Require Import Base Spec Spec RodasSpec.
Open Scope R_scope.

(* u is the solution of u' = J u *)
Definition flow (n : Z) (J : Z -> Z -> R) (u : R -> Z -> R) : Prop :=
  forall t k, (1 <= k <= n)%Z -> derivable_pt_lim (fun s => u s k) t (rsum 1 n (fun l => J k l * u t l)).
(* the modulus of the component of y along the left eigenvector lr + i li *)
Definition size (n : Z) (lr li y : Z -> R) : R := sqrt (dot n lr y ^ 2 + dot n li y ^ 2).
