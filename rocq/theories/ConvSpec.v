(* Specification for C95 and C96: the solution of the differential equation, the size of its component along an
   eigenvector. *)
From Coq Require Import Reals.
From Verif Require Import Base HessModel Spec SdirkSpec SdirkTabSpec.
Open Scope R_scope.

(* u is the solution of u' = A u + phi *)
Definition solution (n : Z) (A : vec Rnum -> vec Rnum) (phi : Z -> R) (u : R -> vec Rnum) : Prop :=
  forall t p, (0 <= p < n)%Z -> derivable_pt_lim (fun s => u s p) t (A (u t) p + phi p).
(* the modulus of the component of x along the left eigenvector lr + i li *)
Definition modulus (n : Z) (lr li x : Z -> R) : R := sqrt (component0 n lr li x).
