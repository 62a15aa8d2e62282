(* Specification for C98: the solution of y' = J y + g. *)
From Coq Require Import Reals.
From Verif Require Import Base Spec RodasSpec.
Open Scope R_scope.

Definition affine_flow (n : Z) (J : Z -> Z -> R) (g : Z -> R) (u : R -> Z -> R) : Prop :=
  forall t k, (1 <= k <= n)%Z -> derivable_pt_lim (fun s => u s k) t (rsum 1 n (fun l => J k l * u t l) + g k).
