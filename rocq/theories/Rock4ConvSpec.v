(* Specification for C97: the solution of u' = A u started from a sum of eigenvectors, and results close to it. *)
From Coq Require Import Reals.
From Verif Require Import Base HessModel Rock4TabSpec.
Open Scope R_scope.

(* the sum of the eigenvectors of l, each multiplied by exp(lambda t) *)
Definition flow_of (l : list (R * vec Rnum)) (t : R) : vec Rnum := comb l (fun lam => exp (lam * t)).
(* u' = A u *)
Definition solves (A : vec Rnum -> vec Rnum) (u : R -> vec Rnum) : Prop :=
  forall t i, derivable_pt_lim (fun s => u s i) t (A (u t) i).
(* v is the sum of the eigenvectors of l, each multiplied by exp(lambda t) up to the error e lambda *)
Definition close_to (l : list (R * vec Rnum)) (t : R) (e : R -> R) (v : vec Rnum) : Prop :=
  exists c : R -> R, v = comb l c /\ forall p, In p l -> Rabs (c (fst p) - exp (fst p * t)) <= e (fst p).
(* fourth order in the longest step H, after the time t; 10^-13 is what the rounded digits of the tables cost *)
Definition order4 (t H lam : R) : R := t * Rabs lam * (1 / 10 ^ 13 + 2 * (H * Rabs lam) ^ 4).
