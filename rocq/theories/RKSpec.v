(* Explicit Runge-Kutta methods for y' = f(y) and their order conditions (E. Hairer,
   S. P. Norsett, G. Wanner, Solving ODEs I, section II.2). *)
From Coq Require Import ZArith Reals.
From Verif Require Import Spec.
Open Scope R_scope.

(* s stages; row i of a uses the stages before i *)
Record erk := mkERK { rk_s : Z; rk_a : Z -> Z -> R }.
Definition rk_stages (M : erk) (f : (Z -> R) -> Z -> R) (h : R) (y : Z -> R) (g : Z -> Z -> R) : Prop :=
  forall i, (1 <= i <= rk_s M)%Z -> g i = (fun p => y p + h * rsum 1 (i - 1) (fun j => rk_a M i j * f (g j) p)).
(* the result with the weights b *)
Definition rk_result (M : erk) (b : Z -> R) (f : (Z -> R) -> Z -> R) (h : R) (y : Z -> R) (g : Z -> Z -> R) : Z -> R :=
  fun p => y p + h * rsum 1 (rk_s M) (fun j => b j * f (g j) p).
Definition rk_step (M : erk) (b : Z -> R) (f : (Z -> R) -> Z -> R) (h : R) (y y' : Z -> R) : Prop :=
  exists g, rk_stages M f h y g /\ y' = rk_result M b f h y g.

Definition rk_A (M : erk) (u : Z -> R) (i : Z) : R := rsum 1 (i - 1) (fun j => rk_a M i j * u j).
Definition rk_c (M : erk) : Z -> R := rk_A M (fun _ => 1).
Definition rk_b (M : erk) (b u : Z -> R) : R := rsum 1 (rk_s M) (fun j => b j * u j).
(* the conditions up to order 3 and 4, each within tol *)
Definition rk_order3 (M : erk) (b : Z -> R) (tol : R) : Prop :=
  Rabs (rk_b M b (fun _ => 1) - 1) <= tol /\ Rabs (rk_b M b (rk_c M) - 1 / 2) <= tol /\
  Rabs (rk_b M b (fun i => rk_c M i ^ 2) - 1 / 3) <= tol /\ Rabs (rk_b M b (rk_A M (rk_c M)) - 1 / 6) <= tol.
Definition rk_order4 (M : erk) (b : Z -> R) (tol : R) : Prop :=
  rk_order3 M b tol /\
  Rabs (rk_b M b (fun i => rk_c M i ^ 3) - 1 / 4) <= tol /\
  Rabs (rk_b M b (fun i => rk_c M i * rk_A M (rk_c M) i) - 1 / 8) <= tol /\
  Rabs (rk_b M b (rk_A M (fun i => rk_c M i ^ 2)) - 1 / 12) <= tol /\
  Rabs (rk_b M b (rk_A M (rk_A M (rk_c M))) - 1 / 24) <= tol.
(* steps of size h with s-stage methods of order 4, one after the other; l lists the (s, h) *)
Inductive rk4_chain (tol : R) (f : (Z -> R) -> Z -> R) (y0 : Z -> R) : list (Z * R) -> (Z -> R) -> Prop :=
| rk4_start : rk4_chain tol f y0 nil y0
| rk4_next l y s h y' M b : rk4_chain tol f y0 l y -> rk_s M = s -> rk_order4 M b tol -> rk_step M b f h y y' ->
    rk4_chain tol f y0 (l ++ cons (s, h) nil) y'.
