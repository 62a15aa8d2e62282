(* Specification used by the Rock4 properties: the selection of a tabulated degree and the
   ROCK4 step as given by Abdulle (three-term recurrence and four-stage finishing method).
   Nothing here refers to the buffers, the pointers or the control flow of Rock4.hpp. *)
From Coq Require Import Reals.
From Verif Require Import Base HessModel Spec Rock4Model.
Open Scope Z_scope.

(* d is the smallest tabulated degree not below m *)
Definition smallest_degree (m d : Z) : Prop :=
  In d MS /\ m <= d /\ forall d', In d' MS -> m <= d' -> d <= d'.
(* the block of the i-th tabulated degree begins (counting from 1) after the blocks of the
   previous degrees; degree d occupies 2d-1 numbers *)
Definition block_start (i : Z) : Z := 1 + fold_right Z.add 0 (map (fun d => 2 * d - 1) (firstn (Z.to_nat (i - 1)) MS)).
Definition right_block (d i r : Z) : Prop :=
  1 <= i <= 50 /\ nth (Z.to_nat (i - 1)) MS 0 = d /\ r = block_start i.

Section Step.
Open Scope R_scope.
Variable f : vec Rnum -> vec Rnum.
(* the coefficients: first stage, then mu j, kappa j for the stage j >= 2; finishing method *)
Variables (mu1 : R) (mu kappa : Z -> R).
Variables (a21 a31 a32 a41 a42 a43 b1 b2 b3 b4 e1 e2 e3 e4 e5 : R).
Variables (h : R) (y : vec Rnum).
(* the stages n and n-1 *)
Fixpoint stages (n : nat) : vec Rnum * vec Rnum :=
  match n with
  | O => (y, y)
  | S O => ((fun i => y i + h * mu1 * f y i), y)
  | S m => let '(g, gp) := stages m in
           let j := Z.of_nat n in
           ((fun i => h * mu j * f g i + (1 + kappa j) * g i - kappa j * gp i), g)
  end.
Definition stage (n : nat) : vec Rnum := fst (stages n).
Definition fin_k1 (g : vec Rnum) := f g.
Definition fin_k2 (g : vec Rnum) := f (fun i => g i + h * (a21 * fin_k1 g i)).
Definition fin_k3 (g : vec Rnum) := f (fun i => g i + h * (a31 * fin_k1 g i + a32 * fin_k2 g i)).
Definition fin_k4 (g : vec Rnum) := f (fun i => g i + h * (a41 * fin_k1 g i + a42 * fin_k2 g i + a43 * fin_k3 g i)).
Definition fin_y (g : vec Rnum) : vec Rnum :=
  fun i => g i + h * (b1 * fin_k1 g i + b2 * fin_k2 g i + b3 * fin_k3 g i + b4 * fin_k4 g i).
(* the embedded method uses the derivative at the new point as fifth stage *)
Definition fin_yhat (g : vec Rnum) : vec Rnum :=
  fun i => g i + h * (e1 * fin_k1 g i + e2 * fin_k2 g i + e3 * fin_k3 g i + e4 * fin_k4 g i + e5 * f (fin_y g) i).
Definition fin_err (size : Z) (atol rtol : R) (g : vec Rnum) : R :=
  sqrt (/ IZR size * rsum 0 (size - 1) (fun i => ((fin_yhat g i - fin_y g i) / (atol + rtol * Rabs (fin_y g i))) ^ 2)).
End Step.

(* the states reached by the driver *)
Section Reach.
Context {K : num}.
Context {W : Type}.
Variable toint : K -> out Z.
Variable kern : Z -> Z -> Z -> W -> K -> out (W * K).
Variable init accept : W -> W.
Variable rho : W -> W * K.
Variable tend : K.
Inductive reach (st0 : dst W) : dst W -> Prop :=
| reach0 : reach st0 st0
| reachS st st' : reach st0 st -> nltb (u_t st) tend = true ->
    d_body toint kern accept rho tend st = Ok st' -> reach st0 st'.
End Reach.
