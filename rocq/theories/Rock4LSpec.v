(* Specification used by the Rock4-L properties. *)
From Coq Require Import Reals.
From Verif Require Import Base HessModel VecFun Rock4Model Rock4Spec.
Open Scope R_scope.

Definition linear (A : vec Rnum -> vec Rnum) : Prop :=
  forall a b x y, A (fun i => a * x i + b * y i) = (fun i => a * A x i + b * A y i).
(* du/dt = Au + b *)
Definition affine_rhs (A : vec Rnum -> vec Rnum) (b : vec Rnum) : vec Rnum -> vec Rnum := fun x i => A x i + b i.

(* the contracts of the user's operators as documented, Rock4L.hpp:31-43 *)
Section Contracts.
Variable Sg : Type.
Variable A : vec Rnum -> vec Rnum.
Definition doc_L (op : Sg -> vec Rnum -> vec Rnum -> R -> R -> Sg * vec Rnum) : Prop :=
  forall s x u a b, snd (op s x u a b) = (fun i => a * A x i + b * u i).
Definition doc_Lc (op : Sg -> vec Rnum -> vec Rnum -> R -> R -> R -> Sg * vec Rnum) : Prop :=
  forall s x u a b c, snd (op s x u a b c) = (fun i => a * A x i + b * x i + c * u i).
Definition doc_A (op : Sg -> vec Rnum -> vec Rnum -> R -> R -> vec Rnum -> Sg * vec Rnum) : Prop :=
  forall s x u a b g, snd (op s x u a b g) = (fun i => a * A x i + b * u i + g i).
Definition doc_Ac (op : Sg -> vec Rnum -> vec Rnum -> R -> R -> R -> vec Rnum -> Sg * vec Rnum) : Prop :=
  forall s x u a b c g, snd (op s x u a b c g) = (fun i => a * A x i + b * x i + c * u i + g i).
(* the affine operators as written in Rock4-L/test/F.hpp:54-69 and 92-108: g is multiplied by a *)
Definition imp_A (op : Sg -> vec Rnum -> vec Rnum -> R -> R -> vec Rnum -> Sg * vec Rnum) : Prop :=
  forall s x u a b g, snd (op s x u a b g) = (fun i => a * (A x i + g i) + b * u i).
Definition imp_Ac (op : Sg -> vec Rnum -> vec Rnum -> R -> R -> R -> vec Rnum -> Sg * vec Rnum) : Prop :=
  forall s x u a b c g, snd (op s x u a b c g) = (fun i => a * (A x i + g i) + b * x i + c * u i).
End Contracts.

(* the ROCK4 step of degree d with the coefficients of the i-th rows of the tables and of the
   block of RECF beginning at r *)
Section Step.
Variables RECF FPA FPB : Z -> R.
Definition row (T : Z -> R) (w i j : Z) : R := T (w * (i - 1) + (j - 1))%Z.
Definition rock4_step (f : vec Rnum -> vec Rnum) (d i r : Z) (h : R) (y : vec Rnum) : vec Rnum :=
  let a := row FPA 6 i in let b := row FPB 4 i in
  fin_y f (a 1%Z) (a 2%Z) (a 3%Z) (a 4%Z) (a 5%Z) (a 6%Z) (b 1%Z) (b 2%Z) (b 3%Z) (b 4%Z) h
    (stage f (RECF (r - 1)%Z) (fun j => RECF (r - 1 + 2 * j - 3)%Z) (fun j => RECF (r - 1 + 2 * j - 2)%Z) h y (Z.to_nat d)).
End Step.

(* a sequence of steps (t, h, degree), in order, leading from t to t' *)
Fixpoint leads (t : R) (l : list (R * R * Z)) (t' : R) : Prop :=
  match l with
  | nil => t = t'
  | cons (s, h, d) l => s = t /\ leads (t + h) l t'
  end.
(* the state after these steps *)
Inductive follows {W : Type} (step : R -> Z -> W -> W -> Prop) : list (R * R * Z) -> W -> W -> Prop :=
| follows_nil w : follows step nil w w
| follows_snoc l t h d w w' w'' : follows step l w w' -> step h d w' w'' -> follows step (l ++ cons (t, h, d) nil) w w''.
(* the degree d is enough for the step h when the spectral radius is rho *)
Definition stable_degree (rho h : R) (d : Z) : Prop := h * rho <= 353 / 1000 * (IZR (d + 4)) ^ 2 - 3.
(* one ROCK4 step, and the number of operator applications in a sequence of steps *)
Definition rock4_steps (RECF FPA FPB : Z -> R) (f : vec Rnum -> vec Rnum) : list (R * R * Z) -> vec Rnum -> vec Rnum -> Prop :=
  follows (fun h d u u' => exists i r, right_block d i r /\ u' = rock4_step RECF FPA FPB f d i r h u).
Definition applications (l : list (R * R * Z)) : Z := fold_right (fun x n => snd x + 4 + n)%Z 0%Z l.
(* conversion of a double to int: truncation, for the numbers which occur *)
Definition truncates (toint : R -> out Z) : Prop := forall r, 0 <= r < 200 -> exists z, toint r = Ok z /\ IZR z <= r < IZR z + 1.
(* what a run from t0 to tend with requested step h0 does; [fine]: each step is positive, at
   most 1.01 h0, does not pass tend, has a tabulated degree, large enough for stability and not
   larger than any tabulated degree which is more than enough; all steps but the last one are h0; the list is in reverse order *)
Definition fine_step (rho h0 tend : R) (x : R * R * Z) : Prop :=
  let '(t, h, d) := x in 0 < h <= 101 / 100 * h0 /\ t + h <= tend /\ List.In d MS /\ stable_degree rho h d /\
  forall d', List.In d' MS -> h * rho < 353 / 1000 * (IZR (d' + 4)) ^ 2 - 3 -> (d <= d')%Z.
Definition good_run (rho t0 h0 tend : R) (l : list (R * R * Z)) : Prop :=
  leads t0 (List.rev l) tend /\ List.Forall (fine_step rho h0 tend) l /\ (exists x l', l = cons x l' /\ List.Forall (fun y => snd (fst y) = h0) l') /\
  INR (List.length l) < (tend - t0) / h0 + 1.
