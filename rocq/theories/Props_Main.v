(* Property C99: the driver programs integrate over the time asked for, and repeat the same computation. *)
From Coq Require Import ZArith Reals Lra Lia List.
From Verif Require Import Base HessModel SympModel RadauModel MainModel MainProofs.
Import ListNotations.
Open Scope R_scope.

(* SymplecticRK/test/main.cc, any step: with step h = 1/2 the loop stops after a quarter of the years asked for *)
Theorem C99_symplectic_time_refuted : exists (h years : R), 0 < h /\ 0 < years /\
  forall Obj (step : Rnum -> bool -> Obj -> vec Rnum -> out (bool * Obj * vec Rnum)),
  (forall first o u, exists o' u', step h first o u = Ok (true, o', u')) -> forall o u, exists fuel N o' u' rows,
  @sy_main Rnum Obj step fuel h years o u = Ok (N, o', u', rows) /\ IZR N * h <= years * 365.25 / 4 + 1.
Proof. exact sym_short. Qed.
Print Assumptions C99_symplectic_time_refuted.
(* missing: the time of N steps is years * 365.25 * h^2 instead of years * 365.25 (days): right only for h = 1 *)
Theorem C99_symplectic_time_partial Obj (step : Rnum -> bool -> Obj -> vec Rnum -> out (bool * Obj * vec Rnum)) fuel (h years : R) o u N o' u' rows :
  0 < h -> 0 < years -> @sy_main Rnum Obj step fuel h years o u = Ok (N, o', u', rows) ->
  Z.of_nat (Datatypes.length rows) = N /\ years * 365.25 * h * h <= IZR N * h < years * 365.25 * h * h + h.
Proof. exact (sym_time Obj step fuel h years o u N o' u' rows). Qed.
Print Assumptions C99_symplectic_time_partial.
(* ... and it does end *)
Theorem C99_symplectic_ends Obj (step : Rnum -> bool -> Obj -> vec Rnum -> out (bool * Obj * vec Rnum)) (h years : R) fuel o u :
  (forall first o u, exists o' u', step h first o u = Ok (true, o', u')) -> years * 365.25 * h <= 2147483647 -> years * 365.25 * h <= INR fuel ->
  exists r, @sy_main Rnum Obj step fuel h years o u = Ok r.
Proof. exact (sym_ends Obj step h years fuel o u). Qed.
Print Assumptions C99_symplectic_ends.
(* the midpoint rule on y' = 1 for 0.01 year *)
Example C99_case : match c_obj (fun _ => @nlit QNum 3 (-1)) with
  | Ok o => match sy_main _ (c_step (fun _ => @nlit QNum 3 (-1)) 10) 5 (@nlit QNum 1 0) (@nlit QNum 1 (-2)) o (fun _ => @nlit QNum 0 0) with
            | Ok (N, _, u, rows) => N = 4%Z /\ u 0%Z = @nlit QNum 4 0 /\ Datatypes.length rows = 4%nat | _ => False end
  | _ => False end.
Proof. vm_compute. auto. Qed.

(* firstep stays true (SymplecticRK.hpp:53-149 does not write it): the table of extrapolation has no effect on what the program writes *)
Theorem C99_extrapolation_unused {K : num} n s long nar f (ta tb tq tq' : Z -> K) itermax fuel h years (o o' : @obj K) u v Y Y1 delta e a it :
  construct n ta tb tq v Y Y1 delta e a it = Ok o -> construct n ta tb tq' v Y Y1 delta e a it = Ok o' ->
  written (sy_main obj (SympModel.step n s long nar f ta tb tq itermax) fuel h years o u) =
  written (sy_main obj (SympModel.step n s long nar f ta tb tq' itermax) fuel h years o' u).
Proof. exact (unused n s long nar f ta tb tq tq' itermax fuel h years o o' u v Y Y1 delta e a it). Qed.
Print Assumptions C99_extrapolation_unused.
(* with firstep = false after the first step, the table decides whether two iterations suffice *)
Example C99_extrapolation_case : c_second (fun _ => @nlit QNum 3 (-1)) = Ok false /\ c_second (fun _ => @nlit QNum 5 (-1)) = Ok true.
Proof. vm_compute. auto. Qed.

(* Rodas-NG/test/main.cc and Radau5-NG/test/main.cc: a repetition starts with the h that the previous one has left ... *)
Theorem C99_repeat_partial {K : num} Obj (call : Obj -> K -> K -> K -> vec K -> out (Obj * K * K * vec K)) init xend st st' :
  rep Obj call init xend st = Ok st' ->
  exists o h t y, call (p_obj Obj st) (p_h Obj st) (nlit 0 0) xend init = Ok (o, h, t, y) /\ p_h Obj st' = h /\ p_t Obj st' = Some t.
Proof. exact (rep_chain Obj call init xend st st'). Qed.
Print Assumptions C99_repeat_partial.
(* ... for Radau5 and a problem solved in one step, whatever was in memory *)
Theorem C99_repeat_refuted (g : R) (o : dopts Rnum) : d_onestep o = false -> (0 <= d_nmax o)%Z ->
  exists st, @rep_main Rnum Datatypes.unit (radau_call g o) (fun _ => 0) 1 1 1 tt = Ok st /\ p_h Datatypes.unit st = g /\ p_steps Datatypes.unit st = [1].
Proof. exact (rep_garbage g o). Qed.
Print Assumptions C99_repeat_refuted.
Example C99_repeat_case : let o_case := mkDopts (K := Rnum) (9/10) 7 (1/1000) 10000 true false 1 (12/10) (1/8) 5 in exists st, @rep_main Rnum Datatypes.unit (radau_call 7 o_case) (fun _ => 0) 1 1 1 tt = Ok st /\ p_h Datatypes.unit st = 7.
Proof. intros o_case. destruct (C99_repeat_refuted 7 o_case) as (st & E & H & _); [reflexivity|cbn [d_nmax o_case]; lia|exists st; split; [exact E|exact H]]. Qed.

(* Rodas-NG/test/main.cc, no repetition: t is printed without having been initialised *)
Theorem C99_report_refuted {K : num} Obj (call : Obj -> K -> K -> K -> vec K -> out (Obj * K * K * vec K)) init nloops h xend o : (nloops <= 0)%Z ->
  exists st, rep_main Obj call init nloops h xend o = Ok st /\ rodas_report Obj st = UB "t".
Proof. exact (rep_none Obj call init nloops h xend o). Qed.
Print Assumptions C99_report_refuted.
