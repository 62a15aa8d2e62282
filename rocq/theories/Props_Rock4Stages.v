(* Property C100 (the number of stages reported by Rock4).  [nb_stages st]: what NbStages()
   returns; [u_hist st]: the attempted steps, the last one first; [most]: the largest number of
   stages of a step, both methods counted (degree + 4); [total]: their sum. *)
From Coq Require Import Reals ZArith List.
From Verif Require Import Base HessModel CMacros ExtReal Rock4Model Rock4Spec Rock4Proofs Rock4Drive Rock4Witness Rock4Stages.
Import ListNotations.
Open Scope Z_scope.

(* degree + 4 is the number of stages of an attempted step: the evaluations are 1 plus their sum *)
Theorem C100_stages_of_a_step : forall (K : num) Sg userF userrho toint RECF FPA FPB FPBE size (atol rtol tend : K) (e0 : est Sg) t0 h0 hl0 m1 m2 st,
  reach toint (kernel userF RECF FPA FPB FPBE size atol rtol) k_accept (r4_rho userrho) tend (r4_start (k_init userF) e0 t0 h0 hl0 m1 m2) st ->
  e_funccal (u_w st) = 1 + total (u_hist st).
Proof. exact @stages_evaluations. Qed.
Print Assumptions C100_stages_of_a_step.
(* after any run with at least one step, the number returned misses the four stages of the second method *)
Theorem C100_stages_missed : forall (K : num) (W : Type) toint kern (init accept : W -> W) (rho : W -> W * K) tend w0 t0 h0 hl0 m1 m2 st,
  reach toint kern accept rho tend (r4_start init w0 t0 h0 hl0 m1 m2) st -> u_hist st <> nil -> nb_stages st + 4 <= most (u_hist st).
Proof. exact @too_few. Qed.
Print Assumptions C100_stages_missed.
Theorem C100_stages_refuted : exists T st,
  reach (K := ExtR) toint_R kern0 id0 rho0 (Fin T) (r4_start id0 0 (Fin 0%R) (Fin 1%R) (Fin 0%R) 0 0) st /\
  Datatypes.length (u_hist st) = 2%nat /\ nb_stages st <> most (u_hist st).
Proof. exact missed_case. Qed.
Print Assumptions C100_stages_refuted.
(* it is the degree of the last attempted step; the member which holds the number announced,
   nstagesmax, is returned by no function *)
Theorem C100_stages_partial : forall (K : num) (W : Type) toint kern (init accept : W -> W) (rho : W -> W * K) tend w0 t0 h0 hl0 m1 m2 st,
  reach toint kern accept rho tend (r4_start init w0 t0 h0 hl0 m1 m2) st ->
  u_stages st = most (u_hist st) /\ forall a l, u_hist st = a :: l -> nb_stages st = t_deg a.
Proof. exact @stages_reported. Qed.
Print Assumptions C100_stages_partial.
