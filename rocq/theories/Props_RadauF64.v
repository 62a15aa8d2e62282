(* C94: the driver of Radau5 in IEEE double precision (round to nearest, ties to even).
   F64 pow is the arithmetic; v is the real number that a finite double stands for, Bpred and
   Bsucc the neighbouring doubles. *)
From Coq Require Import ZArith Reals Lra Lia List.
From Flocq Require Import Core BinarySingleNaN.
From Verif Require Import Base HessModel CMacros VecFun JacModel RodasProofs RadauModel F64 RadauF64 RadauF64Run RadauF64Newton RadauF64Wit.
Open Scope R_scope.

(* Any right-hand side, Jacobian, linear algebra, constants and tolerances; pow(q,y) is between 0 and 1
   for q >= 1, y <= 0.  If the call returns, x is between x0 and the double after xend (not after
   xend if xend <= 2 x0), every Newton iteration was for a step inside that interval, and one of three
   things holds: x is not before the double before xend (and is xend if xend <= 2 x0); x is short of xend
   by 2e-15 x + 2^-1000 at most; some Newton iteration used up its nit passes (see C20). *)
Theorem C94_end : forall pow Sg La (userF : Sg -> f64 -> (Z -> f64) -> Sg * (Z -> f64)) (userJ : Sg -> f64 -> (Z -> f64) -> (Z -> f64) -> (Z -> f64) -> Sg * (Z -> f64))
    (decomr : La -> f64 -> (Z -> f64) -> out (La * (Z -> f64))) (decomc : La -> f64 -> f64 -> (Z -> f64) -> out La)
    (solvereal : La -> (Z -> f64) -> (Z -> f64) -> out (Z -> f64)) (solvecomplex : La -> (Z -> f64) -> (Z -> f64) -> (Z -> f64) -> out ((Z -> f64) * (Z -> f64)))
    (calhes : La -> La) n sh numjac (c : rdc (F64 pow)) (atol rtol : Z -> f64) (thet fnewt : f64) (o : dopts (F64 pow)) nfuel fuel ifuel w (h0 x0 xend : f64) (Y : Z -> f64) a b d g i st,
  (forall q y : f64, is_finite q = true -> is_finite y = true -> 1 <= v q -> v y <= 0 -> is_finite (pow q y) = true /\ 0 <= v (pow q y) <= 1) ->
  is_finite x0 = true -> is_finite xend = true -> 0 <= v x0 < v xend -> v xend <= bpow radix2 1020 ->
  is_finite (d_safe o) = true -> 0 < v (d_safe o) <= 1 -> (1 <= d_nit o <= 2 ^ 50)%Z -> d_quot1 o = f_lit 1 0 -> is_finite (d_quot2 o) = true -> d_onestep o = false ->
  radau (K := F64 pow) (k_jacob (K := F64 pow) userF userJ calhes n sh numjac) (k_mats (K := F64 pow) decomr decomc c) (k_evalF (K := F64 pow) userF) (k_doscal (K := F64 pow) atol rtol)
    (k_newton (K := F64 pow) userF solvereal solvecomplex n c (d_nit o) thet fnewt nfuel) (k_estrad (K := F64 pow) userF solvereal n c) (@k_adv (F64 pow) Sg La) (k_save (K := F64 pow) c)
    o fuel ifuel w h0 x0 xend Y a b d g i = Ok st ->
  (is_finite (q_x st) = true /\ v x0 <= v (q_x st) <= v (Bsucc xend) /\ (v xend <= 2 * v x0 -> v (q_x st) <= v xend)) /\
  (forall p, In p (q_hist st) -> is_finite (g_x p) = true /\ is_finite (g_h p) = true /\ v x0 <= v (g_x p) <= v xend /\ 0 <= v (g_h p) /\
     round radix2 (SpecFloat.fexp 53 1024) (round_mode mode_NE) (v (g_x p) + v (g_h p)) <= v (Bsucc xend)) /\
  ((v (Bpred xend) <= v (q_x st) /\ (v xend <= 2 * v x0 -> v (q_x st) = v xend)) \/
   0 <= v xend - v (q_x st) <= 2 / 1000000000000000 * v (q_x st) + bpow radix2 (-1000) \/
   exists p, In p (q_hist st) /\ g_reason p = didNotConverge).
Proof.
  intros pow Sg La userF userJ decomr decomc solvereal solvecomplex calhes n sh numjac c atol rtol thet fnewt o nfuel fuel ifuel w h0 x0 xend Y a b d g i st
    HP F1 F2 H1 H2 F3 H3 H4 H5 F4 H6 R.
  assert (HW := fun w z x h hold Y => knewton_ok pow HP Sg La userF solvereal solvecomplex n c o thet fnewt H4 nfuel w z x h hold Y).
  assert (He : 0 < v xend) by lra. destruct (StepF64.succ_fin xend F2 He H2) as [_ VS]. pose proof (StepF64.u_pos xend) as UP.
  assert (G : exists T : f64, v T <= v (Bsucc xend) /\ (v xend <= 2 * v x0 -> v T = v xend) /\ ((T = xend /\ v xend <= 2 * v x0) \/ (T = Bsucc xend /\ ~ v xend <= 2 * v x0))).
  { destruct (Rle_dec (v xend) (2 * v x0)) as [L|L]; [exists xend|exists (Bsucc xend)]; (split; [lra|]); (split; [|tauto]); tauto. }
  destruct G as (T & T1 & T2 & HT).
  match type of R with radau ?j ?m ?ef ?ds ?nw ?es ?ad ?sv _ _ _ _ _ _ _ _ _ _ _ _ _ = _ =>
    pose proof (radau_T pow _ j m ef ds nw es ad sv o x0 xend F1 F2 H1 H2 F3 H3 H4 H5 F4 H6 HW T HT fuel ifuel w h0 Y a b d g i) as P end.
  rewrite R in P. destruct P as ((P1 & P2) & P3 & P4). split; [|split].
  - split; [exact P1|]. split; [lra|]. intros L. rewrite <- (T2 L). apply P2.
  - intros p Hp. destruct (P3 p Hp) as ((A1 & A2) & A3 & A4 & A5). do 2 (split; [assumption|]). split; [lra|]. split; [exact A4|]. apply Rle_trans with (2 := T1). exact A5.
  - destruct P4 as [P4|[P4|P4]]; [left; exact P4|right; left; exact P4|right; right; exact P4].
Qed.
Print Assumptions C94_end.
(* the hypotheses are met: the options of the constructor, from 0.06 to 0.9, a constant pow; the run of
   C94_exact_end_refuted returns *)
Example C94_case : is_finite (f_lit 6 (-2)) = true /\ is_finite (f_lit 9 (-1)) = true /\ is_finite (d_safe (ctor_opts (K := F64 (fun _ _ => f_lit 1 0)))) = true /\
  d_quot1 (ctor_opts (K := F64 (fun _ _ => f_lit 1 0))) = f_lit 1 0 /\ is_finite (d_quot2 (ctor_opts (K := F64 (fun _ _ => f_lit 1 0)))) = true /\
  nltb (n := F64 (fun _ _ => f_lit 1 0)) (f_lit 6 (-2)) (f_lit 9 (-1)) = true /\
  (forall q y : f64, is_finite q = true -> is_finite y = true -> 1 <= v q -> v y <= 0 -> is_finite (f_lit 1 0) = true /\ 0 <= v (f_lit 1 0) <= 1).
Proof.
  do 3 (split; [vm_compute; reflexivity|]). split; [reflexivity|]. do 2 (split; [vm_compute; reflexivity|]).
  intros q y _ _ _ _. destruct StepF64.one_val as [A B]. split; [exact A|]. rewrite B. lra.
Qed.
(* "x is xend when a call returns (and every Newton iteration converged)" is false: y' = 0 from 0.06 to
   0.9, first step 1, with the three correct values of pow that the run uses *)
Theorem C94_exact_end_refuted : exists h0 x0 xend : f64, forall pow, pow_right pow ->
  exists st, zcall pow 1 1 h0 x0 xend = Ok st /\ neqb (n := F64 pow) (q_x st) xend = false.
Proof.
  exists (f_lit 1 0), (f_lit 6 (-2)), (f_lit 9 (-1)). exact beside_run.
Qed.
Print Assumptions C94_exact_end_refuted.
Example C94_case_pow : pow_right (pow_at (fun x _ => x)).
Proof. unfold pow_right. do 2 (split; [apply B2SF_inj; vm_compute; reflexivity|]). apply B2SF_inj; vm_compute; reflexivity. Qed.
