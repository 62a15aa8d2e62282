(* Property C71 (order of the ROCK4 methods with the tables of the repository); RKSpec.v has the
   definition of a Runge-Kutta step and the conditions. *)
From Coq Require Import ZArith Reals Lra Lia List.
From Verif Require Import Base HessModel VecFun Spec HessPathProofs RKSpec Rock4Model Rock4Spec Rock4Proofs Rock4Drive Rock4Step Rock4LModel Rock4LSpec Rock4TabSpec Rock4TabNG Rock4TabL Rock4Witness Rock4OrderK.
Import ListNotations.
Open Scope R_scope.

(* for all 50 degrees: what the kernel computes in an attempted step is the step of an explicit
   Runge-Kutta method of order 4, and the error is the weighted difference to a result of order 3 *)
Theorem C71_step : forall RECF FPA FPB FPBE d i r, as_stored RECF ng_RECF -> as_stored FPA ng_FPA -> as_stored FPB ng_FPB -> as_stored FPBE ng_FPBE -> right_block d i r ->
  exists M b bh, rk_s M = (d + 5)%Z /\ b (d + 5)%Z = 0 /\ rk_order4 M b (2 / 10 ^ 14) /\ rk_order3 M bh (2 / 10 ^ 14) /\
  forall Sg userF size atol rtol (f : vec Rnum -> vec Rnum) (e : est (K := Rnum) Sg) h,
  (forall s v, snd (userF s v) = f v) -> (0 <= size)%Z -> NoDup (ptrs Sg e) -> e_H e (e_fn e) = f (e_H e (e_y e)) ->
  wp (kernel (K := Rnum) userF RECF FPA FPB FPBE size atol rtol d i r e h) (fun x => let '(e', err) := x in
    exists g, let y := e_H e (e_y e) in let y' := rk_result M b f h y g in let yh := rk_result M bh f h y g in
    rk_stages M f h y g /\ e_H e' (e_temp e') = y' /\ e_H e' (e_y e') = y /\
    err = sqrt (/ IZR size * rsum 0 (size - 1) (fun p => ((yh p - y' p) / (atol + rtol * Rabs (y' p))) ^ 2))).
Proof. exact ng_is_rk. Qed.
Print Assumptions C71_step.
(* along the runs: the solution results from the initial value by one such step for each accepted
   attempt *)
Theorem C71_run : forall (RECF FPA FPB FPBE : Z -> R) Sg userF userrho toint size (atol rtol tend : R) (e0 : est (K := Rnum) Sg) t0 h0 hl0 m1 m2 (f : vec Rnum -> vec Rnum),
  as_stored RECF ng_RECF -> as_stored FPA ng_FPA -> as_stored FPB ng_FPB -> as_stored FPBE ng_FPBE ->
  (forall s v, snd (userF s v) = f v) -> NoDup (ptrs Sg e0) -> (0 <= size)%Z ->
  forall st, reach (K := Rnum) toint (kernel userF RECF FPA FPB FPBE size atol rtol) k_accept (r4_rho userrho) tend (r4_start (k_init userF) e0 t0 h0 hl0 m1 m2) st ->
  rk4_chain (2 / 10 ^ 14) f (e_H e0 (e_y e0)) (map (fun a => (t_deg a + 5, t_h a)%Z) (filter (fun a => t_acc a) (rev (u_hist st)))) (sol Sg st).
Proof. exact ng_chain. Qed.
Print Assumptions C71_run.
(* Rock4-L: the steps, and the sequences of steps which its runs are by C39 *)
Theorem C71_L_step : forall RECF FPA FPB d i r, as_stored RECF l_RECF -> as_stored FPA l_FPA -> as_stored FPB l_FPB -> right_block d i r ->
  exists M b, rk_s M = (d + 5)%Z /\ b (d + 5)%Z = 0 /\ rk_order4 M b (2 / 10 ^ 14) /\
  forall f h y, rk_step M b f h y (rock4_step RECF FPA FPB f d i r h y).
Proof. exact l_is_rk. Qed.
Print Assumptions C71_L_step.
Theorem C71_L_run : forall (RECF FPA FPB : Z -> R) f l u u', as_stored RECF l_RECF -> as_stored FPA l_FPA -> as_stored FPB l_FPB ->
  rock4_steps RECF FPA FPB f l u u' -> rk4_chain (2 / 10 ^ 14) f u (map (fun x => (snd x + 5, snd (fst x)))%Z l) u'.
Proof. exact l_chain. Qed.
Print Assumptions C71_L_run.

(* the conditions hold exactly for the classical method and fail for Euler's *)
Definition rk4_a (i j : Z) : R := if (i =? j + 1)%Z then (if (i =? 4)%Z then 1 else 1 / 2) else 0.
Definition rk4_b (j : Z) : R := if ((j =? 1) || (j =? 4))%Z%bool then 1 / 6 else 1 / 3.
Example C71_case_spec : rk_order4 (mkERK 4 rk4_a) rk4_b 0 /\ ~ rk_order3 (mkERK 1 (fun _ _ => 0)) (fun _ => 1) (2 / 10 ^ 14).
Proof.
  assert (S0 : forall u, rsum 1 0 u = 0) by (intros u; apply rsum_empty; lia).
  assert (S1 : forall u, rsum 1 1 u = u 1%Z) by (intros u; rewrite (rsum_hi 1 1) by lia; cbn [Z.sub Z.add Z.opp Z.pos_sub Pos.pred_double]; rewrite S0; ring).
  assert (S2 : forall u, rsum 1 2 u = u 1%Z + u 2%Z) by (intros u; rewrite (rsum_hi 1 2) by lia; change (2 - 1)%Z with 1%Z; rewrite S1; ring).
  assert (S3 : forall u, rsum 1 3 u = u 1%Z + u 2%Z + u 3%Z) by (intros u; rewrite (rsum_hi 1 3) by lia; change (3 - 1)%Z with 2%Z; rewrite S2; ring).
  assert (S4 : forall u, rsum 1 4 u = u 1%Z + u 2%Z + u 3%Z + u 4%Z) by (intros u; rewrite (rsum_hi 1 4) by lia; change (4 - 1)%Z with 3%Z; rewrite S3; ring).
  split.
  - unfold rk_order4, rk_order3, rk_b. cbn [rk_s]. rewrite !S4. unfold rk_c, rk_A. cbn [rk_a].
    change (1 - 1)%Z with 0%Z. change (2 - 1)%Z with 1%Z. change (3 - 1)%Z with 2%Z. change (4 - 1)%Z with 3%Z. rewrite ?S0, ?S1, ?S2, ?S3.
    change (1 - 1)%Z with 0%Z. change (2 - 1)%Z with 1%Z. change (3 - 1)%Z with 2%Z. rewrite ?S0, ?S1, ?S2.
    change (1 - 1)%Z with 0%Z. change (2 - 1)%Z with 1%Z. rewrite ?S0, ?S1. change (1 - 1)%Z with 0%Z. rewrite ?S0. unfold rk4_a, rk4_b. cbn [Z.eqb Pos.eqb Z.add Pos.add Pos.succ orb].
    repeat split; match goal with |- Rabs ?x <= 0 => replace x with 0 by field end; rewrite Rabs_R0; lra.
  - intros (_ & H & _). unfold rk_b, rk_c, rk_A in H. cbn [rk_s rk_a] in H. rewrite S1 in H. change (1 - 1)%Z with 0%Z in H. rewrite S0 in H.
    unfold Rabs in H. destruct (Rcase_abs _) in H; lra.
Qed.
(* tables as required exist, and so do blocks and states *)
Example C71_case : forall l, as_stored (fun k => dec (nth (Z.to_nat k) l (0, 0)%Z)) l.
Proof.
  intros l k Hk. unfold Rminus. rewrite Rplus_opp_r, Rabs_R0. apply Rmult_le_pos; [apply Rabs_pos|].
  left. apply Rinv_0_lt_compat. apply pow_lt. lra.
Qed.
Example C71_case_state : NoDup (ptrs unit zero_e) /\ right_block 5 5 17 /\ right_block 148 50 4088.
Proof. split; [unfold ptrs, zero_e; cbn; repeat constructor; cbn; intuition discriminate|]. split; repeat split; discriminate || reflexivity. Qed.
