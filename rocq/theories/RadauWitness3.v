(* The run that refutes C21: a step whose Newton iteration failed is accepted *)
From Coq Require Import Reals Lra Psatz.
From Verif Require Import Base HessModel CMacros VecFun JacModel RodasModel RodasProofs RodasReal RodasTop RodasWitness.
From Verif Require Import RadauModel RadauProofs RadauReal RadauTop RadauStep RadauWitness RadauWitness2.
Open Scope R_scope.

Section Run.
Context {K : num}.
Variable W : Type.
Variable jacob : W -> K -> vec K -> out W.
Variable mats : W -> K -> out W.
Variable evalF : W -> K -> vec K -> W.
Variable doscal : W -> vec K -> W.
Variable newton : W -> bool -> K -> K -> K -> vec K -> out (W * nres K).
Variable estrad : W -> K -> K -> vec K -> bool -> bool -> out (W * K).
Variable adv : W -> vec K -> vec K.
Variable save : W -> W.
Variable o : dopts K.
Variables xend posneg hmaxn : K.
Notation control := (@d_control K W jacob mats evalF doscal estrad adv save o xend posneg hmaxn).
Notation pass_ := (@d_newton K W jacob mats doscal newton).
Notation redo := (@d_redo K W jacob mats doscal newton).
(* the first step is accepted and the next one reaches the end point *)
Lemma control_last st x1 h2 w' err w'' : estrad (q_w st) (q_x st) (q_h st) (q_Y st) (q_first st) (q_reject st) = Ok (w', err) ->
  (err <? nlit 1 0)%num = true -> d_onestep o = false -> q_reject st = false -> q_last st = false -> q_naccpt st = 0%Z ->
  (nlit 1 (-1) * mABS_diff xend x1 <=? mABS x1 * rd_uround)%num = false ->
  (d_thet o <? q_theta st)%num = false -> (xend - x1)%num = h2 ->
  (nlit 0 0 <=? (x1 + (posneg * mMIN (mABS (q_h st / mMAX d_FACR (mMIN d_FACL (nsqrt (nsqrt err) /
      mMIN (d_safe o) (d_cfac o / nlit (q_newt st + 2 * d_nit o) 0))))) hmaxn) / d_quot1 o - xend) * posneg)%num = true ->
  mats (evalF (doscal (save w') (adv w' (q_Y st))) x1 (adv w' (q_Y st))) h2 = Ok w'' ->
  exists hacc erracc hopt, control st x1 = Ok (mkDst x1 h2 (adv w' (q_Y st)) w'' true false false false (q_redo st)
            1 (q_nrejct st) (q_njac st) (q_nstep st) (q_ndec st + 1) (q_newt st)
            (q_h st) hopt hacc erracc (q_theta st) (q_h st) (mark true (q_hist st)), false).
Proof.
  intros E1 E2 E3 E4 E5 E6 E7 E8 E9 E10 E11. unfold d_control. rewrite E1. cbn [bind]. cbv zeta. rewrite E2, E3, E4, E5, E6.
  cbn [orb Z.add Z.eqb]. rewrite E7. change (1 <? 1)%Z with false. rewrite Bool.andb_false_r. rewrite E10, E8. cbn [negb].
  unfold d_refresh. cbn [bind]. rewrite E9, E11. cbn [bind]. do 3 eexists. reflexivity.
Qed.
Lemma pass_dnc2 st w' h' nt th wj w'' h2 : q_caljac st = false ->
  newton (q_w st) (q_first st) (q_x st) (q_h st) (q_hold st) (q_Y st) = Ok (w', mkNres didNotConverge h' nt th) ->
  jacob w' (q_x st) (q_Y st) = Ok wj -> (h' * nlit 5 (-1))%num = h2 -> mats wj h2 = Ok w'' -> q_redo st = false ->
  redo 1 st = Ok (mkDst (q_x st) h2 (q_Y st) (doscal w'' (q_Y st)) (q_last st) (q_reject st) (q_first st) true false
            (q_naccpt st) (q_nrejct st) (q_njac st + 1) (q_nstep st + 1) (q_ndec st + 1) 0
            (q_hold st) (q_hopt st) (q_hacc st) (q_erracc st) th (q_firstacc st)
            (mkPass (q_x st) (q_h st) didNotConverge h2 None :: q_hist st)).
Proof.
  intros Hc E Ej Eh Em Er. rewrite redo_S. unfold d_newton. rewrite E. cbn [bind nr_reason nr_newt nr_theta nr_h]. rewrite Hc. unfold d_refresh.
  rewrite Ej. cbn [bind]. rewrite Eh, Em. cbn [bind q_redo]. rewrite Er. reflexivity.
Qed.
End Run.
Lemma save_calm (c : rdc Rnum) (w : @wrk Rnum unit (@rs_La Rnum)) : calm w -> zv (k_Z1 w) -> zv (k_Z2 w) -> zv (k_Z3 w) -> calm (k_save c w).
Proof.
  intros (HJ & H1 & H2 & H3 & Hsc & Hf) G1 G2 G3. unfold calm, zv, k_save. cbn [k_jac k_s1 k_s2 k_s3 k_scal k_faccon nsub nadd nmul Rnum].
  repeat split; auto; intros i; rewrite ?G1, ?G2, ?G3; eqR; ring.
Qed.
Lemma scal_calm0 (w : @wrk Rnum unit (@rs_La Rnum)) Y : calm w -> calm (rs_scal w Y).
Proof.
  intros (HJ & H1 & H2 & H3 & Hsc & Hf). unfold calm. cbn. repeat split; auto.
  intros i. unfold scal_of, n1, n0. cbn [nlit nadd nmul Rnum]. rewrite !Rlit_0. ring.
Qed.
(* the error estimate with increments of size at most B *)
Lemma small_est (c : rdc Rnum) (f : R -> R) w (x h v : R) Y : calm w -> facts c h w ->
  v = (DD1 c * (1 / h) * k_Z1 w 1%Z + DD2 c * (1 / h) * k_Z2 w 1%Z + DD3 c * (1 / h) * k_Z3 w 1%Z + k_y0 w 1%Z) / (U1 c / h) -> -1 < v < 1 ->
  exists w' (err : R), @k_estrad Rnum unit _ (rs_F f) rs_solver 1 c w x h Y false false = Ok (w', (err : Rnum)) /\ err < 1 /\ k_Z3 w' = k_Z3 w.
Proof.
  intros (HJ & H1 & H2 & H3 & Hsc & Hf) Hla Ev Hv. unfold k_estrad, rs_solver. cbn [bind orb]. rewrite Bool.andb_false_r.
  do 2 eexists. split; [reflexivity|]. split; [|reflexivity].
  unfold err_norm, for_. change (Z.to_nat (1 - 1 + 1)) with 1%nat. cbn [iter]. rewrite mMAX_R, Hsc. unfold facts in Hla. rewrite Hla. cbn [fst].
  unfold v_add, v_lc3, n0. cbn [nmul nadd ndiv nsqrt nlit Rnum]. rlit. rewrite <- Ev.
  apply Rmax_lub_lt; [|lra].
  replace ((0 + v / 1 * (v / 1)) * (1 / 1)) with (v * v) by field.
  rewrite <- sqrt_1. apply sqrt_lt_1_alt. nra.
Qed.

Definition f21 (t : R) : R := if Rle_dec t 1 then 0 else 1 / 100.
Lemma f21_le t : t <= 1 -> f21 t = 0.
Proof. intros. unfold f21. destruct (Rle_dec t 1); [reflexivity|contradiction]. Qed.
Lemma f21_gt t : 1 < t -> f21 t = 1 / 100.
Proof. intros. unfold f21. destruct (Rle_dec t 1); [lra|reflexivity]. Qed.
Definition o21 : dopts Rnum := set_Nit ctor_opts 2.

Lemma abs_mul_le (a b A B : R) : - A <= a <= A -> - B <= b <= B -> 0 <= A -> 0 <= B -> - (A * B) <= a * b <= A * B.
Proof. intros. split; nra. Qed.
Lemma end_test : (@nlit Rnum 0 0 <=? (1 + (@d_posneg Rnum 0 3 * mMIN (mABS (1 / mMAX d_FACR (mMIN d_FACL (nsqrt (nsqrt (1 / 10 ^ 10)%R) /
      mMIN (d_safe o21) (d_cfac o21 / nlit (1 + 2 * d_nit o21) 0))))) (@d_hmaxn Rnum 0 3)) / d_quot1 o21 - 3) * @d_posneg Rnum 0 3)%num = true.
Proof.
  change (@d_posneg Rnum 0 3) with (@r_posneg Rnum 0 3). change (@d_hmaxn Rnum 0 3) with (@r_hmaxn Rnum 0 3).
  rewrite posneg_fwd, hmaxn_fwd by lra. rewrite FACR_R, FACL_R.
  assert (E5 : @nsqrt Rnum (@nsqrt Rnum (1 / 10 ^ 10)) <= 1 / 20).
  { cbn [nsqrt Rnum]. rewrite <- (sqrt_square (1 / 20)) by lra. apply sqrt_le_1_alt.
    rewrite <- (sqrt_square (1 / 20 * (1 / 20))) by lra. apply sqrt_le_1_alt. lra. }
  assert (E6 : 0 <= @nsqrt Rnum (@nsqrt Rnum (1 / 10 ^ 10))) by apply sqrt_pos.
  set (e := @nsqrt Rnum (@nsqrt Rnum (1 / 10 ^ 10)) : R) in *. clearbody e.
  rewrite !mMIN_R, mMAX_R, !mABS_R. unfold d_cfac, o21, set_Nit, ctor_opts. cbn [d_safe d_nit d_quot1]. cbn [Z.add Z.mul Pos.mul Pos.add]. rlit.
  rewrite (Rmin_left (9 / 10) _) by lra. rewrite (Rmin_right 5) by lra. rewrite Rmax_left by lra.
  replace (1 / (1 / 8)) with 8 by lra. rewrite (Rabs_right 8) by lra. rewrite Rmin_right by lra. apply Rleb_true. lra.
Qed.
(* X1, X2, X3 for the second step, with r = (5.2, -4.1, 1.5)/100 roughly *)
Lemma second_step (u al be D X1 X2 X3 : R) : 3 < u < 5 -> D <> 0 -> 0 < al / D < 1 / 5 -> 0 < be / D < 1 / 4 ->
  X1 = 2 * (TI11 (@rd_const Rnum) * (1 / 100) + TI12 (@rd_const Rnum) * (1 / 100) + TI13 (@rd_const Rnum) * (1 / 100)) / u ->
  X2 = 2 * ((TI21 (@rd_const Rnum) * (1 / 100) + TI22 (@rd_const Rnum) * (1 / 100) + TI23 (@rd_const Rnum) * (1 / 100)) * al +
            (TI31 (@rd_const Rnum) * (1 / 100) + TI32 (@rd_const Rnum) * (1 / 100) + TI33 (@rd_const Rnum) * (1 / 100)) * be) / D ->
  X3 = 2 * ((TI31 (@rd_const Rnum) * (1 / 100) + TI32 (@rd_const Rnum) * (1 / 100) + TI33 (@rd_const Rnum) * (1 / 100)) * al -
            (TI21 (@rd_const Rnum) * (1 / 100) + TI22 (@rd_const Rnum) * (1 / 100) + TI23 (@rd_const Rnum) * (1 / 100)) * be) / D ->
  1 / 1000 <= sqrt ((X1 * X1 + X2 * X2 + X3 * X3) / 3) /\
  -1 < (DD1 (@rd_const Rnum) * (1 / 1) * (T11 (@rd_const Rnum) * X1 + T12 (@rd_const Rnum) * X2 + T13 (@rd_const Rnum) * X3) +
   DD2 (@rd_const Rnum) * (1 / 1) * (T21 (@rd_const Rnum) * X1 + T22 (@rd_const Rnum) * X2 + T23 (@rd_const Rnum) * X3) +
   DD3 (@rd_const Rnum) * (1 / 1) * (T31 (@rd_const Rnum) * X1 + X2) + 0) / (u / 1) < 1.
Proof.
  intros Hu HD Ha Hb E1 E2 E3.
  assert (Hs : 0 <= sqrt 6 <= 3).
  { split; [apply sqrt_pos|]. rewrite <- (sqrt_Rsqr 3) by lra. apply sqrt_le_1_alt. unfold Rsqr. lra. }
  cbn [rd_const TI11 TI12 TI13 TI21 TI22 TI23 TI31 TI32 TI33 T11 T12 T13 T21 T22 T23 T31 DD1 DD2 DD3] in *.
  rlit.
  set (q := sqrt 6) in *. clearbody q.
  assert (B1 : 2 / 100 < X1 < 4 / 100).
  { assert (EX : 104 / 1000 < X1 * u < 105 / 1000).
    { rewrite E1. match goal with |- _ < ?t / u * u < _ => replace (t / u * u) with t by (field; lra) | |- _ < ?t * / u * u < _ => replace (t * / u * u) with t by (field; lra) end. lra. }
    split; nra. }
  assert (B2 : - (4 / 100) < X2 < 4 / 100).
  { rewrite E2. match goal with |- _ < ?t < _ => match t with 2 * (?k1 * al + ?k2 * be) / D => replace t with (2 * k1 * (al / D) + 2 * k2 * (be / D)) by (field; exact HD) end end.
    set (A := al / D) in *. set (B := be / D) in *. clearbody A B. lra. }
  assert (B3 : - (4 / 100) < X3 < 4 / 100).
  { rewrite E3. match goal with |- _ < ?t < _ => match t with 2 * (?k1 * al - ?k2 * be) / D => replace t with (2 * k1 * (al / D) - 2 * k2 * (be / D)) by (field; exact HD) end end.
    set (A := al / D) in *. set (B := be / D) in *. clearbody A B. lra. }
  clear E1 E2 E3. split.
  - apply Rle_trans with (sqrt ((1 / 1000) * (1 / 1000))); [rewrite sqrt_square; lra|]. apply sqrt_le_1_alt. nra.
  - assert (Hi : 0 < / u < / 3) by (split; [apply Rinv_0_lt_compat; lra|apply Rinv_lt_contravar; lra]).
    match goal with |- -1 < ?t / (u / 1) < 1 => replace (t / (u / 1)) with (t * / u) by (field; lra); assert (Ht : -2 < t < 2) end.
    { match goal with |- -2 < ?d1 * (1 / 1) * ?z1 + ?d2 * (1 / 1) * ?z2 + ?d3 * (1 / 1) * ?z3 + 0 < 2 =>
        assert (Hz1 : - (1 / 50) <= z1 <= 1 / 50) by lra; assert (Hz2 : - (4 / 100) <= z2 <= 4 / 100) by lra; assert (Hz3 : - (8 / 100) <= z3 <= 8 / 100) by lra;
        assert (Hd1 : - 12 <= d1 <= 12) by lra; assert (Hd2 : - 5 <= d2 <= 5) by lra; assert (Hd3 : - 1 <= d3 <= 1) by lra;
        pose proof (abs_mul_le d1 z1 12 (1 / 50) ltac:(lra) ltac:(lra) ltac:(lra) ltac:(lra)); pose proof (abs_mul_le d2 z2 5 (4 / 100) ltac:(lra) ltac:(lra) ltac:(lra) ltac:(lra));
        pose proof (abs_mul_le d3 z3 1 (8 / 100) ltac:(lra) ltac:(lra) ltac:(lra) ltac:(lra)) end. lra. }
    match goal with |- -1 < ?t * / u < 1 => set (tt := t) in * end. clearbody tt.
    pose proof (abs_mul_le tt (/ u) 2 (/ 3) ltac:(lra) ltac:(lra) ltac:(lra) ltac:(lra)). lra.
Qed.
Lemma lt1 (err : R) : err < 1 -> @nltb Rnum err (nlit 1 0) = true.
Proof. intros. rlit. apply Rltb_true. assumption. Qed.
Lemma not_yet : @nleb Rnum (nlit 1 (-1) * mABS_diff (3 : Rnum) 1)%num (mABS (1 : Rnum) * rd_uround)%num = false.
Proof. rewrite mABS_diff_R, mABS_R. unfold rd_uround. rlit. destruct (Rle_dec _ _); [|lra]. rewrite Rabs_R1. apply Rleb_false. lra. Qed.
Lemma not_stale : @nltb Rnum (d_thet o21) (mABS (nlit 1 (-3))) = false.
Proof. cbn [d_thet o21 set_Nit ctor_opts]. rewrite mABS_R. rlit. rewrite Rabs_right by lra. apply Rltb_false. lra. Qed.
(* every accepted pass has converged, with the step size that was tested *)
Lemma accepts_unconverged a b d e e' :
  exists st p l, @rs_radau Rnum f21 2 (1 / 1000) o21 2 1 rs_w 1 0 3 (fun _ => 0) a b d e e' = Ok st /\ q_x st = 3 /\
    q_hist st = p :: l /\ g_test p = Some true /\ g_reason p = didNotConverge /\ g_h p = 2 /\ g_h2 p = 1.
Proof.
  destruct C12_strict as [HC1 HC2]. destruct const_bounds as (u & al & be & Eu & Ea & Eb & Hu & HD & Hal & Hbe).
  destruct (begin_run f21 2 (1 / 1000) o21 2 1 0 3 1 1 false (fun _ => 0) a b d e e') as (w1 & hold & hopt & Hc & Hy & Hf & E).
  { apply f21_le. lra. }
  { apply start_fwd with (h := 1); try lra; rewrite Rabs_R1; [lra|rewrite Rmin_left; lra]. }
  rewrite E. clear E.
  (* first step *)
  destruct (quiet_newton rd_const f21 2 (nlit 1 (-3)) (1 / 1000) w1 true 0 1 hold (fun _ => 0) Hc ltac:(lia) ltac:(lra)
    ltac:(apply f21_le; lra) ltac:(apply f21_le; lra) ltac:(apply f21_le; lra)) as (w2 & E2 & Hc2 & G1 & G2 & G3 & Gy & _).
  destruct (quiet_est rd_const f21 w2 0 1 (fun _ => 0) true false Hc2 G1 G2 G3 ltac:(rewrite Gy; exact Hy)) as (w3 & E3 & Hc3 & K1 & K2 & K3).
  pose proof (save_calm rd_const w3 Hc3 K1 K2 K3) as Hc4.
  set (Y1 := k_adv w3 (fun _ : Z => 0 : Rnum)).
  pose proof (scal_calm0 (k_save rd_const w3) Y1 Hc4) as Hc5.
  destruct (evalF_calm f21 (rs_scal (k_save rd_const w3) Y1) 1 Y1 Hc5) as [Hc6 Hy6].
  destruct (mats_calm rd_const _ 2 Hc6) as (w7 & Em7 & Hc7 & Hy7 & Hf7 & _).
  (* second step *)
  destruct (second_step u al be (al * al + be * be) _ _ _ Hu HD Hal Hbe eq_refl eq_refl eq_refl) as [Hbig Hsmall].
  match type of Hbig with _ <= sqrt ((?p * _ + ?q * _ + ?r * _) / 3) =>
    destruct (bad_newton rd_const f21 (nlit 1 (-3)) (1 / 1000) w7 false 1 2 1 Y1 (1 / 100) (1 / 100) (1 / 100) _ _ _ al be (al * al + be * be) p q r
      Hc7 Hf7 ltac:(lra) ltac:(rewrite Eu; lra) (eq_sym Ea) (eq_sym Eb) eq_refl HD
      ltac:(apply f21_gt; lra) ltac:(apply f21_gt; lra) ltac:(apply f21_gt; lra)
      eq_refl eq_refl eq_refl ltac:(rewrite Eu; reflexivity) eq_refl eq_refl Hbig) as (w8 & E8 & Hc8 & Hy8 & Z1 & Z2 & Z3)
  end.
  clear Hbig.
  destruct (jac_calm f21 w8 1 Y1 Hc8) as (w9 & Ej9 & Hc9 & Hy9 & J1 & J2 & J3).
  destruct (mats_calm rd_const w9 1 Hc9) as (w10 & Em10 & Hc10 & Hy10 & Hf10 & M1 & M2 & M3).
  destruct (scal_calm rd_const 1 w10 Y1 Hc10 Hf10) as (Hc11 & Hy11 & Hf11 & L1 & L2 & L3).
  destruct (small_est rd_const f21 (rs_scal w10 Y1) 1 1 _ Y1 Hc11 Hf11 eq_refl) as (w12 & err & E12 & Herr & _).
  { rewrite L1, L2, L3, M1, M2, M3, J1, J2, J3, Z1, Z2, Z3, Hy11, Hy10, Hy9, Hy8, Hy7, Hy6, Eu.
    rewrite (f21_le 1) by lra. exact Hsmall. }
  (* the run *)
  match goal with |- context [@d_loop Rnum ?W ?j ?m ?ev ?ds ?nw ?es ?ad ?sv o21 ?xe ?p ?hm _ _ ?st] =>
    pose proof (@redo_conv Rnum W j m ds nw 0 st w2 1 1 _ E2) as ER;
    match type of ER with _ = Ok ?st1 =>
      destruct (@control_last Rnum W j m ev ds es ad sv o21 xe p hm st1 1 2 w3 _ w7 E3) as (hacc & erracc & hopt' & Ec1);
      [ | reflexivity| reflexivity | reflexivity | reflexivity | | | | |exact Em7| ];
      [ | | | | | 
      match type of Ec1 with _ = Ok (?st2, _) =>
        pose proof (@pass_dnc2 Rnum W j m ds nw st2 w8 2 2 _ w9 w10 1 eq_refl E8 Ej9 ltac:(rewrite half_R; lra) Em10 eq_refl) as ER2;
        match type of ER2 with _ = Ok ?st3 =>
          destruct (@control_done Rnum W j m ev ds es ad sv o21 xe p hm st3 (d_xph st3) w12 _ E12) as (sf & Ed & D1 & D2 & D3 & D4 & _);
          [ | reflexivity |reflexivity | ]
        end
      end ]
    end
  end.
  - apply lt1. lra.
  - exact not_yet.
  - exact not_stale.
  - cbn [nsub Rnum]. lra.
  - exact end_test.
  - apply lt1. exact Herr.
  - exists sf. do 2 eexists. split.
    + eapply loop_step; [|exact ER| |]; [cbn; lia| |].
      { match goal with |- d_control _ _ _ _ _ _ _ _ _ _ _ _ ?x = _ => replace x with (1 : Rnum) by (change (1 = 0 + 1); lra) end. exact Ec1. }
      eapply loop_step; [|exact ER2|exact Ed|reflexivity]. cbn. lia.
    + split; [rewrite D1; change (1 + 2 = 3); lra|]. split; [exact D4|]. cbn [g_test g_reason g_h g_h2 q_h]. auto.
Qed.
