(* One attempted step of RodasModel.v over the reals is a step of a six-stage Rosenbrock
   method, and a run is a chain of such steps. *)
From Coq Require Import Reals Lra Psatz.
From Verif Require Import Base Spec FieldLU HessModel CMacros VecFun HessPathProofs LayoutCases JacModel JacProofs
  RodasModel RodasProofs RodasReal RodasTop RodasSpec.
Open Scope R_scope.

(* the method held in the members A21..GAMMA (Rodascc.hpp:44-58), in the notation of
   RodasSpec.v; stage 6 and the result reuse the row A51..A54 *)
Definition six {A} (a b c d e f : A) (i : Z) : A :=
  if (i =? 1)%Z then a else if (i =? 2)%Z then b else if (i =? 3)%Z then c else
  if (i =? 4)%Z then d else if (i =? 5)%Z then e else f.
Definition rodas_tab (C : rcoef Rnum) : tableau :=
  let z := fun _ : Z => 0 in
  mkTab (rGAMMA C)
    (six z (six (rA21 C) 0 0 0 0 0) (six (rA31 C) (rA32 C) 0 0 0 0) (six (rA41 C) (rA42 C) (rA43 C) 0 0 0)
         (six (rA51 C) (rA52 C) (rA53 C) (rA54 C) 0 0) (six (rA51 C) (rA52 C) (rA53 C) (rA54 C) 1 0))
    (six z (six (rC21 C) 0 0 0 0 0) (six (rC31 C) (rC32 C) 0 0 0 0) (six (rC41 C) (rC42 C) (rC43 C) 0 0 0)
         (six (rC51 C) (rC52 C) (rC53 C) (rC54 C) 0 0) (six (rC61 C) (rC62 C) (rC63 C) (rC64 C) (rC65 C) 0))
    (six (rA51 C) (rA52 C) (rA53 C) (rA54 C) 1 1)
    (six 0 (rC2 C) (rC3 C) (rC4 C) 1 1)
    (six (rD1 C) (rD2 C) (rD3 C) (rD4 C) 0 0).

Ltac rr := apply Rminus_diag_uniq; ring.
Lemma rs0 f : rsum 1 (1 - 1) f = 0.
Proof. apply rsum_empty. lia. Qed.
Lemma rs1 f : rsum 1 (2 - 1) f = f 1%Z.
Proof. rewrite rsum_hi by lia. rewrite rsum_empty by lia. change (2 - 1)%Z with 1%Z. ring. Qed.
Lemma rs2 f : rsum 1 (3 - 1) f = f 1%Z + f 2%Z.
Proof. rewrite rsum_hi by lia. change (3 - 1)%Z with 2%Z. rewrite rs1. ring. Qed.
Lemma rs3 f : rsum 1 (4 - 1) f = f 1%Z + f 2%Z + f 3%Z.
Proof. rewrite rsum_hi by lia. change (4 - 1)%Z with 3%Z. rewrite rs2. ring. Qed.
Lemma rs4 f : rsum 1 (5 - 1) f = f 1%Z + f 2%Z + f 3%Z + f 4%Z.
Proof. rewrite rsum_hi by lia. change (5 - 1)%Z with 4%Z. rewrite rs3. ring. Qed.
Lemma rs5 f : rsum 1 (6 - 1) f = f 1%Z + f 2%Z + f 3%Z + f 4%Z + f 5%Z.
Proof. rewrite rsum_hi by lia. change (6 - 1)%Z with 5%Z. rewrite rs4. ring. Qed.
Lemma rs6 f : rsum 1 6 f = f 1%Z + f 2%Z + f 3%Z + f 4%Z + f 5%Z + f 6%Z.
Proof. rewrite rsum_hi by lia. rewrite rs5. ring. Qed.
Lemma rsum_single n k (g : Z -> R) : (1 <= k <= n)%Z -> rsum 1 n (fun l => if (k =? l)%Z then g l else 0) = g k.
Proof.
  intros Hk. rewrite (rsum_split k) by lia. rewrite rsum_hi by lia. rewrite Z.eqb_refl.
  rewrite !rsum_zero. ring. { intros i Hi. destruct (Z.eqb_spec k i); [lia|reflexivity]. }
  intros i Hi. destruct (Z.eqb_spec k i); [lia|reflexivity].
Qed.
Lemma newton_rows n fac M u b k : solution n (newton_matrix fac M) u b -> (1 <= k <= n)%Z ->
  fac * u k - rsum 1 n (fun l => M k l * u l) = b k.
Proof.
  intros H Hk. rewrite <- (H k Hk). unfold newton_matrix.
  transitivity (rsum 1 n (fun l => (if (k =? l)%Z then fac * u l else 0) - M k l * u l)).
  - rewrite rsum_sub, rsum_single by exact Hk. reflexivity.
  - apply rsum_ext. intros l Hl. destruct (k =? l)%Z; ring.
Qed.
Lemma for_rsum n (g : Z -> R) (z : R) : z = 0 -> (0 <= n)%Z -> @for_ R 1 n (fun i e => e + g i) z = rsum 1 n g.
Proof.
  intros -> Hn. pose proof (@for_ind R (fun m e => e = rsum 1 (m - 1) g) 1 n (fun i e => e + g i) 0) as H.
  cbv beta in H. rewrite H; [f_equal; lia|lia|rewrite rs0; reflexivity|].
  intros j t Hj ->. replace (j + 1 - 1)%Z with j by lia. rewrite (rsum_hi 1 j) by lia. reflexivity.
Qed.
Lemma r_err_norm n (atol rtol y y' e : Z -> R) : (0 <= n)%Z ->
  @r_err Rnum n atol rtol y y' e = error_norm n atol rtol y y' e.
Proof.
  intros Hn. unfold r_err, error_norm. cbn [nsqrt ndiv nadd nmul nlit car Rnum]. f_equal. rewrite !Rlit_0. f_equal.
  rewrite (for_rsum n (fun i => e i / (atol i + rtol i * @mMAX Rnum (@mABS Rnum (y i)) (@mABS Rnum (y' i))) *
     (e i / (atol i + rtol i * @mMAX Rnum (@mABS Rnum (y i)) (@mABS Rnum (y' i))))) 0 eq_refl Hn).
  apply rsum_ext. intros i Hi. rewrite mMAX_R, !mABS_R. ring.
Qed.

Section Step.
Variables Sg La : Type.
Variable userF : Sg -> R -> (Z -> R) -> Sg * (Z -> R).
Variable userJ : Sg -> R -> (Z -> R) -> (Z -> R) -> (Z -> R) -> Sg * (Z -> R).
Variable userDt : Sg -> R -> (Z -> R) -> Sg * (Z -> R).
Variable decomr : La -> R -> (Z -> R) -> out (La * (Z -> R)).
Variable solvereal : La -> (Z -> R) -> (Z -> R) -> out (Z -> R).
Variable set_calhes : La -> La.
Variables (n : Z) (sh : shape) (numjac autonms use_DF_t : bool).
Variable C : rcoef Rnum.
Variables atol rtol junk : Z -> R.
(* the user's functions compute f, its Jacobian matrix Ju and its time derivative ft *)
Variable f : R -> (Z -> R) -> Z -> R.
Variable Ju : R -> (Z -> R) -> Z -> Z -> R.
Variable ft : R -> (Z -> R) -> Z -> R.
Hypothesis Hf : forall s t y k, snd (userF s t y) k = f t y k.
Hypothesis HJu : forall s t y fy j i k, in_full n i k -> sh_mat n sh (snd (userJ s t y fy j)) i k = Ju t y i k.
Hypothesis Hft : forall s t y k, snd (userDt s t y) k = ft t y k.
(* the linear algebra: holds la jac M: the pair stands for the matrix M *)
Variable holds : La -> (Z -> R) -> (Z -> Z -> R) -> Prop.
Definition algebra : Prop :=
  (forall la jac, holds (set_calhes la) jac (sh_mat n sh jac)) /\
  (forall la jac M fac la' jac', holds la jac M -> decomr la fac jac = Ok (la', jac') ->
     holds la' jac' M /\
     forall b u, solvereal la' b jac' = Ok u -> solution n (newton_matrix fac M) u b).
Hypothesis Halg : algebra.
Hypothesis Hn : (1 <= n)%Z.
Hypothesis Hsh : shape_ok sh.

(* the matrix and the vector a step may use *)
Definition jac_used (x : R) (y : Z -> R) (J : Z -> Z -> R) : Prop :=
  if numjac then forall i k, in_full n i k -> (in_shape n sh i k -> J i k = quotient_y f x y i k) /\
                                            (~ in_shape n sh i k -> J i k = 0)
  else forall i k, in_full n i k -> J i k = Ju x y i k.
Definition fx_used (x : R) (y : Z -> R) (fx : Z -> R) : Prop :=
  forall k, (1 <= k <= n)%Z -> fx k = if autonms then 0 else if use_DF_t then ft x y k else quotient_x f x y k.
Definition rodas_step (x h : R) (y y' : Z -> R) (err : R) : Prop :=
  exists J fx u, jac_used x y J /\ fx_used x y fx /\
    ros_step 6 n (rodas_tab C) f J fx x h y u y' /\ err = error_norm n atol rtol y y' (u 6%Z).

Definition ready (w : @world Rnum Sg La) (aux : (Z -> R) * (Z -> R)) (x : R) (y : Z -> R) : Prop :=
  exists J, holds (w_la w) (w_jac w) J /\ jac_used x y J /\
    (forall k, fst aux k = f x y k) /\
    (autonms = false -> forall k, snd aux k = if use_DF_t then ft x y k else quotient_x f x y k).

Notation prep := (@r_prep Rnum Sg La userF userJ userDt set_calhes n sh numjac autonms use_DF_t r_uround junk).
Notation attempt := (@r_attempt Rnum Sg La userF decomr solvereal n autonms C atol rtol).

Lemma callF_val s t y k : snd (@callF Rnum Sg userF s t y) k = f t y k.
Proof. unfold callF. specialize (Hf (fst s) t y k). destruct (userF (fst s) t y). exact Hf. Qed.
Lemma increment_fd v : @fd_delta Rnum r_uround v = increment v.
Proof.
  unfold fd_delta, increment, r_uround. cbn [nsqrt nmul car Rnum nlit]. f_equal. rewrite mMAX_R, mABS_R. rewrite !Rlit_neg.
  f_equal; [|f_equal]; change (10 ^ 16)%Z with 10000000000000000%Z; change (10 ^ 5)%Z with 100000%Z; lra.
Qed.
Lemma increment_pos v : 0 < increment v.
Proof. unfold increment. apply sqrt_lt_R0. apply Rmult_lt_0_compat; [lra|]. eapply Rlt_le_trans; [|apply Rmax_l]. lra. Qed.
Lemma prep_ready w x Y : pc (prep w x Y) (fun r => ready (fst r) (snd r) x Y).
Proof.
  unfold r_prep. pose proof (callF_val (w_f w) x Y) as HD. destruct (@callF Rnum Sg userF (w_f w) x Y) as [s DY1]. cbn [snd] in HD.
  apply pc_bind.
  assert (HJ : pc (if numjac then '(s, Y', Jac) <- @jacobian Rnum _ (@callF Rnum Sg userF) n sh r_uround s x Y DY1 (w_jac w) ;; Ok (s, Jac)
     else let '(u, Jac) := userJ (fst s) x Y DY1 (w_jac w) in Ok ((u, snd s), Jac)) (fun r => jac_used x Y (sh_mat n sh (snd r)))).
  { unfold jac_used. destruct numjac.
    - apply pc_bind.
      assert (Fx : forall s t (y y' : Z -> R), (forall i, y i = y' i) -> @callF Rnum Sg userF s t y = callF userF s t y').
      { intros s0 t0 y0 y' H. assert (E : y0 = y') by (apply FunctionalExtensionality.functional_extensionality; exact H). subst. reflexivity. }
      pose proof (@jacobian_spec Rnum _ (@callF Rnum Sg userF) n sh r_uround Hn Hsh Fx s x Y DY1 (w_jac w)) as HS.
      destruct (jacobian _ _ _ _ _ _ _ _ _) as [[[s1 Y1] J1]| | |]; try exact Logic.I. cbn [wp pc snd] in *.
      destruct HS as (_ & _ & HS). intros i k Hik. split.
      + intros Hin. assert (E : sh_mat n sh J1 i k = J1 (sh_off n sh i k)).
        { clear -Hin. destruct sh; cbn; [reflexivity|]. unfold mat_gb. cbn in Hin. destruct Hin as (_ & _ & Hb).
          destruct (Z.leb_spec (k - ku) i), (Z.leb_spec i (k + kl)); try lia. reflexivity. }
        rewrite E, HS by exact Hin. unfold column. rewrite callF_val, HD, increment_fd. unfold quotient_y.
        cbn [nadd nsub nmul ndiv car Rnum nlit]. rewrite Rlit_0. unfold put, upd. unfold Rdiv. ring.
      + intros Hout. clear -Hout Hik. destruct sh; cbn in *; [contradiction|]. unfold mat_gb. destruct Hik.
        destruct (Z.leb_spec (k - ku) i), (Z.leb_spec i (k + kl)); cbn [andb]; try reflexivity.
        exfalso. apply Hout. unfold in_band. lia.
    - specialize (HJu (fst s) x Y DY1 (w_jac w)). destruct (userJ (fst s) x Y DY1 (w_jac w)) as [u Jac]. exact HJu. }
  destruct (if numjac then _ else _) as [[s1 Jac]| | |]; try exact Logic.I. cbn [pc snd] in HJ. cbn [pc].
  assert (HX : forall s1 FX s2, (if autonms then (s1, junk) else @DF_X Rnum Sg userF userDt use_DF_t r_uround s1 x Y DY1) = (s2, FX) ->
     autonms = false -> forall k, FX k = if use_DF_t then ft x Y k else quotient_x f x Y k).
  { intros s2 FX s3 E Ea k. rewrite Ea in E. unfold DF_X in E. destruct use_DF_t.
    - specialize (Hft (fst s2) x Y k). destruct (userDt (fst s2) x Y). injection E as _ <-. exact Hft.
    - match type of E with (let '(_, _) := callF _ _ (x + ?d)%num _ in _) = _ => assert (Ed : d = increment x) by (exact (increment_fd x)); rewrite Ed in E end.
      pose proof (callF_val s2 (x + increment x) Y k) as Hv. cbn [nadd car Rnum] in E.
      destruct (callF userF s2 (x + increment x) Y) as [s4 AK]. injection E as _ <-. cbn [snd] in Hv.
      unfold v_lc2, quotient_x. cbn [nadd nsub nmul ndiv nopp car Rnum nlit]. rewrite Hv, HD, Rlit_0. unfold Rdiv. ring. }
  destruct (if autonms then _ else _) as [s2 FX] eqn:EX. cbn [pc fst snd]. exists (sh_mat n sh Jac).
  cbn [w_la w_jac]. split; [apply (proj1 Halg)|]. split; [exact HJ|]. split; [exact HD|]. exact (HX _ _ _ EX).
Qed.

Lemma slvrod_ok la Jac M fac hd DY FX Y add :
  (forall b u, solvereal la b Jac = Ok u -> solution n (newton_matrix fac M) u b) ->
  pc (@slvrod Rnum La solvereal autonms la Jac hd DY FX Y add) (fun u => forall k, (1 <= k <= n)%Z ->
    fac * u k - rsum 1 n (fun l => M k l * u l) = DY k + (if add then Y k else 0) + hd * (if autonms then 0 else FX k)).
Proof.
  intros HS. unfold slvrod.
  set (A := if add then _ else _). pose proof (HS A) as HA. destruct (solvereal la A Jac) as [u| | |] eqn:E; try exact Logic.I.
  cbn [pc]. intros k Hk. rewrite (newton_rows n fac M u A k (HA u eq_refl) Hk). unfold A.
  destruct add, autonms; unfold v_axpy, v_add; cbn [nadd nmul car Rnum]; rr.
Qed.

Lemma attempt_step w aux x h Y : ready w aux x Y ->
  pc (attempt w aux x h Y) (fun r => let '(w', Y', err) := r in
    ready w' aux x Y /\ rodas_step x h Y Y' err).
Proof.
  intros (J & HM & HJ & HD & HX). destruct aux as [DY1 FX]. cbn [fst snd] in HD, HX.
  unfold r_attempt. apply pc_bind.
  destruct (decomr (w_la w) (nlit 1 0 / (h * rGAMMA C))%num (w_jac w)) as [[la Jac]| | |] eqn:ED; try exact Logic.I. cbn [pc].
  destruct (proj2 Halg _ _ _ _ _ _ HM ED) as [HM' HS].
  pose (fx := fun k : Z => if autonms then 0 else FX k).
  assert (Hfx : fx_used x Y fx). { intros k Hk. unfold fx. destruct autonms; [reflexivity|]. apply HX. reflexivity. }
  apply pc_bind. eapply pc_mono; [apply (slvrod_ok _ _ _ _ _ _ _ _ _ HS)|]. intros u1 H1. cbv beta zeta.
  match goal with |- context [callF userF ?s ?t ?y] => pose proof (callF_val s t y) as F2; set (g2 := y) in *; destruct (callF userF s t g2) as [s2 DY2] end. cbn [snd] in F2.
  apply pc_bind. eapply pc_mono; [apply (slvrod_ok _ _ _ _ _ _ _ _ _ HS)|]. intros u2 H2. cbv beta zeta.
  match goal with |- context [callF userF ?s ?t ?y] => pose proof (callF_val s t y) as F3; set (g3 := y) in *; destruct (callF userF s t g3) as [s3 DY3] end. cbn [snd] in F3.
  apply pc_bind. eapply pc_mono; [apply (slvrod_ok _ _ _ _ _ _ _ _ _ HS)|]. intros u3 H3. cbv beta zeta.
  match goal with |- context [callF userF ?s ?t ?y] => pose proof (callF_val s t y) as F4; set (g4 := y) in *; destruct (callF userF s t g4) as [s4 DY4] end. cbn [snd] in F4.
  apply pc_bind. eapply pc_mono; [apply (slvrod_ok _ _ _ _ _ _ _ _ _ HS)|]. intros u4 H4. cbv beta zeta.
  match goal with |- context [callF userF ?s ?t ?y] => pose proof (callF_val s t y) as F5; set (g5 := y) in *; destruct (callF userF s t g5) as [s5 DY5] end. cbn [snd] in F5.
  apply pc_bind. eapply pc_mono; [apply (slvrod_ok _ _ _ _ _ _ _ _ _ HS)|]. intros u5 H5. cbv beta zeta.
  match goal with |- context [callF userF ?s ?t ?y] => pose proof (callF_val s t y) as F6; set (g6 := y) in *; destruct (callF userF s t g6) as [s6 DY6] end. cbn [snd] in F6.
  apply pc_bind. eapply pc_mono; [apply (slvrod_ok _ _ _ _ _ _ _ _ _ HS)|]. intros u6 H6. cbv beta zeta. cbn [pc].
  split.
  { exists J. cbn [w_la w_jac fst snd]. auto. }
  exists J, fx, (six u1 u2 u3 u4 u5 u6). split; [exact HJ|]. split; [exact Hfx|]. split.
  2:{ apply r_err_norm. lia. }
  assert (Ediv : forall v : R, v / (h * rGAMMA C) = (nlit 1 0 / (h * rGAMMA C))%num * v).
  { intros v. cbn [ndiv nmul nlit car Rnum]. rewrite Rlit_0. unfold Rdiv. ring. }
  split.
  - intros i Hi. assert (E : (i = 1 \/ i = 2 \/ i = 3 \/ i = 4 \/ i = 5 \/ i = 6)%Z) by lia.
    destruct E as [->|[->|[->|[->|[->| ->]]]]];
      [exists Y|exists g2|exists g3|exists g4|exists g5|exists g6];
      (split; [intros k Hk|intros k Hk]);
      rewrite ?rs0, ?rs1, ?rs2, ?rs3, ?rs4, ?rs5; unfold rodas_tab; cbn [t_gamma t_a t_c t_m t_alpha t_gam]; unfold six; cbn [Z.eqb Pos.eqb];
      try rewrite Ediv.
    all: shelve.
  - intros k Hk. rewrite rs6. unfold rodas_tab; cbn [t_gamma t_a t_c t_m t_alpha t_gam]; unfold six; cbn [Z.eqb Pos.eqb].
    unfold g6, g5, v_add, v_x_lc4. cbn [nadd nsub nmul ndiv nopp car Rnum nlit]. rr.
  Unshelve.
  all: try reflexivity.
  all: rewrite ?H1, ?H2, ?H3, ?H4, ?H5, ?H6 by exact Hk.
  all: rewrite ?HD, ?F2, ?F3, ?F4, ?F5, ?F6; unfold fx, v_scale, v_lc2, v_lc3, v_lc4, v_lc5.
  all: try (unfold g6, g5, g4, g3, g2, v_add, v_axpy, v_x_lc2, v_x_lc3, v_x_lc4; cbn [nadd nsub nmul ndiv nopp car Rnum nlit]; rr).
  all: cbn [nadd nsub nmul ndiv nopp car Rnum nlit].
  * replace (x + 0 * h) with x by ring. destruct autonms; [rewrite Rlit_0|]; rr.
  * destruct autonms; [rewrite Rlit_0|]; rr.
  * destruct autonms; [rewrite Rlit_0|]; rr.
  * destruct autonms; [rewrite Rlit_0|]; rr.
  * replace (x + 1 * h) with (x + h) by ring. rewrite Rlit_0. rr.
  * replace (x + 1 * h) with (x + h) by ring. rewrite Rlit_0. rr.
Qed.

(* ---- the whole run ------------------------------------------------------------ *)
Definition tri (a : att Rnum) : R * R * bool := (a_x a, a_h a, a_acc a).
Notation state := (@rst Rnum (@world Rnum Sg La)).
Section Run.
Variable o : ropts Rnum.
Variables x0 : R.
Variable y0 : Z -> R.
Definition linked (st : state) : Prop := chain rodas_step x0 y0 (List.map tri (s_hist st)) (s_x st) (s_Y st).
Lemma body_linked posneg hmaxn aux st : linked st -> ready (s_w st) aux (s_x st) (s_Y st) ->
  pc (r_body attempt o posneg hmaxn aux st) (fun st' => linked st' /\ (s_reject st' = true -> ready (s_w st') aux (s_x st') (s_Y st'))).
Proof.
  intros HL HR. unfold r_body. apply pc_bind. eapply pc_mono; [apply attempt_step; exact HR|].
  intros [[w YN] err] [HR' HS]. cbn [pc]. unfold r_control. cbn [s_x s_h s_Y s_w s_last s_reject s_naccpt s_nrejct s_njac s_nstep s_ndec s_nsol s_nfcn s_hacc s_erracc s_first s_hist].
  change (nleb err (nlit 1 0)) with (Rleb err (Rlit 1 0)). rewrite Rlit_0. unfold linked in *.
  destruct (Rleb_spec err 1) as [He|He].
  - cbn [s_x s_h s_Y s_w s_last s_reject s_naccpt s_nrejct s_njac s_nstep s_ndec s_nsol s_nfcn s_hacc s_erracc s_first s_hist].
    split; [|discriminate]. cbn [List.map]. unfold tri at 1. cbn [a_x a_h a_acc]. eapply chain_accept; eassumption.
  - cbn [s_x s_h s_Y s_w s_last s_reject s_naccpt s_nrejct s_njac s_nstep s_ndec s_nsol s_nfcn s_hacc s_erracc s_first s_hist].
    split; [|auto]. cbn [List.map]. unfold tri at 1. cbn [a_x a_h a_acc]. eapply chain_reject; [exact HL|exact HS|lra].
Qed.
Lemma run_linked fuel ifuel w h xend a b c :
  pc (rodas prep attempt o fuel ifuel w h x0 xend y0 a b c) (fun r => linked (fst r)).
Proof.
  unfold rodas. apply pc_bind. eapply pc_mono.
  - apply (outer_rule _ _ prep attempt o xend (r_posneg x0 xend) (r_hmaxn x0 xend) linked linked linked
      (fun aux st => linked st /\ ready (s_w st) aux (s_x st) (s_Y st))).
    + auto.
    + intros st HL _. unfold r_head. destruct (_ <=? _)%num; [exact Logic.I|]. apply pc_bind.
      eapply pc_mono; [apply prep_ready|]. intros [w1 aux] HR. cbn [fst snd] in HR. cbn [pc fst snd]. split; [exact HL|exact HR].
    + intros aux st [HL HR]. eapply pc_mono; [apply body_linked; eassumption|]. intros st' [H1 H2]. destruct (s_reject st'); auto.
    + intros st HM _. destruct (o_onestep o); exact HM.
    + apply chain_start.
  - auto.
Qed.
End Run.
End Step.
