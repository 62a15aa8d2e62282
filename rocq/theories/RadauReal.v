(* Proofs about the driver of RadauModel.v over the reals: step sizes, abscissae, end point.
   [s] is the direction, +1 or -1. *)
From Coq Require Import Reals Lra Psatz.
From Verif Require Import Base HessModel CMacros RodasProofs RodasReal RodasTop RadauModel RadauProofs.
Open Scope R_scope.

Lemma FACR_R : @d_FACR Rnum = 1 / 8.
Proof. unfold d_FACR. rlit. reflexivity. Qed.
Lemma FACL_R : @d_FACL Rnum = 5.
Proof. unfold d_FACL. rlit. reflexivity. Qed.
Lemma clamp8 z : 1 / 8 <= @mMAX Rnum (@d_FACR Rnum) (@mMIN Rnum (@d_FACL Rnum) z) <= 5.
Proof.
  rewrite mMAX_R, mMIN_R, FACR_R, FACL_R. split; [apply Rmax_l|]. apply Rmax_lub; [lra|apply Rmin_l].
Qed.
Definition fac_of (o : dopts Rnum) (newt : Z) : R :=
  @mMIN Rnum (d_safe o) (d_cfac o / nlit (newt + 2 * d_nit o) 0)%num.
Lemma fac_range (o : dopts Rnum) newt : 0 < (d_safe o : R) < 1 -> (1 <= d_nit o)%Z -> (0 <= newt)%Z -> 0 < fac_of o newt < 1.
Proof.
  intros H1 H2 H3. unfold fac_of. rewrite mMIN_R. unfold d_cfac. cbn [nmul ndiv nlit Rnum]. rewrite !Rlit_0.
  assert (A : 0 < IZR (1 + 2 * d_nit o)) by (apply IZR_lt; lia).
  assert (B : 0 < IZR (newt + 2 * d_nit o)) by (apply IZR_lt; lia).
  split; [apply Rmin_glb_lt; [lra|]; apply Rdiv_lt_0_compat; [apply Rmult_lt_0_compat|]; lra|].
  eapply Rle_lt_trans; [apply Rmin_l|apply H1].
Qed.
Lemma clamp_reject (o : dopts Rnum) newt err : 0 < (d_safe o : R) < 1 -> (1 <= d_nit o)%Z -> (0 <= newt)%Z -> 1 <= err ->
  1 < @mMAX Rnum (@d_FACR Rnum) (@mMIN Rnum (@d_FACL Rnum) (sqrt (sqrt err) / fac_of o newt)).
Proof.
  intros H1 H2 H3 He. pose proof (fac_range o newt H1 H2 H3) as Hf.
  rewrite mMAX_R, mMIN_R, FACR_R, FACL_R.
  assert (Hq : 1 <= sqrt (sqrt err)).
  { rewrite <- sqrt_1. apply sqrt_le_1_alt. rewrite <- sqrt_1. apply sqrt_le_1_alt. exact He. }
  eapply Rlt_le_trans; [|apply Rmax_r]. apply Rmin_glb_lt; [lra|].
  apply Rmult_lt_reg_r with (fac_of o newt); [apply Hf|]. unfold Rdiv. rewrite Rmult_assoc, Rinv_l by lra. lra.
Qed.
Lemma div8 sh f : 0 < sh -> 1 / 8 <= f <= 5 -> sh / 5 <= sh / f <= 8 * sh.
Proof.
  intros Hs [H1 H2]. split.
  - unfold Rdiv. apply Rmult_le_compat_l; [lra|]. apply Rinv_le_contravar; lra.
  - unfold Rdiv. rewrite (Rmult_comm 8). apply Rmult_le_compat_l; [lra|].
    apply Rle_trans with (/ (1 / 8)); [apply Rinv_le_contravar; lra|lra].
Qed.
Lemma div_gt1 sh f : 0 < sh -> 1 < f -> sh / f < sh.
Proof.
  intros Hs H. apply Rmult_lt_reg_r with f; [lra|]. unfold Rdiv. rewrite Rmult_assoc, Rinv_l by lra. nra.
Qed.

Section Dir.
Variable s : R.
Hypothesis Hs : s = 1 \/ s = -1.
Variables x0 xend hmaxn : R.
Hypothesis Hmx : 0 < hmaxn.
Hypothesis Hx : 0 < s * (xend - x0).

(* the specification of a history of Newton passes (newest first) *)
Definition tried (a : pass Rnum) : R := if is_acc a then g_x a + g_h a else g_x a.
Fixpoint d_good (l : list (pass Rnum)) : Prop :=
  match l with
  | nil => True
  | b :: l' => d_good l' /\ 0 < s * g_h b <= s * (xend - g_x b) /\
    match l' with
    | nil => g_x b = x0
    | a :: _ => g_x b = tried a /\ s * g_h b <= 8 * (s * g_h a) /\
        (s * g_h a / 20 <= s * g_h b \/ g_h b = xend - g_x b) /\
        (is_acc a = false -> s * g_h a / 20 <= s * g_h b < s * g_h a)
    end
  end.
Definition dnc (l : list (pass Rnum)) : Prop := exists p, In p l /\ g_reason p = didNotConverge.
Definition cvg (l : list (pass Rnum)) : Prop := exists p, In p l /\ g_reason p = converged.
Definition d_reached (l : list (pass Rnum)) : R := match l with nil => x0 | a :: _ => tried a end.

Variable W : Type.
Variable jacob : W -> R -> (Z -> R) -> out W.
Variable mats : W -> R -> out W.
Variable evalF : W -> R -> (Z -> R) -> W.
Variable doscal : W -> (Z -> R) -> W.
Variable newton : W -> bool -> R -> R -> R -> (Z -> R) -> out (W * nres Rnum).
Variable estrad : W -> R -> R -> (Z -> R) -> bool -> bool -> out (W * R).
Variable adv : W -> (Z -> R) -> (Z -> R).
Variable save : W -> W.
Variable o : dopts Rnum.
Hypothesis Hsafe : 0 < (d_safe o : R) < 1.
Hypothesis Hnit : (1 <= d_nit o)%Z.
Hypothesis Hq1 : (d_quot1 o : R) = 1.
Variable PW : W -> Prop.
Notation btw := (between s x0 xend).
Hypothesis Pjac : forall w x Y, PW w -> btw x -> pc (jacob w x Y) PW.
Hypothesis Pmats : forall w h, PW w -> pc (mats w h) PW.
Hypothesis Peval : forall w x Y, PW w -> btw x -> PW (evalF w x Y).
Hypothesis Pscal : forall w Y, PW w -> PW (doscal w Y).
Hypothesis Psave : forall w, PW w -> PW (save w).
Hypothesis Pest : forall w x h Y f r, PW w -> btw x -> pc (estrad w x h Y f r) (fun p => PW (fst p)).
(* what the Newton iteration does with the step size *)
Hypothesis Pnew : forall w z x h hold Y, PW w -> btw x -> btw (x + h) -> 0 < s * h ->
  pc (newton w z x h hold Y) (fun p => PW (fst p) /\ (0 <= nr_newt (snd p))%Z /\
    match nr_reason (snd p) with
    | willNotConverge => s * h / 10 <= s * nr_h (snd p) <= 4 / 5 * (s * h)
    | _ => nr_h (snd p) = h
    end).

Notation dst := (@dst Rnum W).
Notation pass_ := (@d_newton Rnum W jacob mats doscal newton).
Notation control := (@d_control Rnum W jacob mats evalF doscal estrad adv save o xend s hmaxn).
Notation loop := (@d_loop Rnum W jacob mats evalF doscal newton estrad adv save o xend s hmaxn).

Definition tent (x h : R) : pass Rnum := @mkPass Rnum x h converged h None.
Definition JI (st : dst) : Prop :=
  PW (q_w st) /\ btw (q_x st) /\ d_good (tent (q_x st) (q_h st) :: q_hist st) /\
  s * q_h st <= 10001 / 10000 * hmaxn /\
  (q_last st = true -> q_h st = xend - q_x st \/ dnc (q_hist st)) /\
  (q_last st = false -> s * q_h st < s * (xend - q_x st)) /\
  (q_redo st = false -> cvg (q_hist st)).
Definition MI (st : dst) : Prop :=
  PW (q_w st) /\ btw (q_x st) /\ d_good (q_hist st) /\ (0 <= q_newt st)%Z /\
  exists p l, q_hist st = p :: l /\ g_x p = q_x st /\ g_test p = None /\ g_h2 p = q_h st /\
    s * g_h p / 2 <= s * q_h st <= s * g_h p /\ s * g_h p <= 10001 / 10000 * hmaxn /\
    (q_last st = true -> g_h p = xend - q_x st \/ dnc (q_hist st)) /\
    (q_last st = false -> s * g_h p < s * (xend - q_x st)) /\
    match g_reason p with
    | converged => q_h st = g_h p
    | willNotConverge => False
    | didNotConverge => cvg l
    end.

Lemma refresh_P b w x h Y nj : PW w -> btw x -> pc (@d_refresh Rnum W jacob mats b w x h Y nj) (fun r => PW (fst r)).
Proof.
  intros Hw Hb. unfold d_refresh. apply pc_bind.
  apply (pc_mono _ (fun r : W * Z => PW (fst r))).
  - destruct b; [exact Hw|]. apply pc_bind. eapply pc_mono; [apply Pjac; assumption|]. intros w' Hw'. exact Hw'.
  - intros [w' nj'] Hw'. cbn [fst] in Hw'. apply pc_bind. eapply pc_mono; [apply Pmats; exact Hw'|]. intros w2 H2. exact H2.
Qed.
Lemma good_tent x h a r h2 t l : d_good (tent x h :: l) -> g_x a = x -> g_h a = h -> g_reason a = r -> g_h2 a = h2 -> g_test a = t -> d_good (a :: l).
Proof. intros H <- <- _ _ _. exact H. Qed.
Lemma dnc_cons p l : dnc l -> dnc (p :: l).
Proof. intros (q & H & E). exists q. split; [right; exact H|exact E]. Qed.
Lemma cvg_cons p l : cvg l -> cvg (p :: l).
Proof. intros (q & H & E). exists q. split; [right; exact H|exact E]. Qed.

Lemma pass_real st : JI st -> pc (pass_ st) (fun st' => if q_redo st' then JI st' else MI st').
Proof.
  intros (HP & Hb & Hg & Hm & Hl1 & Hl2 & Hc).
  pose proof Hg as (Hg' & Hh & Hprev). cbn [g_h g_x tent] in Hh, Hprev.
  assert (Hbh : btw (q_x st + q_h st)). { destruct Hb. split; lra. }
  unfold d_newton. pose proof (Pnew (q_w st) (q_first st) (q_x st) (q_h st) (q_hold st) (q_Y st) HP Hb Hbh (proj1 Hh)) as Hn.
  destruct (newton _ _ _ _ _ _) as [[w r]| | |]; cbn [bind]; try exact I.
  cbn [pc fst snd] in Hn. destruct Hn as (Hw & Hnt & Hr).
  destruct (nr_reason r) eqn:Er.
  - (* converged *)
    cbn [pc q_redo]. unfold MI. cbn [q_w q_x q_hist q_newt q_h q_last].
    split; [exact Hw|]. split; [exact Hb|]. split; [exact Hg|]. split; [exact Hnt|].
    eexists. exists (q_hist st). split; [reflexivity|]. cbn [g_x g_test g_h2 g_h g_reason].
    split; [reflexivity|]. split; [reflexivity|]. split; [reflexivity|]. split; [lra|]. split; [exact Hm|].
    split; [|split; [exact Hl2|reflexivity]].
    intros E. destruct (Hl1 E) as [H|H]; [left; exact H|right; apply dnc_cons; exact H].
  - (* will not converge *)
    pose proof (refresh_P (q_caljac st) w (q_x st) (nr_h r) (q_Y st) (q_njac st) Hw Hb) as Hf.
    destruct (d_refresh _ _ _ _ _ _ _ _) as [[w' nj]| | |]; cbn [bind]; try exact I. cbn [pc fst] in Hf.
    cbn [pc q_redo]. unfold JI. cbn [q_w q_x q_hist q_h q_last q_redo].
    split; [apply Pscal; exact Hf|]. split; [exact Hb|]. split.
    { change (car Rnum) with R in *. cbn [d_good]. cbn [tent g_h g_x].
      split; [exact Hg|]. split; [lra|].
      unfold tried, is_acc. cbn [g_test g_x g_h]. split; [reflexivity|]. split; [lra|]. split; [left; lra|]. intros _. lra. }
    split; [lra|]. split; [discriminate|]. split; [intros _; lra|discriminate].
  - (* did not converge *)
    pose proof (refresh_P (q_caljac st) w (q_x st) (@nmul Rnum (nr_h r) (nlit 5 (-1))) (q_Y st) (q_njac st) Hw Hb) as Hf.
    destruct (d_refresh _ _ _ _ _ _ _ _) as [[w' nj]| | |]; cbn [bind]; try exact I. cbn [pc fst] in Hf.
    cbn [pc q_redo].
    assert (Eh : @nmul Rnum (nr_h r) (nlit 5 (-1)) = q_h st / 2).
    { rewrite Hr. rlit. lra. }
    assert (Hd : forall p, g_reason p = didNotConverge -> dnc (p :: q_hist st)).
    { intros p E. exists p. split; [left; reflexivity|exact E]. }
    destruct (q_redo st) eqn:Eredo.
    + unfold JI. cbn [q_w q_x q_hist q_h q_last q_redo]. rewrite Eh.
      split; [apply Pscal; exact Hf|]. split; [exact Hb|]. split.
      { cbn [d_good]. cbn [tent g_h g_x].
        split; [exact Hg|]. split; [lra|].
        unfold tried, is_acc. cbn [g_test g_x g_h]. split; [reflexivity|]. split; [lra|]. split; [left; lra|]. intros _. lra. }
      split; [lra|]. split; [intros _; right; apply Hd; reflexivity|]. split; [intros _; lra|discriminate].
    + unfold MI. cbn [q_w q_x q_hist q_newt q_h q_last]. rewrite Eh.
      split; [apply Pscal; exact Hf|]. split; [exact Hb|]. split; [exact Hg|]. split; [lia|].
      eexists. exists (q_hist st). split; [reflexivity|]. cbn [g_x g_test g_h2 g_h g_reason].
      split; [reflexivity|]. split; [reflexivity|]. split; [reflexivity|]. split; [lra|]. split; [exact Hm|].
      split; [|split; [exact Hl2|apply Hc; reflexivity]]. intros _. right. apply Hd. reflexivity.
Qed.

(* on leaving *)
Definition near (x : R) : Prop := 1 / 10 * (if Rle_dec 0 (xend - x) then xend - x else - xend - x) <= Rabs x * (1 / 10 ^ 16).
Definition QI (st : dst) : Prop :=
  PW (q_w st) /\ btw (q_x st) /\ d_good (q_hist st) /\
  (d_onestep o = false -> q_x st = d_reached (q_hist st) /\ (q_x st = xend \/ near (q_x st) \/ dnc (q_hist st))).

Lemma mark_good b p l : d_good (p :: l) -> d_good (mark b (p :: l)).
Proof. exact (fun H => H). Qed.
Lemma mark_dnc b p l : dnc (p :: l) -> dnc (mark b (p :: l)).
Proof.
  intros (q & [<-|H] & E).
  - eexists. split; [left; reflexivity|]. exact E.
  - exists q. split; [right; exact H|exact E].
Qed.
Lemma mark_cvg b p l : cvg (p :: l) -> cvg (mark b (p :: l)).
Proof.
  intros (q & [<-|H] & E).
  - eexists. split; [left; reflexivity|]. exact E.
  - exists q. split; [right; exact H|exact E].
Qed.

Lemma control_real st : MI st -> pc (control st (d_xph st)) (fun r => if snd r then QI (fst r) else JI (fst r)).
Proof.
  intros (HP & Hb & Hg & Hnt & p & l & Ep & Egx & Egt & Eg2 & Hhp & Hhm & Hl1 & Hl2 & Hreason).
  assert (Hgp : 0 < s * g_h p <= s * (xend - q_x st)).
  { rewrite Ep in Hg. destruct Hg as (_ & H & _). rewrite Egx in H. exact H. }
  assert (Hcv : cvg (q_hist st)).
  { rewrite Ep. destruct (g_reason p) eqn:E; [|contradiction|apply cvg_cons; exact Hreason].
    exists p. split; [left; reflexivity|exact E]. }
  assert (Exph : d_xph st = q_x st + g_h p) by (unfold d_xph; rewrite Ep, Egx; reflexivity).
  rewrite Exph. unfold d_control.
  pose proof (Pest (q_w st) (q_x st) (q_h st) (q_Y st) (q_first st) (q_reject st) HP Hb) as He.
  destruct (estrad _ _ _ _ _ _) as [[w err]| | |]; cbn [bind]; try exact I. cbn [pc fst] in He. cbv zeta.
  match goal with |- context [@ndiv Rnum (q_h st) (mMAX d_FACR (mMIN d_FACL ?z))] =>
    pose proof (clamp8 z) as Hq; set (quot := mMAX d_FACR (mMIN d_FACL z) : R) in * end.
  assert (Hhpos : 0 < s * q_h st) by lra.
  set (xn := q_x st + g_h p) in *. change (car Rnum) with R in *.
  assert (Hbn : btw xn). { unfold xn. destruct Hb. split; lra. }
  assert (Hrem : s * (xend - xn) = s * (xend - q_x st) - s * g_h p) by (unfold xn; ring).
  assert (Hreach : forall b, d_reached (mark b (q_hist st)) = if b then xn else q_x st).
  { intros b. rewrite Ep. unfold mark, d_reached, tried, is_acc. cbn [g_test g_x g_h]. rewrite Egx. destruct b; reflexivity. }
  assert (Hmg : forall b, d_good (mark b (q_hist st))) by (intros b; rewrite Ep in *; apply mark_good; exact Hg).
  destruct (@nltb Rnum err (nlit 1 0)) eqn:Ee; [destruct (d_onestep o) eqn:Eo|].
  - (* one-step mode *)
    cbn [pc fst snd]. unfold QI. cbn [q_w q_x q_hist]. rewrite Eo.
    split; [exact He|]. split; [exact Hb|]. split; [apply Hmg|discriminate].
  - (* accepted *)
    match goal with |- context [@nmul Rnum s (mMIN (mABS ?z) hmaxn)] => set (hn := z : R) in * end.
    assert (Hhn : (s * q_h st) / 5 <= s * hn <= 8 * (s * q_h st)).
    { unfold hn. destruct (d_gust o && _)%bool; cbn [ndiv Rnum]; rewrite s_mult; apply div8; try assumption.
      rewrite mMAX_R.
      match goal with |- context [Rmax quot (mMAX d_FACR (mMIN d_FACL ?z))] => pose proof (clamp8 z) end.
      split; [eapply Rle_trans; [|apply Rmax_l]; lra|apply Rmax_lub; lra]. }
    match goal with |- context [if q_last st || ?t then _ else _] => set (test := t) in * end.
    assert (Htest : test = true -> near xn).
    { unfold test, near. rewrite mABS_diff_R, mABS_R. unfold rd_uround. cbn [nleb nmul nlit nadd Rnum].
      unfold Rleb. destruct (Rle_dec _ _) as [H|H]; [|discriminate]. intros _.
      change (nadd (q_x st) (g_h p)) with xn in H. rlit. replace (1 / 10 ^ 16) with (1 / 10000000000000000) by lra. lra. }
    assert (Hdone : q_last st = true -> xn = xend \/ dnc (mark true (q_hist st))).
    { intros E. destruct (Hl1 E) as [H|H]; [left; unfold xn; rewrite H; ring|right].
      rewrite Ep in *. apply mark_dnc. exact H. }
    destruct (q_last st) eqn:El; cbn [orb].
    { cbn [pc fst snd]. unfold QI. cbn [q_w q_x q_hist].
      split; [apply Pscal, Psave; exact He|]. split; [exact Hbn|]. split; [apply Hmg|]. intros _.
      split; [symmetry; apply Hreach|]. destruct (Hdone eq_refl) as [H|H]; [left; exact H|right; right; exact H]. }
    specialize (Hl2 eq_refl).
    destruct test.
    { cbn [pc fst snd]. unfold QI. cbn [q_w q_x q_hist].
      split; [apply Pscal, Psave; exact He|]. split; [exact Hbn|]. split; [apply Hmg|]. intros _.
      split; [symmetry; apply Hreach|]. right; left. apply Htest. reflexivity. }
    clear Htest Hdone.
    match goal with |- context [evalF ?a ?b ?c] => set (we := evalF a b c);
      assert (Hwe : PW we) by (apply Peval; [apply Pscal, Psave; exact He|exact Hbn]) end.
    set (hc := @nmul Rnum s (mMIN (mABS hn) hmaxn) : R) in *.
    assert (Hhc : (s * q_h st) / 5 <= s * hc <= 8 * (s * q_h st) /\ s * hc <= hmaxn).
    { unfold hc. rewrite mABS_R, mMIN_R. cbn [nmul Rnum]. rewrite (s_abs_pos s Hs) by lra.
      replace (s * (s * Rmin (s * hn) hmaxn)) with (s * s * Rmin (s * hn) hmaxn) by ring. rewrite s_sq, Rmult_1_l by exact Hs.
      pose proof (Rmin_l (s * hn) hmaxn). pose proof (Rmin_r (s * hn) hmaxn). split; [split|]; try lra. apply Rmin_glb; lra. }
    match goal with |- context [@ndiv Rnum ?z (d_quot1 o)] => set (hr := z : R) in * end.
    assert (Hhr : (s * q_h st) / 5 <= s * hr <= 8 * (s * q_h st) /\ s * hr <= hmaxn).
    { unfold hr. destruct (q_reject st); [|exact Hhc]. rewrite !mABS_R, mMIN_R. cbn [nmul Rnum].
      rewrite !(s_abs_pos s Hs) by lra.
      replace (s * (s * Rmin (s * hc) (s * q_h st))) with (s * s * Rmin (s * hc) (s * q_h st)) by ring. rewrite s_sq, Rmult_1_l by exact Hs.
      pose proof (Rmin_l (s * hc) (s * q_h st)). pose proof (Rmin_r (s * hc) (s * q_h st)). split; [split|]; try lra. apply Rmin_glb; lra. }
    assert (Hnext : forall h', s * h' <= 8 * (s * q_h st) -> 0 < s * h' <= s * (xend - xn) ->
              (s * q_h st / 5 <= s * h' \/ h' = xend - xn) -> d_good (tent xn h' :: mark true (q_hist st))).
    { intros h' A1 A2 A3. rewrite Ep. cbn [mark d_good tent g_x g_h]. split; [rewrite Ep in Hg; exact Hg|].
      split; [exact A2|]. unfold tried, is_acc. cbn [g_x g_h g_test]. split; [rewrite Egx; reflexivity|].
      split; [lra|]. split; [|discriminate]. destruct A3 as [A3|A3]; [left; lra|right; exact A3]. }
    assert (Hcm : cvg (mark true (q_hist st))) by (rewrite Ep in *; apply mark_cvg; exact Hcv).
    match goal with |- context [@nleb Rnum (nlit 0 0) ?t] => set (t0 := t : R) in * end.
    assert (Et0 : t0 = s * hr - s * (xend - xn)).
    { unfold t0. cbn [nmul nsub nadd ndiv Rnum]. rewrite Hq1. unfold xn. field. }
    cbn [nleb nlit Rnum]. rewrite Rlit_0.
    destruct (Rleb_spec 0 t0) as [Ht|Ht].
    + match goal with |- context [d_refresh _ _ ?b ?w ?x ?h ?Y ?nj] =>
        pose proof (refresh_P b w x h Y nj Hwe Hbn) as Hf;
        destruct (d_refresh _ _ b w x h Y nj) as [[w' nj']| | |] end; cbn [bind]; try exact I.
      cbn [pc fst] in Hf. cbn [pc fst snd]. unfold JI. cbn [q_w q_x q_hist q_h q_last q_redo nsub Rnum nadd].
      fold xn. split; [exact Hf|]. split; [exact Hbn|]. split; [apply Hnext; [lra|lra|right; reflexivity]|].
      split; [lra|]. split; [intros _; left; reflexivity|]. split; [discriminate|intros _; exact Hcm].
    + match goal with |- context [if ?t then Ok _ else _] => destruct t eqn:Ekeep end.
      * cbn [pc fst snd]. unfold JI. cbn [q_w q_x q_hist q_h q_last q_redo].
        assert (Hle : s * q_h st <= s * hr).
        { apply andb_prop in Ekeep. destruct Ekeep as [Ek _]. apply andb_prop in Ek. destruct Ek as [_ Ek].
          cbn [nleb ndiv Rnum] in Ek. rewrite Hq1 in Ek. destruct (Rleb_spec 1 (hr / q_h st)) as [H|H]; [|discriminate].
          assert (E : s * hr = (hr / q_h st) * (s * q_h st)).
          { field. intros E0. rewrite E0 in Hhpos. lra. }
          rewrite E. nra. }
        split; [exact Hwe|]. split; [exact Hbn|]. split; [apply Hnext; [lra|lra|left; lra]|].
        split; [lra|]. split; [discriminate|]. split; [intros _; lra|intros _; exact Hcm].
      * match goal with |- context [d_refresh _ _ ?b ?w ?x ?h ?Y ?nj] =>
          pose proof (refresh_P b w x h Y nj Hwe Hbn) as Hf;
          destruct (d_refresh _ _ b w x h Y nj) as [[w' nj']| | |] end; cbn [bind]; try exact I.
        cbn [pc fst] in Hf. cbn [pc fst snd]. unfold JI. cbn [q_w q_x q_hist q_h q_last q_redo].
        split; [exact Hf|]. split; [exact Hbn|]. split; [apply Hnext; [lra|lra|left; lra]|].
        split; [lra|]. split; [discriminate|]. split; [intros _; lra|intros _; exact Hcm].
  - (* rejected *)
    assert (Hge : 1 <= err).
    { cbn [nltb nlit Rnum] in Ee. rewrite Rlit_0 in Ee. destruct (Rltb_spec err 1); [discriminate|lra]. }
    assert (Hqr : 1 < quot) by (apply clamp_reject; assumption).
    match goal with |- context [d_refresh _ _ ?b ?w ?x ?h ?Y ?nj] =>
      pose proof (refresh_P b w x h Y nj He Hb) as Hf; set (hr := h : R) in *;
      destruct (d_refresh _ _ b w x hr Y nj) as [[w' nj']| | |] end; cbn [bind]; try exact I.
    assert (Hhr : s * q_h st / 10 <= s * hr < s * q_h st /\ (hr = q_h st / 10 \/ s * q_h st / 5 <= s * hr)).
    { unfold hr. destruct (q_first st).
      - cbn [nmul nlit Rnum]. rlit. replace (s * (q_h st * (1 / 10))) with (s * q_h st / 10) by field. split; [lra|left; field].
      - cbn [ndiv Rnum]. rewrite s_mult. pose proof (div8 (s * q_h st) quot Hhpos Hq). pose proof (div_gt1 (s * q_h st) quot Hhpos Hqr). lra. }
    cbn [pc fst] in Hf. cbn [pc fst snd]. unfold JI. cbn [q_w q_x q_hist q_h q_last q_redo].
    split; [exact Hf|]. split; [exact Hb|]. split.
    { rewrite Ep. cbn [mark d_good tent g_x g_h]. split; [rewrite Ep in Hg; exact Hg|]. split; [lra|].
      unfold tried, is_acc. cbn [g_x g_h g_test]. split; [symmetry; exact Egx|]. split; [lra|].
      assert (Hlow : s * g_h p / 20 <= s * hr) by lra. split; [left; lra|]. intros _. lra. }
    split; [lra|]. split; [discriminate|]. split; [intros _; lra|].
    intros _. rewrite Ep in *. apply mark_cvg. exact Hcv.
Qed.
End Dir.
