(* The driver theorems of RadauReal.v for complete calls, with the step computations of
   RadauModel.v; termination; what is accepted. *)
From Coq Require Import Reals Lra Psatz.
From Verif Require Import Base HessModel CMacros VecFun JacModel RodasModel RodasProofs RodasReal RodasTop RadauModel RadauProofs RadauReal.
Open Scope R_scope.

(* ---- what is accepted, for every arithmetic --------------------------------------------- *)
Section Acc.
Context {K : num}.
Variable W : Type.
Variable jacob : W -> K -> vec K -> out W.
Variable mats : W -> K -> out W.
Variable evalF : W -> K -> vec K -> W.
Variable doscal : W -> vec K -> W.
Variable newton : W -> bool -> K -> K -> K -> vec K -> out (W * nres K).
Variable estrad : W -> K -> K -> vec K -> bool -> bool -> out (W * K).
Variable adv : W -> vec K -> vec K.
Variable save : W -> W.
Variable o : dopts K.
Definition has (r : reason) (l : list (pass K)) : Prop := exists p, In p l /\ g_reason p = r.
(* every accepted pass converged with the step size that was then tested, or is a pass that
   did not converge, after an earlier one that did *)
Fixpoint acc_ok (l : list (pass K)) : Prop :=
  match l with
  | nil => True
  | p :: l' => acc_ok l' /\ (is_acc p = true ->
      g_reason p = converged /\ g_h2 p = g_h p \/ g_reason p = didNotConverge /\ has converged l')
  end.
Definition AJ (st : @dst K W) : Prop := acc_ok (q_hist st) /\ (q_redo st = false -> has converged (q_hist st)).
Definition AM (st : @dst K W) : Prop := exists p l, q_hist st = p :: l /\ acc_ok l /\
  (g_reason p = converged /\ g_h2 p = g_h p \/ g_reason p = didNotConverge /\ has converged l).
Lemma has_cons r p l : has r l -> has r (p :: l).
Proof. intros (q & H & E). exists q. split; [right; exact H|exact E]. Qed.
Lemma acc_lemma fuel ifuel w h x xend Y a b c d e :
  pc (radau jacob mats evalF doscal newton estrad adv save o fuel ifuel w h x xend Y a b c d e) (fun st => acc_ok (q_hist st)).
Proof.
  unfold radau. cbv zeta. apply pc_bind. destruct (jacob _ _ _) as [w1| | |]; cbn [pc]; try exact I.
  apply pc_bind. destruct (mats _ _) as [w2| | |]; cbn [pc]; try exact I.
  apply (loop_rule W jacob mats evalF doscal newton estrad adv save o xend _ _ AJ AM).
  - intros st (H1 & H2). eapply pc_mono; [apply pass_keeps|].
    intros st' (_ & _ & _ & _ & _ & _ & _ & _ & p & E & _ & Eh & Eh2 & Et & Hr). cbv beta.
    assert (Ha : acc_ok (q_hist st')).
    { rewrite E. split; [exact H1|]. unfold is_acc. rewrite Et. discriminate. }
    destruct (g_reason p) eqn:Er.
    + destruct Hr as (-> & Hh & _). exists p, (q_hist st). split; [exact E|]. split; [exact H1|]. left.
      split; [exact Er|]. rewrite Eh, Eh2. exact Hh.
    + destruct Hr as (E0 & _). rewrite E0. split; [exact Ha|rewrite E0; discriminate].
    + destruct Hr as (E0 & _). rewrite E0. destruct (q_redo st) eqn:Eq; [split; [exact Ha|rewrite E0; discriminate]|].
      exists p, (q_hist st). split; [exact E|]. split; [exact H1|]. right. split; [exact Er|]. apply H2. reflexivity.
  - intros st (p & l & E & Hl & Hp).
    assert (Hm : forall b0, acc_ok (mark b0 (q_hist st))).
    { intros b0. rewrite E. split; [exact Hl|]. intros _. exact Hp. }
    assert (Hc : forall b0, has converged (mark b0 (q_hist st))).
    { intros b0. rewrite E. destruct Hp as [[Hp _]|[_ Hp]]; [|apply has_cons; exact Hp].
      eexists. split; [left; reflexivity|exact Hp]. }
    assert (HJ : forall b0 st', q_hist st' = mark b0 (q_hist st) -> AJ st').
    { intros b0 st' E'. split; rewrite E'; auto. }
    unfold d_control. destruct (estrad _ _ _ _ _ _) as [[w' err]| | |]; cbn [bind]; try exact I. cbv zeta.
    destruct (err <? nlit 1 0)%num; [destruct (d_onestep o)|].
    + cbn [pc fst snd q_hist]. auto.
    + destruct (_ || _)%bool; [|destruct (nlit 0 0 <=? _)%num; [|destruct (_ && _ && _)%bool]].
      1: cbn [pc fst snd q_hist]; auto.
      2: cbn [pc fst snd]; apply (HJ true); reflexivity.
      all: destruct (d_refresh _ _ _ _ _ _ _ _) as [[w'' nj]| | |]; cbn [bind pc fst snd]; try exact I;
        apply (HJ true); reflexivity.
    + destruct (d_refresh _ _ _ _ _ _ _ _) as [[w'' nj]| | |]; cbn [bind pc fst snd]; try exact I.
      apply (HJ false); reflexivity.
  - split; cbn; [exact I|discriminate].
Qed.

(* statistics of a complete call *)
Lemma stat_lemma fuel ifuel w h x xend Y a b c d e :
  pc (radau jacob mats evalF doscal newton estrad adv save o fuel ifuel w h x xend Y a b c d e) (fun st =>
    (q_nstep st = d_all (q_hist st) /\ q_naccpt st + (if d_onestep o then 1 else 0) = d_acc (q_hist st) /\
    q_nrejct st = counted_rej (q_hist st) /\ q_naccpt st + q_nrejct st <= q_nstep st)%Z).
Proof.
  unfold radau. cbv zeta. apply pc_bind. destruct (jacob _ _ _) as [w1| | |]; cbn [pc]; try exact I.
  apply pc_bind. destruct (mats _ _) as [w2| | |]; cbn [pc]; try exact I.
  eapply pc_mono; [apply stat_loop; repeat split; reflexivity|].
  intros st (H1 & H2 & H3). split; [exact H1|]. split; [exact H2|]. split; [exact H3|].
  rewrite H1, H3. pose proof (acc_rej_all (q_hist st)). pose proof (counted_le (q_hist st)). destruct (d_onestep o); lia.
Qed.
(* in one-step mode the abscissa never moves *)
Lemma onestep_x fuel ifuel w h x xend Y a b c d e : d_onestep o = true ->
  pc (radau jacob mats evalF doscal newton estrad adv save o fuel ifuel w h x xend Y a b c d e) (fun st =>
    q_x st = x /\ q_naccpt st = 0%Z /\ exists w', q_Y st = adv w' Y).
Proof.
  intros Ho. unfold radau. cbv zeta. apply pc_bind. destruct (jacob _ _ _) as [w1| | |]; cbn [pc]; try exact I.
  apply pc_bind. destruct (mats _ _) as [w2| | |]; cbn [pc]; try exact I.
  set (P := fun st : @dst K W => q_x st = x /\ q_Y st = Y /\ q_naccpt st = 0%Z).
  apply (loop_rule W jacob mats evalF doscal newton estrad adv save o xend _ _ P P).
  - intros st (H1 & H2 & H3). eapply pc_mono; [apply pass_keeps|].
    intros st' (E1 & E2 & _ & E3 & _). cbv beta. assert (P st') by (unfold P; rewrite E1, E2, E3; auto). destruct (q_redo st'); assumption.
  - intros st (H1 & H2 & H3). unfold d_control. destruct (estrad _ _ _ _ _ _) as [[w' err]| | |]; cbn [bind]; try exact I. cbv zeta.
    rewrite Ho. destruct (err <? nlit 1 0)%num.
    + cbn [pc fst snd q_x q_Y q_naccpt]. rewrite H1, H2, H3. repeat split. exists w'. reflexivity.
    + destruct (d_refresh _ _ _ _ _ _ _ _) as [[w'' nj]| | |]; cbn [bind pc fst snd]; try exact I.
      unfold P. cbn. auto.
  - unfold P. cbn. auto.
Qed.
(* setFacrFacl has no effect *)
Lemma facr_lemma (o' : dopts K) r l fuel ifuel w h x xend Y a b c d e :
  radau jacob mats evalF doscal newton estrad adv save (set_FacrFacl o' r l) fuel ifuel w h x xend Y a b c d e =
  radau jacob mats evalF doscal newton estrad adv save o' fuel ifuel w h x xend Y a b c d e.
Proof.
  reflexivity.
Qed.
End Acc.

(* ---- complete calls over the reals ---------------------------------------------------------- *)
Section Top.
Variables x0 xend s : R.
Hypothesis Hu : usable x0 xend s.
Variable W : Type.
Variable jacob : W -> R -> (Z -> R) -> out W.
Variable mats : W -> R -> out W.
Variable evalF : W -> R -> (Z -> R) -> W.
Variable doscal : W -> (Z -> R) -> W.
Variable newton : W -> bool -> R -> R -> R -> (Z -> R) -> out (W * nres Rnum).
Variable estrad : W -> R -> R -> (Z -> R) -> bool -> bool -> out (W * R).
Variable adv : W -> (Z -> R) -> (Z -> R).
Variable save : W -> W.
Variable o : dopts Rnum.
Hypothesis Hsafe : 0 < (d_safe o : R) < 1.
Hypothesis Hnit : (1 <= d_nit o)%Z.
Hypothesis Hq1 : (d_quot1 o : R) = 1.
Variable PW : W -> Prop.
Notation btw := (between s x0 xend).
Hypothesis Pjac : forall w x Y, PW w -> btw x -> pc (jacob w x Y) PW.
Hypothesis Pmats : forall w h, PW w -> pc (mats w h) PW.
Hypothesis Peval : forall w x Y, PW w -> btw x -> PW (evalF w x Y).
Hypothesis Pscal : forall w Y, PW w -> PW (doscal w Y).
Hypothesis Psave : forall w, PW w -> PW (save w).
Hypothesis Pest : forall w x h Y f r, PW w -> btw x -> pc (estrad w x h Y f r) (fun p => PW (fst p)).
Hypothesis Pnew : forall w z x h hold Y, PW w -> btw x -> btw (x + h) -> 0 < s * h ->
  pc (newton w z x h hold Y) (fun p => PW (fst p) /\ (0 <= nr_newt (snd p))%Z /\
    match nr_reason (snd p) with
    | willNotConverge => s * h / 10 <= s * nr_h (snd p) <= 4 / 5 * (s * h)
    | _ => nr_h (snd p) = h
    end).
Notation rad := (@radau Rnum W jacob mats evalF doscal newton estrad adv save o).
Notation lim := (limit x0 xend).
Notation J := (JI s x0 xend lim W PW).
Notation M := (MI s x0 xend lim W PW).

(* the state before the first Newton pass *)
Lemma start_form w h0 Y a b c d e : exists (hq : R) (init : W -> @dst Rnum W),
  (forall w2, PW w2 -> J (init w2) /\ q_nstep (init w2) = 0%Z) /\
  forall fuel ifuel, rad fuel ifuel w h0 x0 xend Y a b c d e =
    (w1 <- jacob (evalF w x0 Y) x0 Y ;; w2 <- mats w1 hq ;;
     @d_loop Rnum W jacob mats evalF doscal newton estrad adv save o xend s lim fuel ifuel (init w2)).
Proof.
  destruct (setup x0 xend s Hu) as (Hs & E1 & E2 & Hl & Hx).
  change (@r_posneg Rnum x0 xend) with (@d_posneg Rnum x0 xend) in E1.
  change (@r_hmaxn Rnum x0 xend) with (@d_hmaxn Rnum x0 xend) in E2.
  assert (Hb0 : btw x0). { unfold between. lra. }
  unfold radau. cbv zeta. rewrite E1, E2.
  match goal with |- context [@nltb Rnum n0 ?t] => set (t0 := t : R) end.
  match goal with |- context [@nmul Rnum (@mMIN Rnum (mABS ?t) lim) s] => set (h1 := t : R) in * end.
  assert (Hh1 : 0 < Rabs h1).
  { unfold h1. cbn [nltb nmul nlit Rnum]. rewrite mABS_R. unfold rd_uround. rlit.
    match goal with |- context [Rltb ?u ?v] => destruct (Rltb_spec u v) end; [rewrite Rabs_right; lra|lra]. }
  assert (Eh : @nmul Rnum (mMIN (mABS h1) lim) s = s * Rmin (Rabs h1) lim).
  { rewrite mABS_R, mMIN_R. apply Rmult_comm. }
  set (hq := s * Rmin (Rabs h1) lim) in *.
  assert (Hhq : 0 < s * hq <= lim).
  { unfold hq. rewrite <- Rmult_assoc, (s_sq s Hs), Rmult_1_l. split; [apply Rmin_glb_lt; lra|apply Rmin_r]. }
  assert (Et0 : t0 = 10001 / 10000 * (s * hq) - s * (xend - x0)).
  { unfold t0. rewrite Eh. clear - hq. cbn [nmul nsub nadd nlit Rnum]. rlit.
    change ((x0 + hq * (10001 / 10000) - xend) * s = 10001 / 10000 * (s * hq) - s * (xend - x0)). ring. }
  assert (Elt : forall u, @nltb Rnum n0 u = Rltb 0 u) by (intros u; unfold n0; cbn [nltb nlit Rnum]; rewrite Rlit_0; reflexivity).
  rewrite Elt. clearbody t0. rewrite Eh.
  exists (if Rltb 0 t0 then xend - x0 else hq).
  exists (fun w2 => @mkDst Rnum W x0 (if Rltb 0 t0 then xend - x0 else hq) Y (doscal w2 Y) (Rltb 0 t0) false true true true
     0 0 1 0 1 0 hq (if Rltb 0 t0 then e else if Rltb 0 t0 then xend - x0 else hq) a b c d nil).
  split; [|reflexivity]. intros w2 Hw2. split; [|reflexivity].
  unfold JI. cbn [q_w q_x q_h q_hist q_last q_redo].
  split; [apply Pscal; exact Hw2|]. split; [exact Hb0|].
  destruct (Rltb_spec 0 t0) as [Ht|Ht]; cbn [nsub Rnum].
  - split; [cbn [d_good tent g_x g_h]; split; [exact I|split; [lra|reflexivity]]|].
    split; [lra|]. split; [intros _; left; reflexivity|]. split; discriminate.
  - split; [cbn [d_good tent g_x g_h]; split; [exact I|split; [lra|reflexivity]]|].
    split; [lra|]. split; [discriminate|]. split; [intros _; lra|discriminate].
Qed.
Lemma radau_real fuel ifuel w h0 Y a b c d e : PW w ->
  pc (rad fuel ifuel w h0 x0 xend Y a b c d e) (QI s x0 xend W o PW).
Proof.
  intros Hw. destruct (setup x0 xend s Hu) as (Hs & E1 & E2 & Hl & Hx).
  assert (Hb0 : btw x0) by (unfold between; lra).
  destruct (start_form w h0 Y a b c d e) as (hq & init & Hi & E). rewrite E.
  apply pc_bind. eapply pc_mono; [apply Pjac; [apply Peval; assumption|exact Hb0]|]. intros w1 Hw1.
  apply pc_bind. eapply pc_mono; [apply Pmats; exact Hw1|]. intros w2 Hw2. destruct (Hi w2 Hw2) as [HJ _].
  apply (@loop_rule Rnum W jacob mats evalF doscal newton estrad adv save o xend s lim J M).
  - intros st0 H0. apply (pass_real s x0 xend lim (proj1 Hl) W jacob mats doscal newton PW Pjac Pmats Pscal Pnew st0 H0).
  - intros st0 H0. apply (control_real s Hs x0 xend lim (proj1 Hl) W jacob mats evalF doscal estrad adv save o Hsafe Hnit Hq1 PW
      Pjac Pmats Peval Pscal Psave Pest st0 H0).
  - exact HJ.
Qed.

(* termination *)
Variable hmin : R.
Hypothesis Hmin : 0 < hmin.
Hypothesis Hcv : forall w z x h hold Y, Rabs h <= hmin -> pc (newton w z x h hold Y) (fun p => nr_reason (snd p) = converged).
Hypothesis Dn : forall w z x h hold Y, newton w z x h hold Y <> Diverge.
Hypothesis Dj : forall w x Y, jacob w x Y <> Diverge.
Hypothesis Dm : forall w h, mats w h <> Diverge.
Hypothesis De : forall w x h Y f r, estrad w x h Y f r <> Diverge.
Notation redo := (@d_redo Rnum W jacob mats doscal newton).
Notation pass_ := (@d_newton Rnum W jacob mats doscal newton).
Notation control := (@d_control Rnum W jacob mats evalF doscal estrad adv save o xend s lim).
Notation loop := (@d_loop Rnum W jacob mats evalF doscal newton estrad adv save o xend s lim).
Lemma refresh_nd b w x h Y nj : @d_refresh Rnum W jacob mats b w x h Y nj <> Diverge.
Proof.
  unfold d_refresh. destruct b; cbn [bind].
  - pose proof (Dm w h). destruct (mats w h); cbn; congruence.
  - pose proof (Dj w x Y). destruct (jacob w x Y); cbn [bind]; try congruence. pose proof (Dm a h). destruct (mats a h); cbn; congruence.
Qed.
Lemma pass_nd st : pass_ st <> Diverge.
Proof.
  unfold d_newton. pose proof (Dn (q_w st) (q_first st) (q_x st) (q_h st) (q_hold st) (q_Y st)) as H.
  destruct (newton _ _ _ _ _ _) as [[w r]| | |]; cbn [bind]; try congruence.
  destruct (nr_reason r); [discriminate| |];
  match goal with |- context [d_refresh _ _ ?b ?w ?x ?h ?Y ?nj] => pose proof (refresh_nd b w x h Y nj);
    destruct (d_refresh _ _ b w x h Y nj) as [[w' nj']| | |] end; cbn [bind]; congruence.
Qed.
Lemma control_nd st xph : control st xph <> Diverge.
Proof.
  unfold d_control. pose proof (De (q_w st) (q_x st) (q_h st) (q_Y st) (q_first st) (q_reject st)) as H.
  destruct (estrad _ _ _ _ _ _) as [[w err]| | |]; cbn [bind]; try congruence. cbv zeta.
  destruct (@nltb Rnum _ _); [destruct (d_onestep o); [discriminate|]|].
  1: destruct (_ || _)%bool; [discriminate|]; destruct (@nleb Rnum (nlit 0 0) _); [|destruct (_ && _ && _)%bool; [discriminate|]].
  all: match goal with |- context [d_refresh _ _ ?b ?w ?x ?h ?Y ?nj] => pose proof (refresh_nd b w x h Y nj);
    destruct (d_refresh _ _ b w x h Y nj) as [[w' nj']| | |] end; cbn [bind]; congruence.
Qed.
Lemma redo_ends k : forall st B, J st -> s * q_h st <= B -> B * (4 / 5) ^ k <= hmin -> redo (S k) st <> Diverge.
Proof.
  destruct (setup x0 xend s Hu) as (Hs & E1 & E2 & Hl & Hx).
  induction k as [|k IH]; intros st B HJ HB Hk; rewrite redo_S.
  - cbn [pow] in Hk. pose proof (pass_nd st) as Hnd. pose proof (@pass_keeps Rnum W jacob mats doscal newton st) as Hp.
    assert (Hc : Rabs (q_h st) <= hmin).
    { destruct HJ as (_ & _ & (_ & H & _) & _). cbn [tent g_h] in H. rewrite (s_abs_pos s Hs) by apply H. lra. }
    pose proof (Hcv (q_w st) (q_first st) (q_x st) (q_h st) (q_hold st) (q_Y st) Hc) as Hcc.
    destruct (pass_ st) as [st'| | |] eqn:E; cbn [bind]; try congruence. cbn [pc] in Hp.
    destruct Hp as (_ & _ & _ & _ & _ & _ & _ & _ & p & _ & _ & _ & _ & _ & Hr).
    destruct (g_reason p).
    + destruct Hr as (-> & _). discriminate.
    + destruct Hr as (_ & _ & _ & w & r & En & Er & _). rewrite En in Hcc. cbn in Hcc. congruence.
    + destruct Hr as (_ & _ & _ & w & r & En & Er & _). rewrite En in Hcc. cbn in Hcc. congruence.
  - pose proof (pass_nd st) as Hnd. pose proof (@pass_keeps Rnum W jacob mats doscal newton st) as Hp.
    pose proof (pass_real s x0 xend lim (proj1 Hl) W jacob mats doscal newton PW Pjac Pmats Pscal Pnew st HJ) as Hq.
    assert (Hn : pc (newton (q_w st) (q_first st) (q_x st) (q_h st) (q_hold st) (q_Y st)) (fun p =>
      match nr_reason (snd p) with willNotConverge => s * nr_h (snd p) <= 4 / 5 * (s * q_h st) | _ => nr_h (snd p) = q_h st end)).
    { destruct HJ as (HP & Hb & (_ & H & _) & _). cbn [tent g_h g_x] in H.
      eapply pc_mono; [apply Pnew; [exact HP|exact Hb|destruct Hb; split; lra|apply H]|].
      intros p (_ & _ & H'). destruct (nr_reason (snd p)); lra. }
    assert (Hpos : 0 < s * q_h st) by apply HJ.
    destruct (pass_ st) as [st'| | |] eqn:E; cbn [bind]; try congruence. cbn [pc] in Hp, Hq.
    destruct Hp as (_ & _ & _ & _ & _ & _ & _ & _ & p & _ & _ & _ & _ & _ & Hr).
    destruct (q_redo st') eqn:Er'; [|discriminate].
    apply (IH st' (4 / 5 * B)); [exact Hq| |cbn [pow] in Hk; lra].
    destruct (g_reason p).
    + destruct Hr as (H & _). congruence.
    + destruct Hr as (_ & _ & _ & w & r & En & Er & Eh). rewrite En in Hn. cbn [pc snd] in Hn. rewrite Er in Hn. rewrite Eh. lra.
    + destruct Hr as (_ & _ & _ & w & r & En & Er & Eh). rewrite En in Hn. cbn [pc snd] in Hn. rewrite Er in Hn. rewrite Eh, Hn.
      cbn [nmul nlit Rnum]. rlit. replace (s * (q_h st * (5 / 10))) with (s * q_h st / 2) by field. lra.
Qed.
Lemma redo_more k : forall k' st, (k <= k')%nat -> redo k st <> Diverge -> redo k' st = redo k st.
Proof.
  induction k as [|k IH]; intros k' st Hk Hd; [exfalso; apply Hd; reflexivity|].
  destruct k' as [|k']; [lia|]. rewrite !redo_S in *. destruct (pass_ st) as [st'| | |]; cbn [bind] in *; auto.
  destruct (q_redo st'); auto. apply IH; [lia|exact Hd].
Qed.
Lemma redo_nstep k : forall st, pc (redo k st) (fun st' => (q_nstep st + 1 <= q_nstep st')%Z).
Proof.
  induction k as [|k IH]; intros st; [exact I|]. rewrite redo_S. apply pc_bind.
  eapply pc_mono; [apply pass_keeps|]. intros st' (_ & _ & E & _). cbv beta. destruct (q_redo st').
  - eapply pc_mono; [apply IH|]. cbv beta. intros. lia.
  - cbn [pc]. lia.
Qed.
Lemma control_nstep st xph : pc (control st xph) (fun r => q_nstep (fst r) = q_nstep st).
Proof.
  unfold d_control. destruct (estrad _ _ _ _ _ _) as [[w err]| | |]; cbn [bind]; try exact I. cbv zeta.
  destruct (@nltb Rnum _ _); [destruct (d_onestep o); [reflexivity|]|].
  1: destruct (_ || _)%bool; [reflexivity|]; destruct (@nleb Rnum (nlit 0 0) _); [|destruct (_ && _ && _)%bool; [reflexivity|]].
  all: destruct (d_refresh _ _ _ _ _ _ _ _) as [[w' nj']| | |]; cbn [bind]; try exact I; reflexivity.
Qed.
Lemma radau_ends : exists k, forall fuel ifuel w h0 Y a b c d e, PW w -> (k <= ifuel)%nat ->
  (Z.of_nat fuel > d_nmax o + 1)%Z -> (1 <= fuel)%nat ->
  rad fuel ifuel w h0 x0 xend Y a b c d e <> Diverge.
Proof.
  destruct (setup x0 xend s Hu) as (Hs & E1 & E2 & Hl & Hx).
  set (B := 10001 / 10000 * lim). assert (HB : 0 < B) by (unfold B; lra).
  destruct (pow_lt_1_zero (4 / 5) ltac:(rewrite Rabs_right; lra) (hmin / B) ltac:(apply Rdiv_lt_0_compat; lra)) as [k Hk].
  specialize (Hk k (le_n k)). rewrite Rabs_right in Hk by (apply Rle_ge, pow_le; lra).
  assert (HBk : B * (4 / 5) ^ k <= hmin).
  { apply Rmult_lt_compat_l with (r := B) in Hk; [|exact HB]. replace (B * (hmin / B)) with hmin in Hk by (field; lra). lra. }
  exists (S k). intros fuel ifuel w h0 Y a b c d e Hw Hik Hf H1.
  assert (HL : forall fuel st, J st -> (Z.of_nat fuel > d_nmax o + 1 - q_nstep st)%Z -> (1 <= fuel)%nat -> loop fuel ifuel st <> Diverge).
  { clear fuel Hf H1. induction fuel as [|f IH]; intros st HJ Hf H1; [lia|]. rewrite loop_S.
    destruct (Z.ltb_spec (d_nmax o) (q_nstep st)) as [Hn|Hn]; [discriminate|].
    assert (Hr : redo (S k) st <> Diverge).
    { apply (redo_ends k st B); [exact HJ| |exact HBk]. apply HJ. }
    pose proof (redo_nstep ifuel st) as Hns.
    pose proof (@redo_rule Rnum W jacob mats doscal newton J M
      (fun st HJ => pass_real s x0 xend lim (proj1 Hl) W jacob mats doscal newton PW Pjac Pmats Pscal Pnew st HJ) ifuel st HJ) as HM.
    rewrite (redo_more (S k) ifuel st Hik Hr) in *.
    destruct (redo (S k) st) as [st1| | |]; cbn [bind]; try congruence. cbn [pc] in Hns, HM.
    pose proof (control_nd st1 (d_xph st1)) as Hc. pose proof (control_nstep st1 (d_xph st1)) as Hcn.
    pose proof (control_real s Hs x0 xend lim (proj1 Hl) W jacob mats evalF doscal estrad adv save o Hsafe Hnit Hq1 PW
      Pjac Pmats Peval Pscal Psave Pest st1 HM) as HQ.
    destruct (control st1 (d_xph st1)) as [[st2 leave]| | |]; cbn [bind]; try congruence. cbn [pc fst snd] in Hcn, HQ.
    destruct leave; [discriminate|]. apply IH; [exact HQ|lia|lia]. }
  assert (Hb0 : btw x0) by (unfold between; lra).
  destruct (start_form w h0 Y a b c d e) as (hq & init & Hi & E). rewrite E.
  pose proof (Dj (evalF w x0 Y) x0 Y) as Hj. pose proof (Pjac (evalF w x0 Y) x0 Y (Peval _ _ _ Hw Hb0) Hb0) as Pj.
  destruct (jacob _ _ _) as [w1| | |]; cbn [bind]; try congruence. cbn [pc] in Pj.
  pose proof (Dm w1 hq) as Hm. pose proof (Pmats w1 hq Pj) as Pm.
  destruct (mats _ _) as [w2| | |]; cbn [bind]; try congruence. cbn [pc] in Pm.
  destruct (Hi w2 Pm) as [HJ Hn0]. apply HL; [exact HJ|lia|exact H1].
Qed.
End Top.
