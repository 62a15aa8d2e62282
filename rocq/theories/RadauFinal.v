(* The Radau5 theorems in the form in which Props_Radau.v states them. *)
From Coq Require Import Reals Lra Psatz.
From Verif Require Import Base HessModel CMacros VecFun JacModel JacProofs RodasModel RodasProofs RodasReal RodasTop RadauModel RadauProofs RadauReal RadauTop RadauStep.
Open Scope R_scope.

(* a right-hand side that records the abscissae at which it is called *)
Definition logged {Sg : Type} (userF : Sg -> R -> (Z -> R) -> Sg * (Z -> R)) (f : Sg * list R) (t : R) (y : Z -> R) : (Sg * list R) * (Z -> R) :=
  let '(s, v) := userF (fst f) t y in ((s, t :: snd f), v).
Definition loggedJ {Sg : Type} (userJ : Sg -> R -> (Z -> R) -> (Z -> R) -> (Z -> R) -> Sg * (Z -> R)) (f : Sg * list R) (t : R) (y Fy J : Z -> R) : (Sg * list R) * (Z -> R) :=
  let '(s, v) := userJ (fst f) t y Fy J in ((s, t :: snd f), v).
(* consecutive passes of a history, the newer one first *)
Definition next (l : list (pass Rnum)) (b a : pass Rnum) (older : list (pass Rnum)) : Prop :=
  exists newer, l = (newer ++ b :: a :: older)%list.
Definition failed_newton (l : list (pass Rnum)) : Prop := exists p, In p l /\ g_reason p = didNotConverge.
Definition accepted (p : pass Rnum) : bool := match g_test p with Some true => true | _ => false end.

Section Call.
Variables Sg La : Type.
Variable userF : Sg -> R -> (Z -> R) -> Sg * (Z -> R).
Variable userJ : Sg -> R -> (Z -> R) -> (Z -> R) -> (Z -> R) -> Sg * (Z -> R).
Variable decomr : La -> R -> (Z -> R) -> out (La * (Z -> R)).
Variable decomc : La -> R -> R -> (Z -> R) -> out La.
Variable solvereal : La -> (Z -> R) -> (Z -> R) -> out (Z -> R).
Variable solvecomplex : La -> (Z -> R) -> (Z -> R) -> (Z -> R) -> out ((Z -> R) * (Z -> R)).
Variable set_calhes : La -> La.
Variable n : Z.
Variable sh : shape.
Variable numjac : bool.
Variables atol rtol : Z -> R.
Variable nit : Z.
Variables thet fnewt : R.
Variable nfuel : nat.
(* a complete call with the real step code, recording the calls of the user's functions *)
Definition full_call (o : dopts Rnum) :=
  radau (@k_jacob Rnum _ La (logged userF) (loggedJ userJ) set_calhes n sh numjac)
        (@k_mats Rnum _ La decomr decomc rd_const) (@k_evalF Rnum _ La (logged userF))
        (@k_doscal Rnum _ La atol rtol)
        (@k_newton Rnum _ La (logged userF) solvereal solvecomplex n rd_const nit thet fnewt nfuel)
        (@k_estrad Rnum _ La (logged userF) solvereal n rd_const) (@k_adv Rnum _ La) (@k_save Rnum _ La rd_const) o.
Section Dir.
Variables s x0 xend : R.
Hypothesis Hu : (s = 1 /\ x0 < xend) \/ (s = -1 /\ xend < x0 /\ x0 + xend < 0).
Variable o : dopts Rnum.
Hypothesis Hsafe : 0 < (d_safe o : R) < 1.
Hypothesis Hnit : (1 <= d_nit o)%Z.
Hypothesis Hq : (d_quot1 o : R) = 1.
Lemma call_real fuel ifuel w h0 Y a b d e e' : snd (k_f w) = nil ->
  pc (full_call o fuel ifuel w h0 x0 xend Y a b d e e') (fun st =>
    Forall (fun t => s * x0 <= s * t <= s * xend) (snd (k_f (q_w st))) /\ between s x0 xend (q_x st) /\ d_good s x0 xend (q_hist st) /\
    (d_onestep o = false -> q_x st = d_reached x0 (q_hist st) /\ (q_x st = xend \/ near xend (q_x st) \/ failed_newton (q_hist st)))).
Proof.
  intros Hw.
  eapply pc_mono; [apply (full_real (Sg * list R) La (logged userF) (loggedJ userJ) decomr decomc solvereal solvecomplex set_calhes n sh numjac
    atol rtol nit thet fnewt nfuel s x0 xend (fun f => Forall (fun t => s * x0 <= s * t <= s * xend) (snd f)))|].
  - intros [f l] t y Hl Ht. unfold logged. cbn [fst snd] in *. destruct (userF f t y). cbn [fst snd]. constructor; [|exact Hl]. unfold between in Ht. lra.
  - intros [f l] t y Fy J Hl Ht. unfold loggedJ. cbn [fst snd] in *. destruct (userJ f t y Fy J). cbn [fst snd]. constructor; [|exact Hl]. unfold between in Ht. lra.
  - exact Hu.
  - exact Hsafe.
  - exact Hnit.
  - exact Hq.
  - rewrite Hw. constructor.
  - intros st H. exact H.
Qed.
End Dir.
Variables x0 xend : R.
Variable o : dopts Rnum.
Hypothesis Hsafe : 0 < (d_safe o : R) < 1.
Hypothesis Hnit : (1 <= d_nit o)%Z.
Hypothesis Hq : (d_quot1 o : R) = 1.
Lemma good_sub s l' l : (exists m, l = (m ++ l')%list) -> d_good s x0 xend l -> d_good s x0 xend l'.
Proof.
  intros [m ->]. induction m as [|p m IH]; [exact (fun H => H)|]. intros H. apply IH. apply H.
Qed.
Lemma good_span s l : (s = 1 \/ s = -1) -> 0 < s * (xend - x0) -> d_good s x0 xend l ->
  Forall (fun p : pass Rnum => s * x0 <= s * g_x p /\ 0 < s * g_h p /\ s * (g_x p + g_h p) <= s * xend) l.
Proof.
  intros Hs Hx. induction l as [|b l IH]; [constructor|]. intros (Hg & Hb & H). specialize (IH Hg).
  constructor; [|exact IH]. replace (s * (g_x b + g_h b)) with (s * g_x b + s * g_h b) by (cbn; ring).
  replace (s * (xend - g_x b)) with (s * xend - s * g_x b) in Hb by (cbn; ring).
  split; [|lra]. destruct l as [|a l]; [rewrite H; lra|].
  inversion IH as [|? ? [I1 [I2 I3]] _]; subst. destruct H as [H _]. rewrite H. unfold tried.
  destruct (is_acc a); [|lra]. replace (s * (g_x a + g_h a)) with (s * g_x a + s * g_h a) by (cbn; ring). lra.
Qed.
Lemma radau_forward fuel ifuel w h0 Y a b d e e' : x0 < xend -> snd (k_f w) = nil ->
  pc (full_call o fuel ifuel w h0 x0 xend Y a b d e e') (fun st =>
    (forall t, In t (snd (k_f (q_w st))) -> x0 <= t <= xend) /\ x0 <= q_x st <= xend /\
    (forall p, In p (q_hist st) -> x0 <= g_x p < g_x p + g_h p /\ g_x p + g_h p <= xend) /\
    (forall b a older, next (q_hist st) b a older -> g_x b = if accepted a then g_x a + g_h a else g_x a) /\
    (d_onestep o = false ->
      q_x st = match q_hist st with nil => x0 | a :: _ => if accepted a then g_x a + g_h a else g_x a end /\
      (q_x st = xend \/ xend - q_x st <= 1 / 10 ^ 15 * Rabs (q_x st) \/ failed_newton (q_hist st)))).
Proof.
  intros Hx Hw. eapply pc_mono; [apply (call_real 1 x0 xend ltac:(left; split; [reflexivity|exact Hx]) o Hsafe Hnit Hq); exact Hw|].
  intros st (H1 & H2 & H3 & H4). unfold between in H2. rewrite Forall_forall in H1.
  pose proof (good_span 1 _ ltac:(left; reflexivity) ltac:(lra) H3) as G. rewrite Forall_forall in G.
  split; [intros t Ht; specialize (H1 t Ht); lra|]. split; [lra|]. split.
  { intros p Hp. specialize (G p Hp). cbn in G. lra. }
  split.
  { intros b' a' older [m E]. rewrite E in H3. eapply good_sub in H3; [|exists m; reflexivity]. apply H3. }
  intros Ho. destruct (H4 Ho) as [H5 H6]. split; [exact H5|]. destruct H6 as [H6|[H6|H6]]; [left; exact H6| |right; right; exact H6].
  right; left. unfold near in H6. destruct (Rle_dec _ _); lra.
Qed.
Lemma radau_backward fuel ifuel w h0 Y a b d e e' : xend < x0 -> xend + x0 * (1 + 1 / 10 ^ 15) < 0 -> x0 + xend < 0 -> snd (k_f w) = nil ->
  pc (full_call o fuel ifuel w h0 x0 xend Y a b d e e') (fun st =>
    (forall t, In t (snd (k_f (q_w st))) -> xend <= t <= x0) /\ xend <= q_x st <= x0 /\
    (forall p, In p (q_hist st) -> g_h p < 0) /\
    (d_onestep o = false -> q_x st = xend \/ failed_newton (q_hist st))).
Proof.
  intros Hx Hx2 Hx3 Hw. eapply pc_mono; [apply (call_real (-1) x0 xend ltac:(right; split; [reflexivity|split; assumption]) o Hsafe Hnit Hq); exact Hw|].
  intros st (H1 & H2 & H3 & H4). unfold between in H2. rewrite Forall_forall in H1.
  pose proof (good_span (-1) _ ltac:(right; reflexivity) ltac:(lra) H3) as G. rewrite Forall_forall in G.
  split; [intros t Ht; specialize (H1 t Ht); lra|]. split; [lra|]. split.
  { intros p Hp. specialize (G p Hp). cbn in G. lra. }
  intros Ho. destruct (H4 Ho) as [H5 H6]. destruct H6 as [H6|[H6|H6]]; [left; exact H6| |right; exact H6].
  unfold near in H6. destruct (Rle_dec _ _) as [H7|H7]; [left; lra|exfalso].
  destruct (Rle_dec 0 (q_x st)); [rewrite Rabs_right in H6 by lra|rewrite Rabs_left in H6 by lra]; nra.
Qed.
(* the sizes of consecutive steps *)
Lemma radau_ratios s fuel ifuel w h0 Y a b d e e' :
  (s = 1 /\ x0 < xend) \/ (s = -1 /\ xend < x0 /\ x0 + xend < 0) -> snd (k_f w) = nil ->
  pc (full_call o fuel ifuel w h0 x0 xend Y a b d e e') (fun st => forall b a older, next (q_hist st) b a older ->
    0 < s * g_h b <= 8 * (s * g_h a) /\ (s * g_h a / 20 <= s * g_h b \/ g_h b = xend - g_x b) /\
    (accepted a = false -> s * g_h a / 20 <= s * g_h b < s * g_h a)).
Proof.
  intros Hu Hw. eapply pc_mono; [apply (call_real s x0 xend Hu o Hsafe Hnit Hq); exact Hw|].
  intros st (_ & _ & H3 & _) b' a' older [m E]. rewrite E in H3. eapply good_sub in H3; [|exists m; reflexivity].
  destruct H3 as (_ & H & _ & Hr). split; [split; [apply H|apply Hr]|]. split; apply Hr.
Qed.
End Call.

(* ---- settings -------------------------------------------------------------------------------- *)
Section Opt.
Variable W : Type.
Variable jacob : W -> R -> (Z -> R) -> out W.
Variable mats : W -> R -> out W.
Variable evalF : W -> R -> (Z -> R) -> W.
Variable doscal : W -> (Z -> R) -> W.
Variable newton : W -> bool -> R -> R -> R -> (Z -> R) -> out (W * nres Rnum).
Variable estrad : W -> R -> R -> (Z -> R) -> bool -> bool -> out (W * R).
Variable adv : W -> (Z -> R) -> (Z -> R).
Variable save : W -> W.
Variable o : dopts Rnum.
Variables xend posneg hmaxn : R.
Local Arguments Z.mul : simpl never.
Local Arguments Z.add : simpl never.
(* a rejected step that is not the first one *)
Lemma reject_step st xph w err st' : estrad (q_w st) (q_x st) (q_h st) (q_Y st) (q_first st) (q_reject st) = Ok (w, err) ->
  1 <= err -> q_first st = false ->
  @d_control Rnum W jacob mats evalF doscal estrad adv save o xend posneg hmaxn st xph = Ok st' ->
  q_h (fst st') = (q_h st : R) / Rmax (1 / 8) (Rmin 5 (sqrt (sqrt err) /
    Rmin (d_safe o) (d_safe o * (1 + 2 * IZR (d_nit o)) / (IZR (q_newt st) + 2 * IZR (d_nit o))))).
Proof.
  intros E He Hf. unfold d_control. rewrite E. cbn [bind]. cbv zeta.
  assert (Hn : @nltb Rnum err (nlit 1 0) = false) by (cbn [nltb nlit Rnum]; rewrite Rlit_0; destruct (Rltb_spec err 1); [lra|reflexivity]).
  rewrite Hn. clear Hn.
  rewrite Hf. destruct (d_refresh _ _ _ _ _ _ _ _) as [[w' nj]| | |]; cbn [bind]; try discriminate.
  intros H. match type of H with Ok ?p = _ => set (pp := p) in H end.
  assert (E2 : st' = pp) by congruence. rewrite E2. unfold pp. cbn [fst q_h]. rewrite !mMAX_R, !mMIN_R. unfold d_FACR, d_FACL, d_cfac.
  cbn [nlit nmul ndiv nadd nsqrt Rnum]. rewrite !Rlit_0, !plus_IZR, !mult_IZR. reflexivity.
Qed.
Lemma nmax_stops f i st : (d_nmax o < q_nstep st)%Z ->
  exists msg, @d_loop Rnum W jacob mats evalF doscal newton estrad adv save o xend posneg hmaxn (S f) i st = Throw msg.
Proof. intros H. cbn [d_loop]. destruct (Z.ltb_spec (d_nmax o) (q_nstep st)); [|lia]. eexists. reflexivity. Qed.
End Opt.

(* ---- tolerances ---------------------------------------------------------------------------------- *)
Lemma fill_wp (K : num) n (v : vec K) (x : K) : (1 <= n)%Z ->
  wp (forM 1 n (fun i v => wr 1 n v i x) v) (fun v' => forall i, (1 <= i <= n)%Z -> v' i = x).
Proof.
  intros Hn. eapply wp_mono; [apply (forM_ind (fun j (v : vec K) => forall i, (1 <= i < j)%Z -> v i = x)); [lia|intros; lia|]|].
  - intros j t Hj H. rewrite wr_ok by lia. cbn [wp]. intros i Hi. unfold upd. destruct (Z.eqb_spec i j); [reflexivity|]. apply H. lia.
  - cbv beta. intros w H i Hi. apply H. lia.
Qed.
Lemma radau_tolerances (K : num) n (A B : vec K) a r atol rtol : (1 <= n)%Z ->
  (forall i, (0 <= i < n)%Z -> A i = a /\ B i = r) ->
  exists at1 rt1 at2 rt2 tolst fnewt,
    @rd_setTestPolicy K n true 1 1 (fun _ => a) (fun _ => r) atol rtol = Ok (at1, rt1, tolst, fnewt) /\
    @rd_setTestPolicy K n false n n A B atol rtol = Ok (at2, rt2, tolst, fnewt) /\
    forall i, (1 <= i <= n)%Z -> at1 i = at2 i /\ rt1 i = rt2 i.
Proof.
  intros Hn HAB. set (e := (nlit 2 0 / nlit 3 0)%num : K).
  set (rv := (nlit 1 (-1) * npow r e)%num : K). set (av := (rv * (a / r))%num : K).
  set (fn := mMAX (nlit 10 0 * rd_uround / rv)%num (mMIN (nlit 3 (-2)) (nsqrt rv)) : K).
  assert (H1 : wp (@rd_setTestPolicy K n true 1 1 (fun _ => a) (fun _ => r) atol rtol) (fun q =>
    (forall i, (1 <= i <= n)%Z -> fst (fst (fst q)) i = av /\ snd (fst (fst q)) i = rv) /\ snd (fst q) = rv /\ snd q = fn)).
  { unfold rd_setTestPolicy. rewrite !rd_ok by lia. cbn [bind]. fold e. cbv zeta. fold rv. fold av.
    apply wp_assoc, wp_bind. eapply wp_mono; [apply fill_wp; exact Hn|]. intros at1 Ha.
    apply wp_assoc, wp_bind. eapply wp_mono; [apply fill_wp; exact Hn|]. intros rt1 Hr. cbn [bind].
    rewrite rd_ok by lia. cbn [bind wp fst snd]. rewrite (Hr 1%Z) by lia.
    split; [intros i Hi; rewrite Ha, Hr by exact Hi; auto|]. auto. }
  assert (H2 : wp (@rd_setTestPolicy K n false n n A B atol rtol) (fun q =>
    (forall i, (1 <= i <= n)%Z -> fst (fst (fst q)) i = av /\ snd (fst (fst q)) i = rv) /\ snd (fst q) = rv /\ snd q = fn)).
  { unfold rd_setTestPolicy. fold e. cbv zeta. apply wp_bind.
    eapply wp_mono; [apply (forM_ind (fun j (p : vec K * vec K) => forall i, (1 <= i < j)%Z -> fst p i = av /\ snd p i = rv)); [lia|intros; lia|]|].
    - intros j [t u] Hj H. cbn [fst snd] in H. rewrite !rd_ok by lia. cbn [bind].
      destruct (HAB (j - 1)%Z ltac:(lia)) as [-> ->]. fold rv. rewrite wr_ok by lia. cbn [bind]. rewrite rd_ok by lia. cbn [bind].
      rewrite wr_ok by lia. cbn [bind wp fst snd]. intros i Hi. unfold upd. rewrite Z.eqb_refl.
      destruct (Z.eqb_spec i j); [split; reflexivity|]. apply H. lia.
    - cbv beta. intros [t u] H. cbn [fst snd] in H. rewrite rd_ok by lia. cbn [bind wp fst snd].
      destruct (H 1%Z ltac:(lia)) as [_ ->]. split; [intros i Hi; apply H; lia|]. auto. }
  apply wp_ok in H1. destruct H1 as ([[[at1 rt1] t1] f1] & E1 & G1 & G2 & G3).
  apply wp_ok in H2. destruct H2 as ([[[at2 rt2] t2] f2] & E2 & G4 & G5 & G6). cbn [fst snd] in *. subst.
  exists at1, rt1, at2, rt2, rv, fn. split; [exact E1|]. split; [exact E2|]. intros i Hi.
  destruct (G1 i Hi) as [-> ->]. destruct (G4 i Hi) as [-> ->]. auto.
Qed.

Lemma acc_spec {K : num} (l : list (pass K)) : acc_ok l -> forall newer p older, l = (newer ++ p :: older)%list -> g_test p = Some true ->
  g_reason p = converged /\ g_h2 p = g_h p \/ g_reason p = didNotConverge /\ exists q, In q older /\ g_reason q = converged.
Proof.
  intros H newer. revert l H. induction newer as [|q newer IH]; intros l H p older -> Hp.
  - destruct H as [_ H]. apply H. unfold is_acc. rewrite Hp. reflexivity.
  - apply (IH (newer ++ p :: older)%list (proj1 H) p older eq_refl Hp).
Qed.
Lemma acc_final {K : num} W (jacob : W -> K -> (Z -> K) -> out W) mats evalF doscal newton estrad adv save (o : dopts K)
    fuel ifuel w h x xend Y a b c d e :
  pc (radau jacob mats evalF doscal newton estrad adv save o fuel ifuel w h x xend Y a b c d e) (fun st =>
    forall newer p older, q_hist st = (newer ++ p :: older)%list -> g_test p = Some true ->
      g_reason p = converged /\ g_h2 p = g_h p \/ g_reason p = didNotConverge /\ exists q, In q older /\ g_reason q = converged).
Proof. eapply pc_mono; [apply acc_lemma|]. intros st H. apply acc_spec, H. Qed.
Lemma radau_ends_any x0 xend s : (s = 1 /\ x0 < xend) \/ (s = -1 /\ xend < x0 /\ x0 + xend < 0) ->
  forall W (jacob : W -> R -> (Z -> R) -> out W) mats evalF doscal newton estrad adv save (o : dopts Rnum),
  0 < (d_safe o : R) < 1 -> (1 <= d_nit o)%Z -> (d_quot1 o : R) = 1 ->
  (forall w z x h hold Y, 0 < s * h ->
     pc (newton w z x h hold Y) (fun p : W * nres Rnum => (0 <= nr_newt (snd p))%Z /\
       match nr_reason (snd p) with willNotConverge => s * h / 10 <= s * nr_h (snd p) <= 4 / 5 * (s * h) | _ => nr_h (snd p) = h end)) ->
  forall hmin, 0 < hmin ->
  (forall w z x h hold Y, Rabs h <= hmin -> pc (newton w z x h hold Y) (fun p => nr_reason (snd p) = converged)) ->
  (forall w z x h hold Y, newton w z x h hold Y <> Diverge) -> (forall w x Y, jacob w x Y <> Diverge) ->
  (forall w h, mats w h <> Diverge) -> (forall w x h Y f r, estrad w x h Y f r <> Diverge) ->
  exists k, forall fuel ifuel w h0 Y a b c d e, (k <= ifuel)%nat -> (Z.of_nat fuel > d_nmax o + 1)%Z -> (1 <= fuel)%nat ->
  radau jacob mats evalF doscal newton estrad adv save o fuel ifuel w h0 x0 xend Y a b c d e <> Diverge.
Proof.
  intros Hu W jacob mats evalF doscal newton estrad adv save o H1 H2 H3 Hn hmin Hm Hc D1 D2 D3 D4.
  assert (T : forall A (m : out A), pc m (fun _ => True)) by (intros A [ | | | ]; exact (fun _ => I) || exact I).
  destruct (radau_ends x0 xend s Hu W jacob mats evalF doscal newton estrad adv save o H1 H2 H3 (fun _ => True)) with (hmin := hmin) as [k Hk]; auto; try (intros; apply T).
  - intros w z x h hold Y _ _ _ Hh. eapply pc_mono; [apply Hn; exact Hh|]. cbv beta. auto.
  - exists k. intros. apply Hk; auto.
Qed.
