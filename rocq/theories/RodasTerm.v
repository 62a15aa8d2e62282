(* Termination of the Rodas driver, and what it does backward from a positive abscissa. *)
From Coq Require Import Reals Lra Psatz.
From Verif Require Import Base HessModel CMacros RodasModel RodasProofs RodasReal RodasTop.
Open Scope Z_scope.

Section Rules.
Context {K : num}.
Variables W Ax : Type.
Variable prep : W -> K -> (Z -> K) -> out (W * Ax).
Variable attempt : W -> Ax -> K -> K -> (Z -> K) -> out (W * (Z -> K) * K).
Variable o : ropts K.
Variables xend posneg hmaxn : K.
Notation rst := (@rst K W).
Notation body := (r_body attempt o posneg hmaxn).
Notation head := (r_head prep xend posneg hmaxn).
Notation inner := (r_inner attempt o posneg hmaxn).
Notation outer := (r_outer prep attempt o xend posneg hmaxn).

Lemma head_nodiverge st : (forall w x y, prep w x y <> Diverge) -> head st <> Diverge.
Proof.
  intros Hp Eh. unfold r_head in Eh. destruct (_ <=? _)%num; [discriminate|].
  destruct (prep _ _ _) as [[w' a']| | |] eqn:Ep; cbn [bind] in Eh; try discriminate. eapply Hp; exact Ep.
Qed.
Lemma head_nstep st : pc (head st) (fun p => s_nstep (fst p) = s_nstep st).
Proof.
  unfold r_head. destruct (_ <=? _)%num; [exact I|]. destruct (prep _ _ _) as [[w' a']| | |]; cbn; auto.
Qed.
Lemma outer_ends k (I M : rst -> Prop) (J : Ax -> rst -> Prop) :
  (forall w x y, prep w x y <> Diverge) ->
  (forall st, I st -> s_last st = false -> pc (head st) (fun p => J (snd p) (fst p))) ->
  (forall aux st, J aux st -> pc (body aux st) (fun st' => if s_reject st' then J aux st' else M st')) ->
  (forall st, M st -> o_onestep o = false -> I st) ->
  (forall aux st, J aux st -> inner k aux st <> Diverge) ->
  forall fuel ifuel st, I st -> (k <= ifuel)%nat -> Z.of_nat fuel > o_nmax o - s_nstep st -> (1 <= fuel)%nat ->
  outer fuel ifuel st <> Diverge.
Proof.
  intros Hp Hh Hb Hm Hq. induction fuel as [|f IH]; intros ifuel st HI Hk Hf H1; [lia|]. cbn [r_outer].
  destruct (s_last st) eqn:El; [discriminate|]. specialize (Hh st HI El).
  pose proof (head_nodiverge st Hp) as Hnd. pose proof (head_nstep st) as Hns.
  destruct (head st) as [[st1 aux]| | |] eqn:Eh; cbn [bind]; try discriminate; [|congruence].
  cbn [pc fst snd] in Hh, Hns.
  pose proof (inner_nstep W Ax attempt o posneg hmaxn ifuel aux st1) as Hn.
  pose proof (inner_rule W Ax attempt o posneg hmaxn (J aux) M aux (Hb aux) ifuel st1 Hh) as HM.
  destruct (inner ifuel aux st1) as [st2| | |] eqn:Ei; cbn [bind]; try discriminate.
  2:{ exfalso. rewrite (inner_mono W Ax attempt o posneg hmaxn k) in Ei; [|exact Hk|apply Hq; exact Hh]. exact (Hq _ _ Hh Ei). }
  cbn [pc] in Hn, HM. destruct (Z.ltb_spec (o_nmax o) (s_nstep st2)); [discriminate|].
  destruct (o_onestep o) eqn:Eo; [discriminate|].
  apply IH; [apply Hm; auto|exact Hk|lia|]. destruct f; [|lia]. lia.
Qed.

Lemma inner_S f aux st : inner (S f) aux st = (st' <- body aux st ;; if s_reject st' then inner f aux st' else Ok st').
Proof. reflexivity. Qed.
(* an error estimate that never passes the test: the loop over attempts has no exit *)
Lemma inner_spins : (forall w aux x h Y, exists r w' Y', attempt w aux x h Y = Ok (w', Y', r) /\ (r <=? nlit 1 0)%num = false) ->
  forall fuel aux st, inner fuel aux st = Diverge.
Proof.
  intros Ha. induction fuel as [|f IH]; intros aux st; [reflexivity|]. cbn [r_inner]. unfold r_body.
  destruct (Ha (s_w st) aux (s_x st) (s_h st) (s_Y st)) as (r & w' & Y' & E & Er). rewrite E. cbn [bind].
  unfold r_control. rewrite Er. cbn [bind s_reject]. apply IH.
Qed.
End Rules.

Lemma rodas_spins : forall (K : num) W Ax (prep : W -> K -> (Z -> K) -> out (W * Ax)) attempt (o : ropts K) w h x xend y a b c,
  (forall w aux x h Y, exists r w' Y', attempt w aux x h Y = Ok (w', Y', r) /\ (r <=? nlit 1 0)%num = false) ->
  (forall w x y, exists w' aux, prep w x y = Ok (w', aux)) ->
  (nlit 1 (-1) * mABS h <=? mABS x * r_uround)%num = false ->
  forall fuel ifuel, rodas prep attempt o fuel ifuel w h x xend y a b c = Diverge.
Proof.
  intros K W Ax prep attempt o w h x xend y a b c Ha Hp Hh fuel ifuel. unfold rodas.
  destruct fuel as [|f]; [reflexivity|]. cbn [r_outer s_last r_init]. unfold r_head. cbn [s_x s_h r_init].
  rewrite Hh. destruct (Hp w x y) as (w' & aux & E). cbn [s_w s_Y r_init]. rewrite E. cbn [bind].
  rewrite inner_spins by exact Ha. reflexivity.
Qed.

Open Scope R_scope.
Section Ends.
Variables W Ax : Type.
Variable prep : W -> R -> (Z -> R) -> out (W * Ax).
Variable attempt : W -> Ax -> R -> R -> (Z -> R) -> out (W * (Z -> R) * R).
Variable o : ropts Rnum.
Hypothesis Hsafe : 0 < (o_safe o : R) < 1.
Variables x0 h0 xend s hmin : R.
Hypothesis Hu : usable x0 xend s.
Hypothesis Hmin : 0 < hmin.
Hypothesis Hp : forall w x y, prep w x y <> Diverge.
(* the error test passes, or the step computation fails, for steps up to hmin *)
Hypothesis Hacc : forall w aux x h Y, Rabs h <= hmin ->
  pc (attempt w aux x h Y) (fun r => snd r <= 1).
Hypothesis Hdiv : forall w aux x h Y, attempt w aux x h Y <> Diverge.

Definition rho : R := Rmax (1 / 5) (o_safe o).
Lemma rho_range : 0 < rho < 1.
Proof. unfold rho. split; [apply Rlt_le_trans with (1/5); [lra|apply Rmax_l]|]. apply Rmax_lub_lt; [lra|apply Hsafe]. Qed.
Lemma hnew_rho (Hs : s = 1 \/ s = -1) (h err : R) : 0 < s * h -> 1 < err -> s * @r_hnew Rnum o h err <= rho * (s * h).
Proof.
  intros H He. rewrite r_hnew_R, s_mult.
  set (f := Rmax (1 / 6) (Rmin 5 (sqsq err / o_safe o))).
  pose proof (sqsq_gt1 err He) as Hq. change (car Rnum) with R in *. set (sf := o_safe o : R) in *.
  pose proof rho_range as Hr. assert (Hrs : sf <= rho) by apply Rmax_r. assert (Hr5 : 1 / 5 <= rho) by apply Rmax_l.
  assert (Hf : 1 <= rho * f).
  { assert (H1 : 1 <= rho * Rmin 5 (sqsq err / sf)).
    { apply Rmin_case; [lra|]. apply Rle_trans with (sf * (sqsq err / sf)).
      - replace (sf * (sqsq err / sf)) with (sqsq err) by (field; lra). lra.
      - apply Rmult_le_compat_r; [|exact Hrs]. apply Rlt_le. apply Rdiv_lt_0_compat; lra. }
    apply Rle_trans with (1 := H1). apply Rmult_le_compat_l; [lra|]. apply Rmax_r. }
  assert (Hf0 : 0 < f). { apply Rlt_le_trans with (1/6); [lra|apply Rmax_l]. }
  apply Rmult_le_reg_r with f; [exact Hf0|]. unfold Rdiv. rewrite Rmult_assoc, Rinv_l by lra. nra.
Qed.
Lemma inner_ends k : forall aux (st : @rst Rnum W) (B : R), (s = 1 \/ s = -1) ->
  0 < s * s_h st <= B -> B * rho ^ k <= hmin ->
  @r_inner Rnum W Ax attempt o s (limit x0 xend) (S k) aux st <> Diverge.
Proof.
  pose proof rho_range as Hr.
  induction k as [|k IH]; intros aux st B Hs Hh HB.
  - cbn [pow] in HB. cbn [r_inner]. unfold r_body.
    assert (Hle : Rabs (s_h st) <= hmin). { rewrite (s_abs_pos s Hs) by apply Hh. lra. }
    pose proof (Hacc (s_w st) aux (s_x st) (s_h st) (s_Y st) Hle) as H1. pose proof (Hdiv (s_w st) aux (s_x st) (s_h st) (s_Y st)) as H2.
    destruct (attempt _ _ _ _ _) as [[[w Y] err]| | |]; cbn [bind]; try discriminate; [|congruence].
    cbn [pc snd] in H1. unfold r_control. cbn [nleb Rnum nlit]. rewrite Rlit_0.
    destruct (Rleb_spec err 1); [|lra]. cbn [s_reject]. discriminate.
  - rewrite inner_S. unfold r_body.
    pose proof (Hdiv (s_w st) aux (s_x st) (s_h st) (s_Y st)) as H2.
    destruct (attempt _ _ _ _ _) as [[[w Y] err]| | |]; cbn [bind]; try discriminate; [|congruence].
    unfold r_control. cbn [nleb Rnum nlit s_h s_naccpt]. rewrite Rlit_0.
    destruct (Rleb_spec err 1) as [He|He]; cbn [s_reject bind]; [discriminate|].
    apply (IH aux _ (rho * B)); [exact Hs| |cbn [pow] in HB; lra]. cbn [s_h].
    pose proof (hnew_rho Hs (s_h st) err (proj1 Hh) ltac:(lra)) as Hn.
    pose proof (hnew_range s o (s_h st) err (proj1 Hh)) as Hn2. split; [lra|].
    apply Rle_trans with (1 := Hn). apply Rmult_le_compat_l; lra.
Qed.
Lemma rodas_ends w y a b c : exists k, forall fuel ifuel, (k <= ifuel)%nat ->
  (Z.of_nat fuel > o_nmax o)%Z -> (1 <= fuel)%nat ->
  @rodas Rnum W Ax prep attempt o fuel ifuel w h0 x0 xend y a b c <> Diverge.
Proof.
  destruct (setup x0 xend s Hu) as (Hs & E1 & E2 & Hl & Hx). pose proof rho_range as Hr.
  set (B := 10001 / 10000 * limit x0 xend).
  assert (HB : 0 < B) by (unfold B; lra).
  destruct (pow_lt_1_zero rho ltac:(rewrite Rabs_right; lra) (hmin / B) ltac:(apply Rdiv_lt_0_compat; lra)) as [k Hk].
  specialize (Hk k (le_n k)). rewrite Rabs_right in Hk by (apply Rle_ge, pow_le; lra).
  assert (HBk : B * rho ^ k <= hmin).
  { apply Rmult_lt_compat_l with (r := B) in Hk; [|exact HB]. replace (B * (hmin / B)) with hmin in Hk by (field; lra). lra. }
  exists (S k). intros fuel ifuel Hik Hf H1. unfold rodas. rewrite E1, E2.
  assert (HO : @r_outer Rnum W Ax prep attempt o xend s (limit x0 xend) fuel ifuel (@r_init Rnum W w h0 x0 y a b c) <> Diverge).
  { assert (Hsafe' : 0 < (o_safe o : R) <= 1) by (split; [apply Hsafe|apply Rlt_le, Hsafe]).
    apply (@outer_ends Rnum W Ax prep attempt o xend s (limit x0 xend) (S k)
      (outI s x0 h0 xend (limit x0 xend) W (fun _ => True)) (outI s x0 h0 xend (limit x0 xend) W (fun _ => True))
      (fun _ => inI s x0 h0 xend (limit x0 xend) W (fun _ => True))); auto.
    - intros st HI El. apply (head_real s Hs x0 h0 xend (limit x0 xend) W Ax prep (fun _ => True)); auto; try lra.
      intros. destruct (prep _ _ _) as [[? ?]| | |]; cbn; auto.
    - intros aux st HJ. apply (body_real s Hs x0 h0 xend (limit x0 xend) W Ax attempt o (fun _ => True)); auto; try lra.
      intros. destruct (attempt _ _ _ _ _) as [[[? ?] ?]| | |]; cbn; auto.
    - intros aux st HJ. apply (inner_ends k aux st B Hs); [|exact HBk]. destruct HJ as (_ & H2 & H3 & _). unfold B. lra.
    - unfold outI, base. cbn. unfold between. repeat split; auto; try lra.
    - cbn. lia. }
  destruct (r_outer _ _ _ _ _ _ _ _ _); cbn [bind]; congruence.
Qed.
End Ends.

(* ---- backward from a positive abscissa ---------------------------------------- *)
Section Back.
Variables W Ax : Type.
Variable prep : W -> R -> (Z -> R) -> out (W * Ax).
Variable attempt : W -> Ax -> R -> R -> (Z -> R) -> out (W * (Z -> R) * R).
Variable o : ropts Rnum.
Variables x0 h0 xend : R.
Hypothesis Hb : xend < x0.
Hypothesis Hp : 0 <= x0 + xend.
Lemma hmaxn_wrong : @r_hmaxn Rnum x0 xend = - (x0 + xend).
Proof. rewrite hmaxn_bwd by exact Hb. rewrite Rmin_right; lra. Qed.
(* every attempted step goes away from xend; the loop is never left by its own test *)
Definition away (st : @rst Rnum W) : Prop :=
  x0 <= s_x st /\ s_last st = false /\ List.Forall (fun a : att Rnum => 0 <= a_h a) (s_hist st).
Lemma backward_never fuel ifuel w y a b c :
  pc (@rodas Rnum W Ax prep attempt o fuel ifuel w h0 x0 xend y a b c) (fun r =>
    o_onestep o = true /\ x0 <= s_x (fst r) /\ List.Forall (fun a : att Rnum => 0 <= a_h a) (s_hist (fst r))).
Proof.
  unfold rodas. rewrite posneg_bwd by exact Hb. rewrite hmaxn_wrong. apply pc_bind. cbn [pc fst].
  apply (@outer_rule Rnum W Ax prep attempt o xend (-1) (- (x0 + xend)) away away _
           (fun _ st => away st /\ 0 <= s_h st)).
  - intros st (_ & H & _) E. congruence.
  - intros st (H1 & H2 & H3) _. unfold r_head. destruct (_ <=? _)%num; [exact I|].
    rewrite mMIN_R. match goal with |- context [Rmin (mABS ?h) _] => set (h1 := h) end. rewrite (mABS_R h1). cbn [nmul nadd nsub nltb Rnum nlit n0].
    rewrite Rmin_right by (pose proof (Rabs_pos h1); lra).
    assert (E : @nltb Rnum n0 ((s_x st + - (x0 + xend) * -1 * Rlit 10001 (-4) - xend) * -1) = false).
    { unfold n0. cbn [nltb nlit Rnum]. rlit.
      match goal with |- Rltb ?p ?q = false => destruct (Rltb_spec p q); [|reflexivity] end. exfalso. lra. }
    unfold n0 in E. cbn [nltb nlit Rnum] in E. unfold n0. cbn [nltb nlit Rnum]. rewrite E.
    destruct (prep _ _ _) as [[w' aux]| | |]; cbn [bind pc fst snd]; try exact I.
    unfold away. cbn. repeat split; auto. lra.
  - intros aux st ((H1 & H2 & H3) & Hh). unfold r_body.
    destruct (attempt _ _ _ _ _) as [[[w' Y'] err]| | |]; cbn [bind pc]; try exact I.
    unfold r_control. destruct (_ <=? _)%num; unfold away; cbn [s_reject s_x s_h s_last s_hist s_naccpt].
    + cbn [nadd Rnum]. split; [lra|]. split; [exact H2|]. constructor; [exact Hh|exact H3].
    + split; [split; [exact H1|split; [reflexivity|constructor; [exact Hh|exact H3]]]|].
      rewrite r_hnew_R. pose proof (clamp_range (sqsq err / o_safe o)).
      apply Rmult_le_pos; [exact Hh|]. apply Rlt_le, Rinv_0_lt_compat. lra.
  - intros st HM _. destruct (o_onestep o); [|exact HM]. split; [reflexivity|]. split; apply HM.
  - unfold away. cbn. repeat split; auto. lra.
Qed.
End Back.
