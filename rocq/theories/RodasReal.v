(* Proofs about the driver of RodasModel.v over the reals: step-size control, end point,
   history of the attempted steps.  [s] is the direction, +1 or -1. *)
From Coq Require Import Reals Lra Psatz.
From Verif Require Import Base HessModel CMacros RodasModel RodasProofs.
Open Scope R_scope.

Lemma clamp_range z : 1 / 6 <= Rmax (1 / 6) (Rmin 5 z) <= 5.
Proof.
  split; [apply Rmax_l|]. apply Rmax_lub; [lra|apply Rmin_l].
Qed.
Lemma r_fac1_R : @r_fac1 Rnum = 5.
Proof. unfold r_fac1. rlit. reflexivity. Qed.
Lemma r_fac2_R : @r_fac2 Rnum = 1 / 6.
Proof. unfold r_fac2. rlit. reflexivity. Qed.
Definition sqsq (e : R) : R := sqrt (sqrt e).
Lemma r_hnew_R (o : ropts Rnum) (h err : R) :
  r_hnew o h err = h / Rmax (1 / 6) (Rmin 5 (sqsq err / o_safe o)).
Proof. unfold r_hnew. rewrite mMAX_R, mMIN_R, r_fac1_R, r_fac2_R. reflexivity. Qed.
Lemma r_hgus_R (o : ropts Rnum) (h err ha ea : R) :
  r_hgus o h err ha ea =
  h / Rmax (Rmax (1 / 6) (Rmin 5 (sqsq err / o_safe o)))
           (Rmax (1 / 6) (Rmin 5 (ha / h * sqsq (err * err / ea) / o_safe o))).
Proof. unfold r_hgus. rewrite !mMAX_R, !mMIN_R, r_fac1_R, r_fac2_R. reflexivity. Qed.

Lemma div_range sh f : 0 < sh -> 1 / 6 <= f <= 5 -> sh / 5 <= sh / f <= 6 * sh.
Proof.
  intros Hs [H1 H2]. split.
  - unfold Rdiv. apply Rmult_le_compat_l; [lra|]. apply Rinv_le_contravar; lra.
  - unfold Rdiv. rewrite (Rmult_comm 6). apply Rmult_le_compat_l; [lra|].
    apply Rle_trans with (/ (1 / 6)); [apply Rinv_le_contravar; lra|lra].
Qed.
Section Dir.
Variable s : R.
Hypothesis Hs : s = 1 \/ s = -1.
Lemma s_mult (a b : R) : s * (a / b) = (s * a) / b.
Proof. unfold Rdiv. ring. Qed.
Lemma s_abs (a : R) : Rabs a = Rabs (s * a).
Proof. rewrite Rabs_mult. destruct Hs as [E | E]; rewrite E; [rewrite Rabs_R1|rewrite (Rabs_left (-1)) by lra]; ring. Qed.
Lemma s_abs_pos (a : R) : 0 < s * a -> Rabs a = s * a.
Proof. intros H. rewrite s_abs. apply Rabs_right. lra. Qed.
Lemma s_sq : s * s = 1.
Proof. destruct Hs as [-> | ->]; ring. Qed.
Lemma s_inj (a b : R) : s * a = s * b -> a = b.
Proof. intros H. destruct Hs as [E | E]; rewrite E in H; lra. Qed.

Lemma hnew_range o (h err : R) : 0 < s * h ->
  (s * h) / 5 <= s * @r_hnew Rnum o h err <= 6 * (s * h).
Proof. intros H. rewrite r_hnew_R, s_mult. apply div_range; [exact H|]. apply clamp_range. Qed.
Lemma hgus_range o (h err ha ea : R) : 0 < s * h ->
  (s * h) / 5 <= s * @r_hgus Rnum o h err ha ea <= 6 * (s * h).
Proof.
  intros H. rewrite r_hgus_R, s_mult. apply div_range; [exact H|].
  pose proof (clamp_range (sqsq err / o_safe o)). pose proof (clamp_range (ha / h * sqsq (err * err / ea) / o_safe o)).
  split; [eapply Rle_trans; [|apply Rmax_l]; lra|apply Rmax_lub; lra].
Qed.
Lemma sqsq_gt1 e : 1 < e -> 1 < sqsq e.
Proof.
  intros H. unfold sqsq. rewrite <- sqrt_1 at 1. apply sqrt_lt_1; try lra; [apply sqrt_pos|].
  rewrite <- sqrt_1 at 1. apply sqrt_lt_1; lra.
Qed.
Lemma hnew_reject (o : ropts Rnum) (h err : R) : 0 < s * h -> 0 < o_safe o <= 1 -> 1 < err ->
  s * @r_hnew Rnum o h err < s * h.
Proof.
  intros H Hsafe He. rewrite r_hnew_R, s_mult.
  set (f := Rmax (1 / 6) (Rmin 5 (sqsq err / o_safe o))).
  assert (Hf : 1 < f).
  { unfold f. apply Rlt_le_trans with (Rmin 5 (sqsq err / o_safe o)); [|apply Rmax_r].
    apply Rmin_glb_lt; [lra|]. pose proof (sqsq_gt1 err He) as Hq.
    change (car Rnum) with R in *. set (sf := o_safe o : R) in *.
    apply Rlt_le_trans with (sqsq err); [exact Hq|].
    apply Rmult_le_reg_r with sf; [lra|]. unfold Rdiv. rewrite Rmult_assoc, Rinv_l by lra. nra. }
  apply Rmult_lt_reg_r with f; [lra|]. unfold Rdiv. rewrite Rmult_assoc, Rinv_l by lra. nra.
Qed.

(* ---- the specification of a history ------------------------------------------ *)
Variables x0 h0 xend hmaxn : R.
(* what becomes of a proposed step size p at abscissa x: floor, cap, and stretching or
   cutting of the last step *)
Definition adjusted (x p h : R) : Prop :=
  exists q, q = s * Rmin (if Rlt_dec (Rabs p) (1 / 10 ^ 15) then 1 / 10 ^ 6 else Rabs p) hmaxn /\
    ((h = q /\ s * (x + q * (10001 / 10000) - xend) <= 0) \/
     (h = xend - x /\ 0 < s * (x + q * (10001 / 10000) - xend))).
Definition after_rejection (l : list (att Rnum)) : bool :=
  match l with nil => false | a :: _ => negb (a_acc a) end.
(* the proposal p made after the accepted step a, when [l] are the attempts before a *)
Definition proposal (a : att Rnum) (l : list (att Rnum)) (p : R) : Prop :=
  (s * a_h a) / 5 <= s * p <= 6 * (s * a_h a) /\ s * p <= hmaxn /\
  (after_rejection l = true -> s * p <= s * a_h a).
Fixpoint good_history (l : list (att Rnum)) : Prop :=
  match l with
  | nil => True
  | b :: l' => good_history l' /\ 0 < s * a_h b <= s * (xend - a_x b) /\ s * a_h b <= s * (xend - x0) /\
    match l' with
    | nil => a_x b = x0 /\ adjusted x0 h0 (a_h b)
    | a :: l'' =>
        if a_acc a then a_x b = a_x a + a_h a /\ exists p, proposal a l'' p /\ adjusted (a_x b) p (a_h b)
        else a_x b = a_x a /\ (s * a_h a) / 5 <= s * a_h b < s * a_h a
    end
  end.
(* the abscissa reached at the end of a history *)
Definition reached (l : list (att Rnum)) : R :=
  match l with nil => x0 | a :: _ => if a_acc a then a_x a + a_h a else a_x a end.

Variables W Ax : Type.
Variable prep : W -> R -> (Z -> R) -> out (W * Ax).
Variable attempt : W -> Ax -> R -> R -> (Z -> R) -> out (W * (Z -> R) * R).
Variable o : ropts Rnum.
(* a property of the data carried along that the step computation maintains as long as it
   works within [x0, xend] *)
Variable PW : W -> Prop.
Definition between (t : R) : Prop := s * x0 <= s * t <= s * xend.
Hypothesis Pprep : forall w x Y, PW w -> between x -> pc (prep w x Y) (fun r => PW (fst r)).
Hypothesis Patt : forall w aux x h Y, PW w -> between x -> between (x + h) -> 0 < s * h ->
  pc (attempt w aux x h Y) (fun r => PW (fst (fst r))).
Hypothesis Hsafe : 0 < (o_safe o : R) <= 1.
Hypothesis Hmx : 0 < hmaxn.
Hypothesis Hx : 0 < s * (xend - x0).

Notation rst := (@rst Rnum W).
Notation body := (@r_body Rnum W Ax attempt o s hmaxn).
Notation head := (@r_head Rnum W Ax prep xend s hmaxn).
Notation outer := (@r_outer Rnum W Ax prep attempt o xend s hmaxn).

(* current point and history *)
Definition base (st : rst) : Prop :=
  PW (s_w st) /\ between (s_x st) /\ s_x st = reached (s_hist st) /\ good_history (s_hist st) /\
  s_reject st = after_rejection (s_hist st).
Definition inI (st : rst) : Prop :=
  base st /\ 0 < s * s_h st <= s * (xend - s_x st) /\ s * s_h st <= 10001 / 10000 * hmaxn /\
  (s_last st = true -> s_h st = xend - s_x st) /\
  (s_last st = false -> s * s_h st < s * (xend - s_x st)) /\
  good_history (mkAtt (s_x st : Rnum) (s_h st : Rnum) true :: s_hist st).
Definition outI (st : rst) : Prop :=
  base st /\ s_reject st = false /\
  (if s_last st then s_x st = xend else 0 < s * (xend - s_x st)) /\
  match s_hist st with
  | nil => s_x st = x0 /\ s_h st = h0
  | a :: l => a_acc a = true /\ s_x st = a_x a + a_h a /\ proposal a l (s_h st)
  end.

Lemma head_real st : outI st -> s_last st = false -> pc (head st) (fun p => inI (fst p)).
Proof.
  intros ((HP & Hb & Hr & Hg & Hrej) & Hrj & Hl & Hh) El. rewrite El in Hl. unfold r_head.
  rewrite !mABS_R. cbn [nleb nmul Rnum]. unfold Rleb at 1. destruct (Rle_dec _ _) as [Hle|Hle]; [exact I|].
  assert (Hpos : 0 < Rabs (s_h st)).
  { assert (U : 0 < @r_uround Rnum) by (apply Rlit_gt0; lia).
    destruct (Rle_lt_dec (Rabs (s_h st)) 0) as [H|H]; [|exact H]. exfalso. apply Hle.
    pose proof (Rabs_pos (s_h st)). replace (Rabs (s_h st)) with 0 by lra. rewrite Rmult_0_r.
    apply Rmult_le_pos; [apply Rabs_pos|lra]. }
  clear Hle. cbn [nltb Rnum].
  set (p1 := if Rltb (Rabs (s_h st)) (@nlit Rnum 10 0 * @r_uround Rnum) then @nlit Rnum 1 (-6) else s_h st : R).
  assert (Ep1 : Rabs p1 = if Rlt_dec (Rabs (s_h st)) (1 / 10 ^ 15) then 1 / 10 ^ 6 else Rabs (s_h st)).
  { unfold p1. unfold Rltb. unfold r_uround. rlit.
    replace (10 * (1 / 10000000000000000)) with (1 / 10 ^ 15) by lra.
    destruct (Rlt_dec (Rabs (s_h st)) (1 / 10 ^ 15)); [|reflexivity]. rewrite Rabs_right; lra. }
  fold p1. rewrite mMIN_R. set (q := (Rmin (Rabs p1) hmaxn * s)%R).
  change (@nmul Rnum (Rmin (Rabs p1) hmaxn) s) with q.
  assert (Hp1 : 0 < Rabs p1). { rewrite Ep1. destruct (Rlt_dec _ _); lra. }
  assert (Hq : 0 < s * q <= hmaxn).
  { unfold q. replace (s * (Rmin (Rabs p1) hmaxn * s)) with (s * s * Rmin (Rabs p1) hmaxn) by ring. rewrite s_sq, Rmult_1_l.
    split; [apply Rmin_glb_lt; lra|apply Rmin_r]. }
  assert (Eq : q = s * Rmin (if Rlt_dec (Rabs (s_h st)) (1 / 10 ^ 15) then 1 / 10 ^ 6 else Rabs (s_h st)) hmaxn).
  { unfold q. rewrite Ep1. ring. }
  cbn [nadd nsub nmul Rnum]. unfold n0. cbn [nlit Rnum].
  assert (Es : (s_x st + q * Rlit 10001 (-4) - xend) * s = s * (s_x st + q * (10001 / 10000) - xend)).
  { rlit. ring. }
  rewrite Es, Rlit_0. set (stop := Rltb 0 (s * (s_x st + q * (10001 / 10000) - xend))).
  apply pc_bind. eapply pc_mono; [apply Pprep; assumption|]. intros [w' aux] Hw'. cbn [fst] in Hw'.
  cbn [pc fst]. unfold inI, base. cbn [s_x s_h s_Y s_w s_last s_reject s_hist].
  assert (Hadj : adjusted (s_x st) (s_h st) (if stop then xend - s_x st else q)).
  { exists q. split; [exact Eq|]. unfold stop. destruct (Rltb_spec 0 (s * (s_x st + q * (10001 / 10000) - xend))); [right|left]; split; auto; lra. }
  assert (Hcase : 0 < s * (if stop then xend - s_x st else q) <= s * (xend - s_x st) /\
                  s * (if stop then xend - s_x st else q) <= 10001 / 10000 * hmaxn /\
                  (stop = false -> s * (if stop then xend - s_x st else q) < s * (xend - s_x st))).
  { unfold stop. destruct (Rltb_spec 0 (s * (s_x st + q * (10001 / 10000) - xend))) as [Hst|Hst].
    - split; [lra|]. split; [|discriminate]. replace (s * (s_x st + q * (10001 / 10000) - xend)) with (10001/10000 * (s * q) - s * (xend - s_x st)) in Hst by ring. lra.
    - assert (s * (s_x st + q * (10001 / 10000) - xend) = 10001/10000 * (s * q) - s * (xend - s_x st)) as E by ring.
      rewrite E in Hst. split; [lra|]. split; [lra|]. intros _. lra. }
  assert (Hx0 : s * (if stop then xend - s_x st else q) <= s * (xend - x0)).
  { destruct Hb. apply Rle_trans with (s * (xend - s_x st)); [apply Hcase|]. lra. }
  split; [auto|]. split; [apply Hcase|]. split; [apply Hcase|].
  split; [|split].
  - destruct stop; [auto|]. rewrite El. discriminate.
  - destruct stop; [discriminate|]. intros _. apply Hcase. reflexivity.
  - cbn [good_history a_x a_h]. split; [exact Hg|]. split; [apply Hcase|]. split; [exact Hx0|].
    destruct (s_hist st) as [|a l].
    + destruct Hh as [E1 E]. split; [exact E1|]. rewrite <- E, <- E1 at 1. exact Hadj.
    + destruct Hh as (-> & E & Hp). split; [exact E|]. exists (s_h st). auto.
Qed.

Lemma good_history_head x h a a' l :
  good_history (mkAtt (x : Rnum) (h : Rnum) a :: l) -> good_history (mkAtt (x : Rnum) (h : Rnum) a' :: l).
Proof. cbn. auto. Qed.

Lemma body_real aux st : inI st -> pc (body aux st) (fun st' => if s_reject st' then inI st' else outI st').
Proof.
  intros ((HP & Hb & Hr & Hg & Hrej) & Hh & Hhm & Hl1 & Hl2 & Hgood). unfold r_body.
  assert (Hbh : between (s_x st + s_h st)). { destruct Hb. split; lra. }
  apply pc_bind. eapply pc_mono; [apply Patt; [exact HP|exact Hb|exact Hbh|apply Hh]|].
  intros [[w' Y'] err] Hw'. cbn [fst] in Hw'. cbn [pc]. unfold r_control.
  cbn [s_x s_h s_Y s_w s_last s_reject s_naccpt s_nrejct s_njac s_nstep s_ndec s_nsol s_nfcn s_hacc s_erracc s_first s_hist].
  cbn [nleb nltb Rnum nlit]. rewrite Rlit_0.
  destruct (Rleb_spec err 1) as [He|He]; cbn [s_reject].
  - (* accepted *)
    set (hn := if (o_gust o && (1 <? s_naccpt st + 1)%Z)%bool then r_hgus o (s_h st) err (s_hacc st) (s_erracc st) else r_hnew o (s_h st) err : R).
    assert (Hhn : (s * s_h st) / 5 <= s * hn <= 6 * (s * s_h st)).
    { unfold hn. destruct (o_gust o && _)%bool; [apply hgus_range|apply hnew_range]; apply Hh. }
    rewrite !mABS_R, !mMIN_R.
    set (h2 := if Rltb hmaxn (Rabs hn) then @nmul Rnum s hmaxn else hn : R).
    assert (Hh2 : (s * s_h st) / 5 <= s * h2 <= 6 * (s * s_h st) /\ s * h2 <= hmaxn).
    { unfold h2. rewrite (s_abs_pos hn) by lra. destruct (Rltb_spec hmaxn (s * hn)); cbn [nmul Rnum].
      - replace (s * (s * hmaxn)) with (s * s * hmaxn) by ring. rewrite s_sq, Rmult_1_l. lra.
      - lra. }
    change (if Rltb hmaxn (Rabs hn) then @nmul Rnum s hmaxn else hn) with h2.
    set (h3 := if s_reject st then @nmul Rnum s (Rmin (Rabs h2) (Rabs (s_h st))) else h2 : R).
    assert (Hh3 : (s * s_h st) / 5 <= s * h3 <= 6 * (s * s_h st) /\ s * h3 <= hmaxn /\
                  (s_reject st = true -> s * h3 <= s * s_h st)).
    { unfold h3. destruct (s_reject st); [|split; [apply Hh2|split; [apply Hh2|discriminate]]]. cbn [nmul Rnum].
      rewrite !s_abs_pos by lra. replace (s * (s * Rmin (s * h2) (s * s_h st))) with (s * s * Rmin (s * h2) (s * s_h st)) by ring.
      rewrite s_sq, Rmult_1_l. pose proof (Rmin_l (s * h2) (s * s_h st)). pose proof (Rmin_r (s * h2) (s * s_h st)).
      split; [split|split]; try lra. apply Rmin_glb; lra. }
    unfold outI, base. cbn [s_x s_h s_Y s_w s_last s_reject s_hist nadd Rnum].
    split; [|split; [reflexivity|split]].
    + split; [exact Hw'|]. split; [exact Hbh|]. split; [reflexivity|]. split; [exact Hgood|reflexivity].
    + destruct (s_last st) eqn:El; [rewrite Hl1 by reflexivity; lra|]. specialize (Hl2 eq_refl).
      rewrite Rmult_minus_distr_l, Rmult_plus_distr_l. lra.
    + cbn [a_acc a_x a_h]. split; [reflexivity|]. split; [reflexivity|].
      unfold proposal. cbn [a_h]. rewrite <- Hrej. exact Hh3.
  - (* rejected *)
    pose proof (hnew_range o (s_h st) err (proj1 Hh)) as Hn1.
    pose proof (hnew_reject o (s_h st) err (proj1 Hh) Hsafe ltac:(lra)) as Hn2.
    unfold inI, base. cbn [s_x s_h s_Y s_w s_last s_reject s_hist].
    split; [|split; [|split; [|split; [|split]]]].
    + split; [exact Hw'|]. split; [exact Hb|]. split; [reflexivity|]. split; [|reflexivity].
      apply (good_history_head _ _ true). exact Hgood.
    + lra.
    + lra.
    + discriminate.
    + intros _. lra.
    + pose proof Hgood as Hgood'. cbn [good_history a_x a_h a_acc] in Hgood'. destruct Hgood' as (G1 & G2 & G3 & G4).
      split; [split; [exact G1|split; [exact G2|split; [exact G3|exact G4]]]|]. cbn [a_x a_h a_acc]. split; [lra|]. split; [lra|]. split; [reflexivity|]. split; lra.
Qed.

Lemma outer_real fuel ifuel w y a b c : PW w ->
  pc (outer fuel ifuel (@r_init Rnum W w h0 x0 y a b c)) (fun st =>
    base st /\ (o_onestep o = false -> s_x st = xend)).
Proof.
  intros HPw.
  apply (@outer_rule Rnum W Ax prep attempt o xend s hmaxn
           outI outI _ (fun _ => inI)).
  - intros st HI El. destruct HI as (Hbase & _ & H & _). rewrite El in H. auto.
  - apply head_real.
  - apply body_real.
  - intros st HI _. destruct (o_onestep o); [|exact HI]. split; [apply HI|discriminate].
  - unfold outI, base. cbn. unfold between. repeat split; auto; try lra.
Qed.
End Dir.
