(* The driver theorems of RodasReal.v for the two directions, the abscissae of the calls
   of the right-hand side, termination, and backward integration. *)
From Coq Require Import Reals Lra Psatz.
From Verif Require Import Base HessModel CMacros VecFun JacModel JacProofs RodasModel RodasProofs RodasReal.
Open Scope R_scope.

Lemma forM_pc {St} (P : St -> Prop) lo hi (f : Z -> St -> out St) st :
  (forall j t, P t -> pc (f j t) P) -> P st -> pc (forM lo hi f st) P.
Proof.
  intros Hf. unfold forM. generalize (Z.to_nat (hi - lo + 1)) as k. intros k. revert lo st.
  induction k as [|k IH]; intros lo st H; cbn [iterM]; [exact H|]. apply pc_bind.
  eapply pc_mono; [apply Hf; exact H|]. intros t Ht. apply IH. exact Ht.
Qed.

(* ---- the set-up of the two directions ---------------------------------------- *)
Lemma posneg_fwd x xend : x < xend -> @r_posneg Rnum x xend = 1.
Proof. intros H. unfold r_posneg. rewrite mSIGN_R. cbn. destruct (Rle_dec _ _); lra. Qed.
Lemma posneg_bwd x xend : xend < x -> @r_posneg Rnum x xend = -1.
Proof. intros H. unfold r_posneg. rewrite mSIGN_R. cbn. destruct (Rle_dec _ _); lra. Qed.
Lemma hmaxn_fwd x xend : x < xend -> @r_hmaxn Rnum x xend = xend - x.
Proof.
  intros H. unfold r_hmaxn. rewrite mMIN_R, mABS_R, mABS_diff_R. cbn. destruct (Rle_dec _ _); [|lra].
  rewrite Rabs_right by lra. apply Rmin_left. lra.
Qed.
Lemma hmaxn_bwd x xend : xend < x -> @r_hmaxn Rnum x xend = Rmin (x - xend) (- xend - x).
Proof.
  intros H. unfold r_hmaxn. rewrite mMIN_R, mABS_R, mABS_diff_R. cbn. destruct (Rle_dec _ _); [lra|].
  rewrite Rabs_left by lra. f_equal. lra.
Qed.

Section Top.
Variables W Ax : Type.
Variable prep : W -> R -> (Z -> R) -> out (W * Ax).
Variable attempt : W -> Ax -> R -> R -> (Z -> R) -> out (W * (Z -> R) * R).
Variable o : ropts Rnum.
Variable PW : W -> Prop.
Hypothesis Hsafe : 0 < (o_safe o : R) <= 1.
Variables x0 h0 xend : R.
(* the direction s, with a positive step limit: forward always, backward only if
   x0 + xend < 0 (line 327 computes -xend-x0 for |xend-x0|) *)
Definition usable (s : R) : Prop :=
  (s = 1 /\ x0 < xend) \/ (s = -1 /\ xend < x0 /\ x0 + xend < 0).
Variable s : R.
Hypothesis Hu : usable s.
Definition limit : R := if Rlt_dec x0 xend then xend - x0 else Rmin (x0 - xend) (- xend - x0).
Lemma setup : (s = 1 \/ s = -1) /\ @r_posneg Rnum x0 xend = s /\ @r_hmaxn Rnum x0 xend = limit /\
  0 < limit <= s * (xend - x0) /\ 0 < s * (xend - x0).
Proof.
  unfold limit. destruct Hu as [[-> H]|[-> [H1 H2]]].
  - rewrite posneg_fwd, hmaxn_fwd by exact H. destruct (Rlt_dec _ _); [|lra]. repeat split; auto; lra.
  - rewrite posneg_bwd, hmaxn_bwd by exact H1. destruct (Rlt_dec _ _); [lra|].
    pose proof (Rmin_l (x0 - xend) (- xend - x0)). repeat split; auto; try lra. apply Rmin_glb_lt; lra.
Qed.
Lemma rodas_real fuel ifuel w y a b c :
  (forall w x Y, PW w -> between s x0 xend x -> pc (prep w x Y) (fun r => PW (fst r))) ->
  (forall w aux x h Y, PW w -> between s x0 xend x -> between s x0 xend (x + h) -> 0 < s * h ->
     pc (attempt w aux x h Y) (fun r => PW (fst (fst r)))) ->
  PW w ->
  pc (@rodas Rnum W Ax prep attempt o fuel ifuel w h0 x0 xend y a b c) (fun r => let st := fst r in
    PW (s_w st) /\ between s x0 xend (s_x st) /\ s_x st = reached x0 (s_hist st) /\
    good_history s x0 h0 xend limit (s_hist st) /\ (o_onestep o = false -> s_x st = xend)).
Proof.
  intros Hp Ha Hw. destruct setup as (Hs & E1 & E2 & Hl & Hx). unfold rodas. rewrite E1, E2.
  apply pc_bind. eapply pc_mono; [apply (outer_real s Hs x0 h0 xend limit W Ax prep attempt o PW Hp Ha Hsafe (proj1 Hl) Hx); exact Hw|].
  intros st ((H1 & H2 & H3 & H4 & _) & H5). cbn. auto 6.
Qed.
End Top.

(* ---- consequences of a good history ------------------------------------------ *)
Section Hist.
Variables s x0 h0 xend hm : R.
Hypothesis Hs : s = 1 \/ s = -1.
Hypothesis Hhm : 0 < hm.
Notation good := (good_history s x0 h0 xend hm).
Definition subrun (l' l : list (att Rnum)) : Prop := exists newer, l = (newer ++ l')%list.
Lemma good_sub l l' : subrun l' l -> good l -> good l'.
Proof.
  intros [newer ->]. induction newer as [|a newer IH]; cbn [app]; [auto|].
  intros H. apply IH. exact (proj1 H).
Qed.
(* consecutive attempts a, b *)
Lemma good_factors b a l : good (b :: a :: l) ->
  (* advance or stay *)
  a_x b = (if a_acc a then a_x a + a_h a else a_x a) /\
  (* in the interval, in the right direction *)
  0 < s * a_h b <= s * (xend - a_x b) /\
  (* growth *)
  (s * a_h b <= 60006 / 10000 * (s * a_h a) \/ s * a_h a < 5 / 10 ^ 15) /\
  (* decrease, unless this is the last stretch *)
  (s * a_h a / 5 <= s * a_h b \/ a_h b = xend - a_x b) /\
  (a_acc a = false -> s * a_h b < s * a_h a) /\
  (a_acc a = true -> after_rejection l = true ->
     s * a_h b <= 10001 / 10000 * (s * a_h a) \/ s * a_h a < 5 / 10 ^ 15).
Proof.
  intros (Hg & Hb & Hb2 & H). destruct Hg as (_ & Ha & _). destruct (a_acc a) eqn:Ea.
  - destruct H as (Ex & p & (Hp1 & Hp2 & Hp3) & (q & Eq & Hq)).
    rewrite Ex in *. split; [reflexivity|]. split; [exact Hb|].
    assert (Hpp : 0 < s * p) by lra.
    assert (Hap : Rabs p = s * p) by (apply s_abs_pos; assumption).
    assert (Hsq : s * q = Rmin (if Rlt_dec (Rabs p) (1 / 10 ^ 15) then 1 / 10 ^ 6 else Rabs p) hm).
    { rewrite Eq. rewrite <- Rmult_assoc, (s_sq s Hs). ring. }
    rewrite Hap in Hsq.
    assert (Hcase : (s * p < 1 / 10 ^ 15) \/ s * q = s * p).
    { destruct (Rlt_dec (s * p) (1 / 10 ^ 15)); [left; assumption|right]. rewrite Hsq. apply Rmin_left. exact Hp2. }
    assert (Hqb : s * a_h b <= 10001 / 10000 * (s * q)).
    { assert (0 < s * q). { rewrite Hsq. apply Rmin_glb_lt; [destruct (Rlt_dec (s * p) (1 / 10 ^ 15)); lra|exact Hhm]. }
      destruct Hq as [[-> _]|[-> Hq]]; [lra|].
      replace (s * (a_x a + a_h a + q * (10001 / 10000) - xend)) with (10001/10000 * (s * q) - s * (xend - (a_x a + a_h a))) in Hq by ring. lra. }
    assert (Hbq : s * p <= s * q \/ s * q = hm).
    { rewrite Hsq. destruct (Rlt_dec (s * p) (1 / 10 ^ 15)).
      - destruct (Rle_dec (1/10^6) hm); [left; rewrite Rmin_left; lra|right; apply Rmin_right; lra].
      - left. rewrite Rmin_left; lra. }
    split; [|split; [|split]].
    + destruct Hcase as [Hc|Hc]; [right; lra|left; rewrite Hc in Hqb; lra].
    + destruct Hq as [[Eb _]|[Eb _]]; [left|right; exact Eb]. rewrite Eb. lra.
    + discriminate.
    + intros _ Hr. specialize (Hp3 Hr). destruct Hcase as [Hc|Hc]; [right; lra|left; rewrite Hc in Hqb; lra].
  - destruct H as (Ex & Hh). rewrite Ex in *. split; [reflexivity|]. split; [exact Hb|].
    split; [left; lra|]. split; [left; lra|]. split; [intros _; lra|discriminate].
Qed.
End Hist.

(* ---- abscissae of the calls ---------------------------------------------------- *)
Section Trace.
Variables Sg La : Type.
Variable userF : Sg -> R -> (Z -> R) -> Sg * (Z -> R).
Variable userJ : Sg -> R -> (Z -> R) -> (Z -> R) -> (Z -> R) -> Sg * (Z -> R).
Variable userDt : Sg -> R -> (Z -> R) -> Sg * (Z -> R).
Variable decomr : La -> R -> (Z -> R) -> out (La * (Z -> R)).
Variable solvereal : La -> (Z -> R) -> (Z -> R) -> out (Z -> R).
Variable set_calhes : La -> La.
Variable n : Z.
Variable sh : shape.
Variables numjac autonms use_DF_t : bool.
Variable C : rcoef Rnum.
Variables atol rtol : Z -> R.
Variable junk : Z -> R.
Variables s x0 xend : R.
Hypothesis Hs : s = 1 \/ s = -1.
Hypothesis HC : 0 <= (rC2 C : R) <= 1 /\ 0 <= (rC3 C : R) <= 1 /\ 0 <= (rC4 C : R) <= 1.

Definition fd_point (t : R) : Prop := exists x, between s x0 xend x /\ t = x + sqrt (1 / 10 ^ 16 * Rmax (1 / 10 ^ 5) (Rabs x)).
Definition ok_point (t : R) : Prop :=
  between s x0 xend t \/ (autonms = false /\ use_DF_t = false /\ fd_point t).
Notation world := (@world Rnum Sg La).
Definition ok_trace (w : world) : Prop := Forall ok_point (snd (w_f w)).
Notation prep := (@r_prep Rnum Sg La userF userJ userDt set_calhes n sh numjac autonms use_DF_t r_uround junk).
Notation attempt := (@r_attempt Rnum Sg La userF decomr solvereal n autonms C atol rtol).
Lemma callF_trace (f : fst_ (K := Rnum) Sg) t y : snd (fst (@callF Rnum Sg userF f t y)) = t :: snd f.
Proof. unfold callF. destruct (userF _ _ _). reflexivity. Qed.
Lemma jac_trace f t y Fy J : Forall ok_point (snd f) -> ok_point t ->
  pc (@jacobian Rnum _ (@callF Rnum Sg userF) n sh r_uround f t y Fy J) (fun r => Forall ok_point (snd (fst (fst r)))).
Proof.
  intros Hf Ht. unfold jacobian.
  apply (forM_pc (fun st => Forall ok_point (snd (fst (fst st))))); [|exact Hf].
  clear Hf f y J. intros j [[f y] J] Hf. cbn [fst snd] in Hf.
  destruct (rd 1 n y j) as [ysafe| | |]; cbn [bind]; try exact I.
  destruct (wr 1 n y j _) as [y1| | |]; cbn [bind]; try exact I.
  match goal with |- context [@callF Rnum Sg userF ?a ?b ?c] => pose proof (callF_trace a b c) as E; destruct (@callF Rnum Sg userF a b c) as [f' R'] end.
  cbn [fst] in E. destruct (forM _ _ _ J) as [J'| | |]; cbn [bind]; try exact I.
  destruct (wr 1 n _ j _) as [y'| | |]; cbn [bind pc fst]; try exact I.
  refine (eq_ind_r (Forall ok_point) _ E). constructor; assumption.
Qed.
Lemma prep_trace w x Y : ok_trace w -> between s x0 xend x -> pc (prep w x Y) (fun r => ok_trace (fst r)).
Proof.
  intros Hw Hx. unfold r_prep.
  pose proof (callF_trace (w_f w) x Y) as E. destruct (@callF Rnum Sg userF (w_f w) x Y) as [f1 DY1]. cbn [fst] in E.
  assert (H1 : Forall ok_point (snd f1)). { refine (eq_ind_r (Forall ok_point) _ E). constructor; [left; exact Hx|exact Hw]. }
  apply pc_bind.
  assert (H2 : pc (if numjac
    then '(s1, Y', Jac) <- jacobian (@callF Rnum Sg userF) n sh (r_uround : Rnum) f1 x Y DY1 (w_jac w) ;; Ok (s1, Jac)
    else let '(u, Jac) := userJ (fst f1) x Y DY1 (w_jac w) in Ok (u, snd f1, Jac)) (fun r => Forall ok_point (snd (fst r)))).
  { destruct numjac.
    - apply pc_bind. eapply pc_mono; [apply jac_trace; [exact H1|left; exact Hx]|]. intros [[f2 y2] J2] H. exact H.
    - destruct (userJ _ _ _ _ _). exact H1. }
  eapply pc_mono; [exact H2|]. clear H2. intros [f2 J2] H2. cbn [fst] in H2.
  unfold DF_X. destruct autonms eqn:Ea; [exact H2|].
  destruct use_DF_t eqn:Ed; [destruct (userDt _ _ _); exact H2|].
  match goal with |- context [@callF Rnum Sg userF ?a ?b ?c] => pose proof (callF_trace a b c) as E2; destruct (@callF Rnum Sg userF a b c) as [f3 D3] end.
  cbn [fst] in E2. unfold ok_trace. cbn [pc fst w_f]. refine (eq_ind_r (Forall ok_point) _ E2). constructor; [|exact H2].
  right. split; [exact Ea|]. split; [exact Ed|]. exists x. split; [exact Hx|].
  rewrite mMAX_R, mABS_R. cbn [nsqrt nadd nmul nlit Rnum]. unfold r_uround. rlit. replace (1 / 10 ^ 16) with (1 / 10000000000000000) by lra. replace (1 / 10 ^ 5) with (1 / 100000) by lra. reflexivity.
Qed.
Lemma mid_point (x h c : R) : between s x0 xend x -> between s x0 xend (x + h) -> 0 < s * h -> 0 <= c <= 1 -> between s x0 xend (x + c * h).
Proof.
  unfold between. intros H1 H2 H3 Hc.
  replace (s * (x + c * h)) with (s * x + c * (s * h)) by ring.
  replace (s * (x + h)) with (s * x + s * h) in H2 by ring. split; nra.
Qed.
Ltac call Hx :=
  cbv zeta; match goal with |- context [@callF Rnum Sg userF ?f ?t ?c] =>
    let E := fresh "E" in let f' := fresh "f" in let D := fresh "D" in
    pose proof (callF_trace f t c) as E; destruct (@callF Rnum Sg userF f t c) as [f' D]; cbn [fst] in E;
    match goal with H : Forall ok_point (snd f) |- _ =>
      let H' := fresh "Hf" in assert (H' : Forall ok_point (snd f')) by (refine (eq_ind_r (Forall ok_point) _ E); constructor; [left; Hx|exact H]) end
  end.
Ltac slv := cbv zeta; match goal with |- pc (bind ?m _) _ => destruct m as [?| | |]; cbn [bind]; [|exact I|exact I|exact I] end.
Lemma attempt_trace w aux x h Y : ok_trace w -> between s x0 xend x -> between s x0 xend (x + h) -> 0 < s * h ->
  pc (attempt w aux x h Y) (fun r => ok_trace (fst (fst r))).
Proof.
  intros Hw Hx Hxh Hh. unfold r_attempt. destruct aux as [DY1 FX].
  destruct (decomr _ _ _) as [[la Jac]| | |]; cbn [bind]; try exact I. unfold ok_trace in Hw.
  destruct HC as (C2 & C3 & C4).
  slv. call ltac:(apply mid_point; assumption).
  slv. call ltac:(apply mid_point; assumption).
  slv. call ltac:(apply mid_point; assumption).
  slv. call ltac:(exact Hxh).
  slv. call ltac:(exact Hxh).
  slv. unfold ok_trace. cbn [pc fst w_f]. assumption.
Qed.
End Trace.

Lemma rocoe_nodes meth (C : rcoef Rnum) : @rocoe Rnum meth = Ok C ->
  0 <= (rC2 C : R) <= 1 /\ 0 <= (rC3 C : R) <= 1 /\ 0 <= (rC4 C : R) <= 1.
Proof.
  unfold rocoe. destruct (meth =? 1)%Z; [|destruct (meth =? 2)%Z; [|destruct (meth =? 3)%Z; [|discriminate]]];
    intros H; injection H as <-; cbn [rC2 rC3 rC4]; rlit; lra.
Qed.
