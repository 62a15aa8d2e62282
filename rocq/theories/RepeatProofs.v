(* Which members of a Rodas or Radau5 object carry information from one call to the next *)
From Coq Require Import ZArith Lia Bool List.
From Verif Require Import Base Spec HessModel VecFun CMacros JacModel JacProofs RodasModel RepeatSpec.
Open Scope Z_scope.

Lemma both_bind {A B A' B'} (R : A -> B -> Prop) (Q : A' -> B' -> Prop) a b f g :
  both R a b -> (forall x y, R x y -> both Q (f x) (g y)) -> both Q (bind a f) (bind b g).
Proof. intros H HQ. destruct a, b; cbn in *; try contradiction; try assumption. apply HQ. exact H. Qed.
Lemma both_mono {A B} (R Q : A -> B -> Prop) a b : both R a b -> (forall x y, R x y -> Q x y) -> both Q a b.
Proof. intros H HQ. destruct a, b; cbn in *; try contradiction; try assumption. apply HQ. exact H. Qed.
Lemma both_iterM {St St'} (R : Z -> St -> St' -> Prop) k : forall i f g s s', R i s s' ->
  (forall j t t', i <= j < i + Z.of_nat k -> R j t t' -> both (R (j + 1)) (f j t) (g j t')) ->
  both (R (i + Z.of_nat k)) (iterM k i f s) (iterM k i g s').
Proof.
  induction k as [|k IH]; intros i f g s s' H0 H; cbn [iterM].
  - rewrite Z.add_0_r. exact H0.
  - eapply both_bind; [apply H; [lia|exact H0]|]. intros x y Hxy.
    replace (i + Z.of_nat (S k)) with (i + 1 + Z.of_nat k) by lia. apply IH; [exact Hxy|]. intros j t t' Hj. apply H. lia.
Qed.
Lemma both_forM {St St'} (R : Z -> St -> St' -> Prop) lo hi f g s s' : lo <= hi + 1 -> R lo s s' ->
  (forall j t t', lo <= j <= hi -> R j t t' -> both (R (j + 1)) (f j t) (g j t')) ->
  both (R (hi + 1)) (forM lo hi f s) (forM lo hi g s').
Proof.
  intros Hl H0 H. unfold forM. replace (hi + 1) with (lo + Z.of_nat (Z.to_nat (hi - lo + 1))) at 1 by lia.
  apply both_iterM; [exact H0|]. intros j t t' Hj. apply H. lia.
Qed.
Lemma iter_same {St} k : forall i (f g : Z -> St -> St) s, (forall j t, i <= j < i + Z.of_nat k -> f j t = g j t) -> iter k i f s = iter k i g s.
Proof.
  induction k as [|k IH]; intros i f g s H; cbn [iter]; [reflexivity|]. rewrite H by lia. apply IH. intros j t Hj. apply H. lia.
Qed.
Lemma for_same {St} lo hi (f g : Z -> St -> St) s : (forall j t, lo <= j <= hi -> f j t = g j t) -> for_ lo hi f s = for_ lo hi g s.
Proof. intros H. unfold for_. apply iter_same. intros j t Hj. apply H. lia. Qed.

Section Common.
Context {K : num}.
Variable n : Z.
Variable sh : shape.
Hypothesis Hn : 1 <= n.
Hypothesis Hsh : shape_ok sh.
Notation vag := (@vagree K n).
Notation jag := (@jagree K n sh).
Lemma vagree_refl v : vag v v.
Proof. intros i _. reflexivity. Qed.

(* the finite-difference Jacobian *)
Section Fd.
Variables (Sg : Type) (F : Sg -> K -> (Z -> K) -> Sg * (Z -> K)) (Rs : Sg -> Sg -> Prop).
Hypothesis HF : forall s s' t y y', Rs s s' -> vag y y' -> Rs (fst (F s t y)) (fst (F s' t y')) /\ vag (snd (F s t y)) (snd (F s' t y')).
Lemma jacobian_both u s s' t y y' Fy Fy' J J' : Rs s s' -> vag y y' -> vag Fy Fy' ->
  both (fun r r' => Rs (fst (fst r)) (fst (fst r')) /\ jag (snd r) (snd r')) (jacobian F n sh u s t y Fy J) (jacobian F n sh u s' t y' Fy' J').
Proof.
  intros Hs Hy Hfy. unfold jacobian.
  eapply both_mono; [apply (both_forM (fun j (r r' : Sg * (Z -> K) * (Z -> K)) => Rs (fst (fst r)) (fst (fst r')) /\ vag (snd (fst r)) (snd (fst r')) /\
     forall i k, in_shape n sh i k -> k < j -> snd r (sh_off n sh i k) = snd r' (sh_off n sh i k)))|].
  - lia.
  - cbn [fst snd]. split; [exact Hs|]. split; [exact Hy|]. intros i k Hik Hk. apply range_in_shape in Hik. lia.
  - intros j [[s1 y1] J1] [[s1' y1'] J1'] Hj (H1 & H2 & H3). cbn [fst snd] in H1, H2, H3.
    rewrite !rd_ok by lia. cbn [bind]. rewrite !wr_ok by lia. cbn [bind]. rewrite (H2 j Hj).
    set (d := fd_delta u (y1' j)). set (yy := upd y1 j (y1' j + d)%num). set (yy' := upd y1' j (y1' j + d)%num).
    assert (Hyy : vag yy yy'). { intros i Hi. unfold yy, yy', upd. destruct (i =? j); [reflexivity|apply H2; exact Hi]. }
    destruct (HF s1 s1' t yy yy' H1 Hyy) as [G1 G2]. destruct (F s1 t yy) as [s2 R2]. destruct (F s1' t yy') as [s2' R2']. cbn [fst snd] in G1, G2.
    eapply both_bind.
    + apply (both_forM (fun i (J2 J2' : Z -> K) => forall p k, in_shape n sh p k -> k < j \/ k = j /\ p < i -> J2 (sh_off n sh p k) = J2' (sh_off n sh p k))).
      * apply sh_range; [exact Hsh|exact Hj].
      * intros p k Hpk [Hk|[-> Hp]]; [apply H3; assumption|]. apply range_in_shape in Hpk. lia.
      * intros i J2 J2' Hi HJ. pose proof (in_shape_range n sh i j Hj Hi) as Hs2. destruct (range_in_shape n sh i j Hs2) as (_ & _ & Hir).
        rewrite !rd_ok by lia. cbn [bind]. rewrite !sh_set_ok by assumption. cbn [both]. intros p k Hpk Hk. rewrite (G2 i Hir), (Hfy i Hir).
        unfold upd. destruct (Z.eqb_spec (sh_off n sh p k) (sh_off n sh i j)) as [E|E]; [reflexivity|]. apply HJ; [exact Hpk|].
        destruct Hk as [Hk|[-> Hk]]; [left; exact Hk|]. right. split; [reflexivity|].
        destruct (Z.eq_dec p i) as [->|]; [contradiction|lia].
    + intros J2 J2' HJ. rewrite !wr_ok by lia. cbn [bind both fst snd]. split; [exact G1|]. split.
      * intros i Hi. unfold upd. destruct (i =? j); [reflexivity|apply Hyy; exact Hi].
      * intros i k Hik Hk. apply HJ; [exact Hik|]. destruct (range_in_shape n sh i k Hik) as (_ & ? & _). assert (k < j \/ k = j) as [?| ->] by lia; [left; lia|right; split; [reflexivity|lia]].
  - cbv beta. intros r r' (H1 & _ & H3). split; [exact H1|]. intros i k Hik. apply H3; [exact Hik|]. apply range_in_shape in Hik. lia.
Qed.
End Fd.
End Common.

(* ---- Rodas: the driver ------------------------------------------------------------------ *)
Section RodasDriver.
Context {K : num}.
Variables W Ax : Type.
Variable prep prep' : W -> K -> (Z -> K) -> out (W * Ax).
Variable attempt : W -> Ax -> K -> K -> (Z -> K) -> out (W * (Z -> K) * K).
Variable Ry : (Z -> K) -> (Z -> K) -> Prop.
Variable Rw : W -> W -> Prop.
Variable Rp : W -> Ax -> W -> Ax -> Prop.
Variable o : ropts K.
Hypothesis Hprep : forall w w' x Y Y', Rw w w' -> Ry Y Y' -> both (fun p p' => Rp (fst p) (snd p) (fst p') (snd p')) (prep w x Y) (prep' w' x Y').
Hypothesis Hatt : forall w a w' a' x h Y Y', Rp w a w' a' -> Ry Y Y' ->
  both (fun p p' => Rp (fst (fst p)) a (fst (fst p')) a' /\ Ry (snd (fst p)) (snd (fst p')) /\ snd p = snd p') (attempt w a x h Y) (attempt w' a' x h Y').
Hypothesis Hpw : forall w a w' a', Rp w a w' a' -> Rw w w'.
Notation rst := (@rst K W).
(* everything agrees; what the control of the step size remembers, once it has been set *)
Definition same_rst (RW : W -> W -> Prop) (st st' : rst) : Prop :=
  s_x st = s_x st' /\ s_h st = s_h st' /\ Ry (s_Y st) (s_Y st') /\ RW (s_w st) (s_w st') /\ s_last st = s_last st' /\ s_reject st = s_reject st' /\
  s_naccpt st = s_naccpt st' /\ s_nrejct st = s_nrejct st' /\ s_njac st = s_njac st' /\ s_nstep st = s_nstep st' /\ s_ndec st = s_ndec st' /\
  s_nsol st = s_nsol st' /\ s_nfcn st = s_nfcn st' /\ s_hist st = s_hist st' /\ 0 <= s_naccpt st /\
  (s_naccpt st <> 0 -> s_first st = s_first st' /\ (o_gust o = true -> s_hacc st = s_hacc st' /\ s_erracc st = s_erracc st')).
Variables xend posneg hmaxn : K.
Lemma control_both (RW : W -> W -> Prop) st st' w w' Yn Yn' err : same_rst (fun _ _ => True) st st' -> RW w w' -> Ry Yn Yn' ->
  same_rst RW (r_control o posneg hmaxn st w Yn err) (r_control o posneg hmaxn st' w' Yn' err).
Proof.
  intros H Hw HY. destruct st as [x h Y w0 la re na nr nj ns nd nso nf ha er fi hi], st' as [x' h' Y' w0' la' re' na' nr' nj' ns' nd' nso' nf' ha' er' fi' hi'].
  unfold same_rst in H. cbn in H. destruct H as (-> & -> & HY0 & _ & -> & -> & -> & -> & -> & -> & -> & -> & -> & -> & Hna & Hm).
  unfold r_control. cbn [s_x s_h s_Y s_w s_last s_reject s_naccpt s_nrejct s_njac s_nstep s_ndec s_nsol s_nfcn s_hacc s_erracc s_first s_hist].
  destruct (err <=? nlit 1 0)%num.
  - assert (E : (if o_gust o && (1 <? na' + 1) then r_hgus o h' err ha er else r_hnew o h' err) =
                (if o_gust o && (1 <? na' + 1) then r_hgus o h' err ha' er' else r_hnew o h' err)).
    { destruct (o_gust o) eqn:Eg; [|reflexivity]. cbn [andb]. destruct (Z.ltb_spec 1 (na' + 1)); [|reflexivity].
      destruct (Hm ltac:(lia)) as [_ Hh]. destruct (Hh eq_refl) as [-> ->]. reflexivity. }
    rewrite E. unfold same_rst. cbn. do 15 (split; [first [reflexivity|assumption|lia]|]). intros _. split.
    + destruct (Z.eqb_spec na' 0); [reflexivity|]. apply Hm. assumption.
    + intros ->. split; reflexivity.
  - unfold same_rst. cbn. do 15 (split; [first [reflexivity|assumption|lia]|]). exact Hm.
Qed.
Lemma body_both a a' st st' : same_rst (fun w w' => Rp w a w' a') st st' ->
  both (same_rst (fun w w' => Rp w a w' a')) (r_body attempt o posneg hmaxn a st) (r_body attempt o posneg hmaxn a' st').
Proof.
  intros H. unfold r_body. destruct H as (E1 & E2 & E3 & E4 & E5 & E6 & E7 & E8 & E9 & E10 & E11 & E12 & E13 & E14 & E15 & E16). rewrite <- E1, <- E2.
  eapply both_bind; [apply Hatt; [exact E4|exact E3]|]. intros [[w Yn] err] [[w' Yn'] err'] (G1 & G2 & G3). cbn [fst snd] in G1, G2, G3. subst err'. cbn [both].
  apply control_both; [|exact G1|exact G2]. unfold same_rst. cbn [s_x s_h s_Y s_w s_last s_reject s_naccpt s_nrejct s_njac s_nstep s_ndec s_nsol s_nfcn s_hacc s_erracc s_first s_hist].
  do 14 (split; [first [reflexivity|exact E3|exact I|congruence]|]). split; [exact E15|]. exact E16.
Qed.
Lemma inner_both a a' fuel : forall st st', same_rst (fun w w' => Rp w a w' a') st st' ->
  both (same_rst (fun w w' => Rp w a w' a')) (r_inner attempt o posneg hmaxn fuel a st) (r_inner attempt o posneg hmaxn fuel a' st').
Proof.
  induction fuel as [|f IH]; intros st st' H; [exact I|]. cbn [r_inner]. eapply both_bind; [apply body_both; exact H|]. intros s1 s1' H1.
  pose proof H1 as (_ & _ & _ & _ & _ & E & _). rewrite <- E. destruct (s_reject s1); [apply IH; exact H1|exact H1].
Qed.
Lemma outer_both fuel ifuel : forall st st', same_rst Rw st st' ->
  both (same_rst Rw) (r_outer prep attempt o xend posneg hmaxn fuel ifuel st) (r_outer prep' attempt o xend posneg hmaxn fuel ifuel st').
Proof.
  induction fuel as [|f IH]; intros st st' H; pose proof H as (E1 & E2 & E3 & E4 & E5 & E6 & E7 & E8 & E9 & E10 & E11 & E12 & E13 & E14 & E15 & E16).
  - cbn [r_outer]. rewrite <- E5. destruct (s_last st); [exact H|exact I].
  - cbn [r_outer]. rewrite <- E5. destruct (s_last st) eqn:EL; [exact H|].
    eapply (both_bind (fun p p' => same_rst (fun w w' => Rp w (snd p) w' (snd p')) (fst p) (fst p'))).
    + unfold r_head. cbv zeta. rewrite <- E1, <- E2. destruct (_ <=? _)%num; [reflexivity|].
      eapply both_bind; [apply Hprep; [exact E4|exact E3]|]. intros [w a] [w' a'] Hp. cbn [fst snd] in Hp. cbn [both fst snd].
      unfold same_rst. cbn [s_x s_h s_Y s_w s_last s_reject s_naccpt s_nrejct s_njac s_nstep s_ndec s_nsol s_nfcn s_hacc s_erracc s_first s_hist].
      rewrite EL, <- E5. do 14 (split; [first [reflexivity|exact E3|exact Hp|congruence]|]). split; [exact E15|]. exact E16.
    + intros [s1 a] [s1' a'] H1. cbn [fst snd] in H1. eapply both_bind; [apply inner_both; exact H1|]. intros s2 s2' H2.
      assert (H3 : same_rst Rw s2 s2').
      { destruct H2 as (A1 & A2 & A3 & A4 & A5). unfold same_rst. do 4 (split; [first [assumption|eapply Hpw; exact A4]|]). exact A5. }
      pose proof H2 as (_ & _ & _ & _ & _ & _ & _ & _ & _ & E & _). rewrite <- E.
      destruct (o_nmax o <? s_nstep s2); [reflexivity|]. destruct (o_onestep o); [exact H3|]. apply IH. exact H3.
Qed.
End RodasDriver.

(* ---- Rodas: the steps ------------------------------------------------------------------- *)
Section RodasStep.
Context {K : num}.
Variables Sg La : Type.
Variable userF : Sg -> K -> vec K -> Sg * vec K.
Variable userJ : Sg -> K -> vec K -> vec K -> vec K -> Sg * vec K.
Variable userDt : Sg -> K -> vec K -> Sg * vec K.
Variable decomr : La -> K -> vec K -> out (La * vec K).
Variable solvereal : La -> vec K -> vec K -> out (vec K).
Variable set_calhes : La -> La.
Variable n : Z.
Variable sh : shape.
Variables numjac autonms use_DF_t : bool.
Variable uround : K.
Variable C : rcoef K.
Variables atol rtol : vec K.
Hypothesis Hn : 1 <= n.
Hypothesis Hsh : shape_ok sh.
Variable Rep : La -> vec K -> La -> vec K -> Prop.
Hypothesis HF : reads_n n userF.
Hypothesis HJ : writes_jac n sh userJ.
Hypothesis HDt : reads_n n userDt.
Hypothesis Hnew : starts_anew n sh La set_calhes Rep.
Hypothesis Hreal : real_anew n La decomr solvereal Rep.
Notation vag := (@vagree K n).
Notation wld := (@world K Sg La).
Definition rep_w (w w' : wld) : Prop := fst (w_f w) = fst (w_f w').
Definition rep_p (w : wld) (a : vec K * vec K) (w' : wld) (a' : vec K * vec K) : Prop :=
  rep_w w w' /\ Rep (w_la w) (w_jac w) (w_la w') (w_jac w') /\ vag (fst a) (fst a') /\ (autonms = false -> vag (snd a) (snd a')).
Lemma callF_both s s' t y y' : fst s = fst s' -> vag y y' ->
  fst (fst (callF userF s t y)) = fst (fst (callF userF s' t y')) /\ vag (snd (callF userF s t y)) (snd (callF userF s' t y')).
Proof.
  intros Hs Hy. unfold callF. rewrite <- Hs. destruct (HF (fst s) t y y' Hy) as [H1 H2].
  destruct (userF (fst s) t y), (userF (fst s) t y'). cbn in *. split; assumption.
Qed.
Lemma prep_both junk junk' w w' x Y Y' : rep_w w w' -> vag Y Y' ->
  both (fun p p' => rep_p (fst p) (snd p) (fst p') (snd p'))
    (r_prep userF userJ userDt set_calhes n sh numjac autonms use_DF_t uround junk w x Y)
    (r_prep userF userJ userDt set_calhes n sh numjac autonms use_DF_t uround junk' w' x Y').
Proof.
  intros Hw HY. unfold r_prep. destruct (callF_both (w_f w) (w_f w') x Y Y' Hw HY) as [G1 G2].
  destruct (callF userF (w_f w) x Y) as [s DY1]. destruct (callF userF (w_f w') x Y') as [s' DY1']. cbn [fst snd] in G1, G2.
  eapply (both_bind (fun r r' => fst (fst r) = fst (fst r') /\ jagree n sh (snd r) (snd r'))).
  - destruct numjac.
    + eapply both_bind; [apply (jacobian_both n sh Hn Hsh _ (callF userF) (fun s s' => fst s = fst s')); [|exact G1|exact HY|exact G2]|].
      * intros s1 s1' t y y' Hs Hy. apply callF_both; assumption.
      * intros [[s1 y1] J1] [[s1' y1'] J1'] H. exact H.
    + rewrite <- G1. destruct (HJ (fst s) x Y Y' DY1 DY1' (w_jac w) (w_jac w') HY G2) as [H1 H2].
      destruct (userJ (fst s) x Y DY1 (w_jac w)), (userJ (fst s) x Y' DY1' (w_jac w')). cbn in *. split; assumption.
  - intros [s1 J1] [s1' J1'] [H1 H2]. cbn [fst snd] in H1, H2. destruct autonms eqn:Ea.
    + cbn. unfold rep_p, rep_w. cbn. split; [exact H1|]. split; [apply Hnew; exact H2|]. split; [exact G2|]. intros D. rewrite Ea in D. discriminate D.
    + assert (HD : fst (fst (DF_X userF userDt use_DF_t uround s1 x Y DY1)) = fst (fst (DF_X userF userDt use_DF_t uround s1' x Y' DY1')) /\
                   vag (snd (DF_X userF userDt use_DF_t uround s1 x Y DY1)) (snd (DF_X userF userDt use_DF_t uround s1' x Y' DY1'))).
      { unfold DF_X. destruct use_DF_t.
        - rewrite <- H1. destruct (HDt (fst s1) x Y Y' HY) as [D1 D2]. destruct (userDt (fst s1) x Y), (userDt (fst s1) x Y'). cbn in *. split; assumption.
        - cbv zeta. set (t := (x + _)%num). destruct (callF_both s1 s1' t Y Y' H1 HY) as [D1 D2].
          destruct (callF userF s1 t Y), (callF userF s1' t Y'). cbn in *. split; [exact D1|]. intros i Hi. unfold v_lc2. rewrite (D2 i Hi), (G2 i Hi). reflexivity. }
      destruct (DF_X userF userDt use_DF_t uround s1 x Y DY1) as [s2 FX]. destruct (DF_X userF userDt use_DF_t uround s1' x Y' DY1') as [s2' FX'].
      cbn in HD |- *. unfold rep_p, rep_w. cbn. split; [apply HD|]. split; [apply Hnew; exact H2|]. split; [exact G2|]. intros _. apply HD.
Qed.
Lemma r_err_same Y Y' N N' A A' : vag Y Y' -> vag N N' -> vag A A' -> r_err n atol rtol Y N A = r_err n atol rtol Y' N' A'.
Proof.
  intros H1 H2 H3. unfold r_err. do 2 f_equal. apply for_same. intros j t Hj. rewrite (H1 j Hj), (H2 j Hj), (H3 j Hj). reflexivity.
Qed.
Ltac vagt := let i := fresh "i" in let Hi := fresh "Hi" in
  intros i Hi; unfold v_add, v_scale, v_axpy, v_lc2, v_lc3, v_lc4, v_lc5, v_x_lc2, v_x_lc3, v_x_lc4;
  repeat match goal with H : vagree _ ?a ?b |- context [?a i] => rewrite (H i Hi) end; reflexivity.
Lemma slvrod_both la la' J J' hd DY DY' FX FX' Y Y' b :
  (forall r r', vag r r' -> both vag (solvereal la r J) (solvereal la' r' J')) -> vag DY DY' -> (autonms = false -> vag FX FX') -> vag Y Y' ->
  both vag (slvrod solvereal autonms la J hd DY FX Y b) (slvrod solvereal autonms la' J' hd DY' FX' Y' b).
Proof.
  intros Hs H1 H2 H3. unfold slvrod. cbv zeta. apply Hs. destruct autonms.
  - destruct b; [vagt|exact H1].
  - specialize (H2 eq_refl). destruct b; vagt.
Qed.
Ltac stage Hs HX := eapply both_bind; [apply slvrod_both; [exact Hs|try assumption|exact HX|try solve [vagt|apply vagree_refl]]|].
Ltac fcall :=
  match goal with |- both _ (let '(s, DY) := callF userF ?s0 ?t ?y in _) (let '(s', DY') := callF userF ?s0' ?t' ?y' in _) =>
    let A := fresh "A" in let B := fresh "B" in let V := fresh "V" in assert (V : vag y y') by vagt;
    match goal with E : fst s0 = fst s0' |- _ => destruct (callF_both s0 s0' t y y' E V) as [A B] end;
    destruct (callF userF s0 t y), (callF userF s0' t y'); cbn [fst snd] in A, B; cbv beta zeta end.
Lemma attempt_both w a w' a' x h Y Y' : rep_p w a w' a' -> vag Y Y' ->
  both (fun p p' => rep_p (fst (fst p)) a (fst (fst p')) a' /\ vag (snd (fst p)) (snd (fst p')) /\ snd p = snd p')
    (r_attempt userF decomr solvereal n autonms C atol rtol w a x h Y) (r_attempt userF decomr solvereal n autonms C atol rtol w' a' x h Y').
Proof.
  intros (Hw & Hr & H1 & H2) HY. destruct a as [DY1 FX], a' as [DY1' FX']. cbn [fst snd] in H1, H2. unfold r_attempt.
  eapply both_bind; [apply Hreal; exact Hr|]. intros [la J] [la' J'] [R1 R2]. cbn [fst snd] in R1, R2. cbv beta zeta. unfold rep_w in Hw.
  stage R2 H2. intros K1 K1' HK1. fcall. stage R2 H2. intros K2 K2' HK2. fcall. stage R2 H2. intros K3 K3' HK3. fcall. stage R2 H2. intros K4 K4' HK4.
  fcall. stage R2 H2. intros K5 K5' HK5. fcall. stage R2 H2. intros K6 K6' HK6. cbn [both fst snd].
  match goal with |- context [r_err n atol rtol Y ?N K6] => match goal with |- context [r_err n atol rtol Y' ?N' K6'] => assert (HN : vag N N') by vagt;
    split; [|split; [exact HN|apply r_err_same; assumption]] end end.
  unfold rep_p, rep_w. cbn [w_f w_la w_jac fst snd]. split; [assumption|]. split; [exact R1|]. split; assumption.
Qed.
End RodasStep.

(* operator(): everything a call gives, whatever the members held *)
Section RodasCall.
Context {K : num}.
Variables Sg La : Type.
Variable userF : Sg -> K -> vec K -> Sg * vec K.
Variable userJ : Sg -> K -> vec K -> vec K -> vec K -> Sg * vec K.
Variable userDt : Sg -> K -> vec K -> Sg * vec K.
Variable decomr : La -> K -> vec K -> out (La * vec K).
Variable solvereal : La -> vec K -> vec K -> out (vec K).
Variable set_calhes : La -> La.
Variable n : Z.
Variable sh : shape.
Variables numjac autonms use_DF_t : bool.
Variable uround : K.
Variable C : rcoef K.
Variables atol rtol : vec K.
Variable o : ropts K.
Variable Rep : La -> vec K -> La -> vec K -> Prop.
Notation call junk := (rodas (r_prep userF userJ userDt set_calhes n sh numjac autonms use_DF_t uround junk) (r_attempt userF decomr solvereal n autonms C atol rtol) o).
Lemma rodas_both fuel ifuel w w' junk junk' h x xend y ha er fi ha' er' fi' :
  1 <= n -> shape_ok sh -> reads_n n userF -> writes_jac n sh userJ -> reads_n n userDt ->
  starts_anew n sh La set_calhes Rep -> real_anew n La decomr solvereal Rep -> fst (w_f w) = fst (w_f w') ->
  both (fun r r' => snd r = snd r' /\ s_x (fst r) = s_x (fst r') /\ s_h (fst r) = s_h (fst r') /\ vagree n (s_Y (fst r)) (s_Y (fst r')) /\
      fst (w_f (s_w (fst r))) = fst (w_f (s_w (fst r'))) /\ s_naccpt (fst r) = s_naccpt (fst r') /\ s_nrejct (fst r) = s_nrejct (fst r') /\
      s_njac (fst r) = s_njac (fst r') /\ s_nstep (fst r) = s_nstep (fst r') /\ s_ndec (fst r) = s_ndec (fst r') /\ s_nsol (fst r) = s_nsol (fst r') /\
      s_nfcn (fst r) = s_nfcn (fst r') /\ s_hist (fst r) = s_hist (fst r') /\ (s_naccpt (fst r) <> 0 -> s_first (fst r) = s_first (fst r')))
    (call junk fuel ifuel w h x xend y ha er fi) (call junk' fuel ifuel w' h x xend y ha' er' fi').
Proof.
  intros Hn Hsh HF HJ HDt Hnew Hreal Hw. unfold rodas.
  eapply (both_bind (same_rst _ (vagree n) o (rep_w Sg La))).
  - apply outer_both with (Rp := rep_p Sg La n autonms Rep).
    + intros w0 w0' x0 Y0 Y0' A B. apply prep_both; assumption.
    + intros w0 a0 w0' a0' x0 h0 Y0 Y0' A B. apply attempt_both; assumption.
    + intros w0 a0 w0' a0' A. apply A.
    + unfold same_rst. cbn. do 3 (split; [first [reflexivity|apply vagree_refl]|]). split; [exact Hw|].
      do 11 (split; [first [reflexivity|lia]|]). intros D. exfalso. apply D. reflexivity.
  - intros s s' (E1 & E2 & E3 & E4 & E5 & E6 & E7 & E8 & E9 & E10 & E11 & E12 & E13 & E14 & E15 & E16). cbn [both fst snd].
    do 13 (split; [first [reflexivity|assumption]|]). intros D. apply E16. exact D.
Qed.
End RodasCall.
