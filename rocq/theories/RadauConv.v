(* C98: the runs of Radau5 against the solution of y' = J y + g. *)
From Coq Require Import ZArith Reals Lra Lia Psatz Ring List Bool.
From Verif Require Import Base Spec FieldLU HessModel CMacros VecFun HessPathProofs LayoutModel LayoutCases JacModel JacProofs RodasModel RodasProofs RodasReal RodasSpec RodasStep RodasLinear Dec RodasStab RodasStab2
  Conv ConvPoly RodasConvSpec RodasConv RadauConvSpec RadauModel RadauProofs RadauReal RadauStep RadauFinal RadauAlg RadauSpec RadauConst RadauRun RadauCase RadauAcc RadauPert RadauZero.
Import ListNotations.
Open Scope R_scope.

Section Comp.
Variables (n : Z) (J : Z -> Z -> R) (lr li : Z -> R) (a b : R).
Hypothesis Hn : (0 <= n)%Z.
Hypothesis He : left_eigen n J lr li a b.
Hypothesis Ha : a <= 0.
Notation Lc := (L n lr li).
Notation lam := ((a, b) : cx).
Lemma L_ext v w : (forall k, (1 <= k <= n)%Z -> v k = w k) -> Lc v = Lc w.
Proof. intros H. unfold L. rewrite (dot_ext n lr v w), (dot_ext n li v w) by assumption. reflexivity. Qed.
Lemma L_add v w : Lc (fun k => v k + w k) = cadd (Lc v) (Lc w).
Proof. unfold L, cadd. cbn [fst snd]. rewrite !dot_add. reflexivity. Qed.
Lemma L_comb (A : Z -> R) (u : Z -> Z -> R) : Lc (fun i => rsum 1 3 (fun l => A l * u l i)) = tr (fun _ => A) (fun l => Lc (u l)) 1.
Proof. unfold L. rewrite !dot_comb, !rsum3. unfold tr, cadd, cmul, cr. cbn [fst snd]. apply cx_eq; cbn [fst snd]; ring. Qed.
Lemma L_J v : Lc (fun i => rsum 1 n (fun j => J i j * v j)) = cmul lam (Lc v).
Proof. unfold L. destruct (dot_eigen n J lr li a b v He) as [-> ->]. unfold cmul. cbn [fst snd]. apply cx_eq; cbn [fst snd]; ring. Qed.

Variable f : R -> (Z -> R) -> Z -> R.
Variables (g : Z -> R) (sft : cx).
Hypothesis Hsft : Lc g = cmul lam sft.
Hypothesis Hlin : forall t y k, (1 <= k <= n)%Z -> f t y k = linear_rhs n J t y k + g k.
Notation Ls y := (cadd (Lc y) sft).
Variable J' : Z -> Z -> R.
Hypothesis HJ : forall i k, in_full n i k -> J' i k = J i k.
Notation Mt := (rd_method (@rd_const Rnum)).
Lemma newton_comp x h y W V D W' V' : h <> 0 -> newton_iter Mt n f J' x h y W V D W' V' ->
  iter (zz a b h) (Ls y) (fun k => Lc (W k)) (fun k => Lc (V k)) (fun k => Lc (W' k)) (fun k => Lc (V' k)).
Proof.
  intros Hh (HB & HW & HV). split.
  - intros k Hk.
    assert (E : csub (tr (fun _ l => Lambda_of c k l / h) (fun l => Lc (D l)) 1) (cmul lam (Lc (D k))) =
      csub (tr (fun _ l => TI_of c k l) (fun l => cmul lam (cadd (Ls y) (Lc (V l)))) 1) (tr (fun _ l => Lambda_of c k l / h) (fun l => Lc (W l)) 1)).
    { rewrite <- (L_comb (fun l => Lambda_of c k l / h) D), <- (L_comb (fun l => Lambda_of c k l / h) W), <- L_J, <- L_sub.
      rewrite (tr_ext _ (fun l => cmul lam (cadd (Ls y) (Lc (V l)))) (fun l => Lc (fun i => rsum 1 n (fun j => J i j * (y j + V l j)) + g i))).
      2: { intros l Hl. rewrite L_add, L_J, L_add, Hsft. ring. }
      rewrite <- (L_comb (fun l => TI_of c k l) (fun l i => rsum 1 n (fun j => J i j * (y j + V l j)) + g i)), <- L_sub.
      apply L_ext. intros i Hi. specialize (HB k i Hk Hi). cbn [m_L m_TI m_c rd_method] in HB. unfold trans in HB.
      etransitivity; [|etransitivity; [exact HB|]].
      - f_equal. unfold matvec. apply rsum_ext. intros j Hj. rewrite HJ; [reflexivity|unfold in_full; lia].
      - f_equal. apply rsum_ext. intros l Hl. rewrite Hlin by exact Hi. reflexivity. }
    assert (EW : Lc (W' k) = cadd (Lc (W k)) (Lc (D k))) by (rewrite <- L_add; apply L_ext; intros i _; apply HW, Hk).
    rewrite (tr_ext _ (fun l => Lc (W' l)) (fun l => cadd (Lc (W l)) (Lc (D l)))) by (intros l Hl; rewrite <- L_add; apply L_ext; intros i _; apply HW, Hl).
    rewrite EW. unfold gg, rho. 
    assert (EL : forall w : Z -> cx, tr (fun _ l => Lambda_of c k l / h) w 1 = cmul (cr (/ h)) (tr (Lambda_of c) w k)).
    { intros w. unfold tr. apply cx_eq; unfold cadd, cmul, cr; cbn [fst snd]; field; exact Hh. }
    rewrite !EL in E. rewrite (tr_add (Lambda_of c)). rewrite tr_scal, (tr_add _ (fun _ => Ls y)) in E. change (tr (fun _ l => TI_of c k l) (fun _ => Ls y) 1) with (tr (TI_of c) (fun _ => Ls y) k) in E.
    change (tr (fun _ l => TI_of c k l) (fun l => Lc (V l)) 1) with (tr (TI_of c) (fun l => Lc (V l)) k) in E.
    set (LD := tr (Lambda_of c) (fun l => Lc (D l)) k) in *. set (LW := tr (Lambda_of c) (fun l => Lc (W l)) k) in *.
    set (Ty := tr (TI_of c) (fun _ => Ls y) k) in *. set (TV := tr (TI_of c) (fun l => Lc (V l)) k) in *. set (Wk := Lc (W k)) in *. set (Dk := Lc (D k)) in *.
    assert (Ez : zz a b h = cmul (cr h) lam) by (unfold zz, cmul, cr; cbn [fst snd]; apply cx_eq; cbn [fst snd]; ring). rewrite Ez.
    assert (Eh : cmul (cr h) (cmul (cr (/ h)) LD) = LD) by (apply cx_eq; unfold cmul, cr; cbn [fst snd]; field; exact Hh).
    assert (Eh2 : cmul (cr h) (cmul (cr (/ h)) LW) = LW) by (apply cx_eq; unfold cmul, cr; cbn [fst snd]; field; exact Hh).
    pose proof (f_equal (cmul (cr h)) E) as E2.
    transitivity (cadd (csub LW (cmul (cmul (cr h) lam) Wk)) (cmul (cr h) (csub (cmul (cr (/ h)) LD) (cmul lam Dk)))).
    { transitivity (cadd (csub LW (cmul (cmul (cr h) lam) Wk)) (csub (cmul (cr h) (cmul (cr (/ h)) LD)) (cmul (cr h) (cmul lam Dk)))); [rewrite Eh; ring|ring]. }
    rewrite E2. transitivity (cadd (csub LW (cmul (cmul (cr h) lam) Wk)) (csub (cmul (cmul (cr h) lam) (cadd Ty TV)) (cmul (cr h) (cmul (cr (/ h)) LW)))); [ring|]. rewrite Eh2. ring.
  - intros k Hk. rewrite (L_ext (V' k) (fun i => rsum 1 3 (fun l => T_of c k l * W' l i))) by (intros i _; apply (HV k i Hk)).
    rewrite (L_comb (fun l => T_of c k l) W'). reflexivity.
Qed.
Lemma iterates_comp nit thet fnewt scal x h y W0 V0 eta0 m W V d e th q : 0 < h ->
  good (Ls y) (fun k => Lc (W0 k)) (fun k => Lc (V0 k)) ->
  iterates Mt n f nit thet fnewt scal J' x h y W0 V0 eta0 m W V d e th q ->
  good (Ls y) (fun k => Lc (W k)) (fun k => Lc (V k)) /\
  ((1 <= m)%Z -> exists W1 V1, good (Ls y) W1 V1 /\ iter (zz a b h) (Ls y) W1 V1 (fun k => Lc (W k)) (fun k => Lc (V k))).
Proof.
  intros Hh G0 HI. assert (Hz : fst (zz a b h) <= 0) by (unfold zz; cbn [fst]; nra).
  induction HI as [d q|W V D W' V' d e th q HI IH Hnit HN|m W V D W' V' d e th q q' th' HI IH Hm Hnit Hd HN Hq Ht Ht2 Ho].
  - split; [exact G0|intros Hm; exfalso; lia].
  - pose proof (newton_comp _ _ _ _ _ _ _ _ (Rgt_not_eq _ _ Hh) HN) as HC. destruct IH as [IH _].
    split; [exact (iter_good _ _ Hz _ _ _ _ IH HC)|]. intros _. eexists. eexists. split; [exact IH|exact HC].
  - pose proof (newton_comp _ _ _ _ _ _ _ _ (Rgt_not_eq _ _ Hh) HN) as HC. destruct IH as [IH _].
    split; [exact (iter_good _ _ Hz _ _ _ _ IH HC)|]. intros _. eexists. eexists. split; [exact IH|exact HC].
Qed.
Lemma start_good s h W V y : start Mt s h W V -> good (Ls y) (fun k => Lc (W k)) (fun k => Lc (V k)).
Proof.
  intros HS k Hk. assert (E : rho (fun k => Lc (W k)) (fun k => Lc (V k)) k = c0).
  { unfold rho. change (tr (TI_of c) (fun k => Lc (V k)) k) with (tr (fun _ l => TI_of c k l) (fun k => Lc (V k)) 1). rewrite <- (L_comb (fun l => TI_of c k l) V).
    rewrite (L_ext (W k) (fun i => rsum 1 3 (fun l => TI_of c k l * V l i))); [ring|]. intros i Hi. unfold start in HS. destruct (r_prev s) as [[hold Vo]|].
    - destruct HS as [_ HS]. apply (HS k i Hk).
    - destruct HS as [H1 H2]. rewrite rsum3, !H1, !H2. ring. }
  rewrite E, cn_0. pose proof (cn_pos (Ls y)). lra.
Qed.
(* any values the iteration may end with *)
Lemma ended_comp nit thet fnewt scal s x h y W0 V0 eta0 V eta (conv : bool) : 0 < h -> start Mt s h W0 V0 ->
  (if conv then exists th, newton_ok Mt n f nit thet fnewt scal J' x h y W0 V0 eta0 V eta th
   else newton_exhausted Mt n f nit thet fnewt scal J' x h y W0 V0 eta0 V eta) ->
  exists W1 V1 W', good (Ls y) W1 V1 /\ iter (zz a b h) (Ls y) W1 V1 W' (fun k => Lc (V k)).
Proof.
  intros Hh HS H. pose proof (start_good s h W0 V0 y HS) as G. destruct conv.
  - destruct H as (th & m & W & d & q & HI & Hm & _). destruct (iterates_comp _ _ _ _ _ _ _ _ _ _ _ _ _ _ _ _ _ Hh G HI) as [_ H2].
    destruct (H2 ltac:(lia)) as (W1 & V1 & H3 & H4). exists W1, V1. eexists. split; [exact H3|exact H4].
  - destruct H as (W & V1 & D & W' & d & q & th & HI & _ & HN). destruct (iterates_comp _ _ _ _ _ _ _ _ _ _ _ _ _ _ _ _ _ Hh G HI) as [H1 _].
    eexists. eexists. eexists. split; [exact H1|]. exact (newton_comp _ _ _ _ _ _ _ _ (Rgt_not_eq _ _ Hh) HN).
Qed.

Variable u : R -> Z -> R.
Hypothesis Hu : affine_flow n J g u.
Lemma shifted_exp t : 0 <= t -> Ls (u t) = cmul (cexp (tz (a, b) t)) (Ls (u 0)).
Proof.
  intros Ht. assert (E : fst (Lc g) = a * fst sft - b * snd sft /\ snd (Lc g) = b * fst sft + a * snd sft) by (rewrite Hsft; unfold cmul; cbn [fst snd]; split; ring).
  destruct E as [E1 E2]. unfold L in E1, E2. cbn [fst snd] in E1, E2.
  apply (exp_unique (fun s => dot n lr (u s) + fst sft) (fun s => dot n li (u s) + snd sft) a b t Ht).
  - intros s. apply (dl_eq _ _ (dot n lr (fun k => rsum 1 n (fun l => J k l * u s l) + g k) + 0)).
    + apply derivable_pt_lim_plus; [|apply derivable_pt_lim_const]. apply D_dot1; [exact Hn|intros p Hp; apply Hu, Hp].
    + rewrite dot_add, E1, (proj1 (dot_eigen n J lr li a b (u s) He)). ring.
  - intros s. apply (dl_eq _ _ (dot n li (fun k => rsum 1 n (fun l => J k l * u s l) + g k) + 0)).
    + apply derivable_pt_lim_plus; [|apply derivable_pt_lim_const]. apply D_dot1; [exact Hn|intros p Hp; apply Hu, Hp].
    + rewrite dot_add, E2, (proj2 (dot_eigen n J lr li a b (u s) He)). ring.
Qed.
Lemma radau_one t h y V W1 V1 W' y' : 0 <= t -> 0 < h -> good (Ls y) W1 V1 -> iter (zz a b h) (Ls y) W1 V1 W' (fun k => Lc (V k)) ->
  (forall i, y' i = y i + V 3%Z i) ->
  let r := h * cn lam in
  cn (csub (Lc y') (Lc (u (t + h)))) <= (1 + 1 / 10 ^ 12 * r) * cn (csub (Lc y) (Lc (u t))) + r * (2 / 10 ^ 12 + 4 * r ^ 5) * cn (Ls (u 0)).
Proof.
  intros Ht Hh HG HI Hy r. assert (Hz : fst (zz a b h) <= 0) by (unfold zz; cbn [fst]; nra).
  pose proof (iter_step _ _ Hz _ _ _ _ HG HI) as HS. cbv beta in HS. destruct (DD_facts _ Hz) as (D1 & D2 & _). pose proof (radau_acc _ Hz) as HA.
  assert (Er : cn (zz a b h) = r).
  { replace (zz a b h) with (cmul (cr h) lam) by (unfold zz, cmul, cr; cbn [fst snd]; apply cx_eq; cbn [fst snd]; ring). rewrite cn_scal, Rabs_pos_eq by lra. reflexivity. }
  replace (cadd (Ls y) (Lc (V 3%Z))) with (Ls y') in HS by (transitivity (cadd (cadd (Lc y) (Lc (V 3%Z))) sft); [|ring]; f_equal; rewrite <- L_add; apply L_ext; intros i _; apply Hy).
  rewrite Er in *.
  assert (EU : Ls (u (t + h)) = cmul (cexp (tz (zz a b h) 1)) (Ls (u t))).
  { rewrite (shifted_exp (t + h)), (shifted_exp t) by lra.
    transitivity (cmul (cmul (cexp (tz (zz a b h) 1)) (cexp (tz (a, b) t))) (Ls (u 0))); [|ring].
    f_equal. rewrite <- cexp_add. f_equal. unfold cadd, tz, zz. cbn [fst snd]. f_equal; ring. }
  assert (UB : cn (Ls (u t)) <= cn (Ls (u 0))).
  { rewrite (shifted_exp t Ht), cn_mul. assert (X1 : cn (cexp (tz (a, b) t)) <= 1) by (apply cexp_le1; unfold tz; cbn [fst]; nra). pose proof (cn_pos (Ls (u 0))). nra. }
  replace (csub (Lc y') (Lc (u (t + h)))) with (csub (Ls y') (Ls (u (t + h)))) by ring. replace (csub (Lc y) (Lc (u t))) with (csub (Ls y) (Ls (u t))) by ring.
  rewrite EU. set (Ez := cexp (tz (zz a b h) 1)) in *. set (Y := Ls y) in *. set (Y' := Ls y') in *. set (Ut := Ls (u t)) in *.
  set (Dz := DD (zz a b h)) in *. set (Nz := NN (zz a b h)) in *.
  assert (P : cn (cmul Dz (csub Y' (cmul Ez Ut))) <= cn Dz * (r * (1 / 10 ^ 12 * cn Y)) + (cn Dz * cn (csub Y Ut) + cn Dz * delta 5 r * cn Ut)).
  { replace (cmul Dz (csub Y' (cmul Ez Ut))) with (cadd (csub (cmul Dz Y') (cmul Nz Y)) (cadd (cmul Nz (csub Y Ut)) (cmul (csub Nz (cmul Dz Ez)) Ut))) by ring.
    eapply Rle_trans; [apply cn_add|]. apply Rplus_le_compat; [exact HS|]. eapply Rle_trans; [apply cn_add|]. rewrite !cn_mul.
    apply Rplus_le_compat; (apply Rmult_le_compat_r; [apply cn_pos|assumption]). }
  rewrite cn_mul in P.
  assert (Q : cn (csub Y' (cmul Ez Ut)) <= r * (1 / 10 ^ 12 * cn Y) + (cn (csub Y Ut) + delta 5 r * cn Ut)).
  { apply (Rmult_le_reg_l (cn Dz)); [lra|]. eapply Rle_trans; [exact P|]. right. ring. }
  assert (TY : cn Y <= cn (csub Y Ut) + cn Ut) by (replace Y with (cadd (csub Y Ut) Ut) at 1 by ring; apply cn_add).
  eapply Rle_trans; [exact Q|]. unfold delta. assert (r0 : 0 <= r) by (unfold r; apply Rmult_le_pos; [lra|apply cn_pos]).
  assert (r5 : 0 <= r ^ 5) by (apply pow_le; exact r0). set (e := 1 / 10 ^ 12). replace (2 / 10 ^ 12) with (2 * e) by (unfold e; field).
  assert (0 <= e) by (unfold e; lra). clearbody e. set (q := r ^ 5) in *. clearbody q.
  set (v0 := cn (Ls (u 0))) in *. set (vt := cn Ut) in *. set (er := cn (csub Y Ut)) in *. set (cy := cn Y) in *.
  assert (A1 : r * (e * cy) <= r * (e * (er + vt))) by (apply Rmult_le_compat_l; [exact r0|]; apply Rmult_le_compat_l; assumption).
  assert (A2 : r * (2 * e + 4 * q) * vt <= r * (2 * e + 4 * q) * v0) by (apply Rmult_le_compat_l; [apply Rmult_le_pos; lra|exact UB]).
  lra.
Qed.
End Comp.

Lemma quotient_affine n f J g x y i j : (forall t y k, (1 <= k <= n)%Z -> f t y k = linear_rhs n J t y k + g k) ->
  in_full n i j -> quotient_y f x y i j = J i j.
Proof.
  intros Hl Hij. rewrite <- (quotient_linear n (fun t y k => f t y k - g k) J x y i j); [|intros t v k Hk; rewrite (Hl t v k Hk); ring|exact Hij].
  unfold quotient_y. f_equal. ring.
Qed.
Section Run.
Variables (n : Z) (sh : shape) (numjac : bool) (J : Z -> Z -> R) (lr li : Z -> R) (a b : R).
Hypothesis Hn : (0 <= n)%Z.
Hypothesis He : left_eigen n J lr li a b.
Hypothesis Ha : a <= 0.
Notation Lc := (L n lr li).
Notation lam := ((a, b) : cx).
Variable f : R -> (Z -> R) -> Z -> R.
Variables (g : Z -> R) (sft : cx).
Hypothesis Hsft : Lc g = cmul lam sft.
Hypothesis Hlin : forall t y k, (1 <= k <= n)%Z -> f t y k = linear_rhs n J t y k + g k.
Notation Ls y := (cadd (Lc y) sft).
Hypothesis Hout : forall i k, in_full n i k -> ~ in_shape n sh i k -> J i k = 0.
Notation Mt := (rd_method (@rd_const Rnum)).
Notation jacu := (jac_used n sh numjac f (fun _ _ => J)).
Lemma jac_exact x y J' : jacu x y J' -> forall i k, in_full n i k -> J' i k = J i k.
Proof.
  intros HJ i k Hik. unfold jac_used in HJ. destruct numjac; [|apply HJ; exact Hik].
  destruct (HJ i k Hik) as [H1 H2]. assert (D : in_shape n sh i k \/ ~ in_shape n sh i k).
  { destruct sh; [left; exact Hik|]. unfold in_shape, in_band, in_full in *. lia. }
  destruct D as [D|D]; [rewrite (H1 D); apply (quotient_affine n f J g); assumption|rewrite (H2 D), (Hout i k Hik D); reflexivity].
Qed.
Variable u : R -> Z -> R.
Hypothesis Hu : affine_flow n J g u.
Variables (nit : Z) (thet fnewt : R) (scal : (Z -> R) -> Z -> R) (x0 : R) (y0 : Z -> R) (eta0 : R).
Hypothesis Hy : forall k, (1 <= k <= n)%Z -> y0 k = u 0 k.
Definition bound5 (H t : R) : R := t * (2 / 10 ^ 12 + 4 * (H * cn lam) ^ 5) * exp (t * cn lam / 10 ^ 12) * (cn lam * cn (Ls (u 0))).
Lemma run_err l s H : radau_run Mt n f nit thet fnewt scal jacu x0 y0 eta0 l s ->
  (forall t h cv ac, In (t, h, cv, ac) l -> 0 < h) -> (forall t h cv, In (t, h, cv, Some true) l -> h <= H) ->
  x0 <= r_x s /\ cn (csub (Lc (r_y s)) (Lc (u (r_x s - x0)))) <= bound5 H (r_x s - x0).
Proof.
  intros HR. induction HR as [|l s h W0 V0 J1 eta h' HR IH HS HJ HN|l s h W0 V0 J1 V eta HR IH HS HJ HN|l s h conv W0 V0 J1 V eta h2 J2 err HR IH HS HJ HJ2 HN HE s' Hs]; intros Hp HB.
  - cbn [r_x r_y]. split; [lra|]. rewrite (L_ext n lr li y0 (u 0)) by exact Hy. replace (x0 - x0) with 0 by ring.
    replace (csub (Lc (u 0)) (Lc (u 0))) with c0 by ring. rewrite cn_0. unfold bound5. lra.
  - cbn [r_x r_y]. apply IH; [intros t h0 cv ac Hin; apply (Hp t h0 cv ac); right; exact Hin|intros t h0 cv Hin; apply (HB t h0 cv); right; exact Hin].
  - cbn [r_x r_y]. apply IH; [intros t h0 cv ac Hin; apply (Hp t h0 cv ac); right; exact Hin|intros t h0 cv Hin; apply (HB t h0 cv); right; exact Hin].
  - destruct IH as [Ix IE]; [intros t h0 cv ac Hin; apply (Hp t h0 cv ac); right; exact Hin|intros t h0 cv Hin; apply (HB t h0 cv); right; exact Hin|].
    destruct Hs as [[Hr ->]|[Hr ->]]; [|cbn [r_x r_y]; split; assumption]. cbv zeta. cbn [r_x r_y].
    pose proof (Hp _ h conv _ ltac:(left; reflexivity)) as Hh.
    assert (HhH : h <= H) by (apply (HB (r_x s) h conv); left; destruct (Rlt_dec err 1); [reflexivity|contradiction]).
    split; [lra|]. destruct HJ as (p & _ & HJ). pose proof (jac_exact _ _ _ HJ) as EJ.
    assert (HN' : if conv then exists th, newton_ok Mt n f nit thet fnewt scal J1 (r_x s) h (r_y s) W0 V0 (eta_start s) V eta th
       else newton_exhausted Mt n f nit thet fnewt scal J1 (r_x s) h (r_y s) W0 V0 (eta_start s) V eta) by (destruct conv; apply HN).
    destruct (ended_comp n J lr li a b He Ha f g sft Hsft Hlin J1 EJ nit thet fnewt scal s (r_x s) h (r_y s) W0 V0 (eta_start s) V eta conv Hh HS HN') as (W1 & V1 & W' & G & I).
    pose proof (radau_one n J lr li a b Hn He Ha g sft Hsft u Hu (r_x s - x0) h (r_y s) V W1 V1 W' (fun i => r_y s i + V 3%Z i) ltac:(lra) Hh G I ltac:(reflexivity)) as E. cbv zeta in E.
    replace (r_x s + h - x0) with (r_x s - x0 + h) by ring. eapply Rle_trans; [exact E|]. clear E. unfold bound5 in *. set (t := r_x s - x0) in *. assert (Ht : 0 <= t) by (unfold t; lra).
    pose proof (cn_pos lam) as l0. pose proof (cn_pos (Ls (u 0))) as v0. set (la := cn lam) in *. set (v := cn (Ls (u 0))) in *.
    assert (HP : (h * la) ^ 5 <= (H * la) ^ 5) by (apply pow_incr; split; [apply Rmult_le_pos; lra|apply Rmult_le_compat_r; lra]).
    assert (K0 : 0 <= (h * la) ^ 5) by (apply pow_le, Rmult_le_pos; lra).
    set (q := (h * la) ^ 5) in *. set (Q := (H * la) ^ 5) in *. set (K := 2 / 10 ^ 12 + 4 * Q). assert (HK : 2 / 10 ^ 12 + 4 * q <= K) by (unfold K; lra). assert (K1 : 0 <= K) by (unfold K; lra).
    fold K in IE. set (er := cn (csub (Lc (r_y s)) (Lc (u t)))) in *. assert (er0 : 0 <= er) by apply cn_pos.
    replace ((t + h) * la / 10 ^ 12) with (h * la / 10 ^ 12 + t * la / 10 ^ 12) by field. rewrite exp_plus.
    assert (X1 : 1 + 1 / 10 ^ 12 * (h * la) <= exp (h * la / 10 ^ 12)).
    { replace (h * la / 10 ^ 12) with (1 / 10 ^ 12 * (h * la)) by field. apply exp_ineq1_le. }
    assert (X2 : 1 <= exp (t * la / 10 ^ 12)).
    { assert (0 <= t * la / 10 ^ 12) by (apply Rmult_le_pos; [apply Rmult_le_pos; lra|lra]). pose proof (exp_ineq1_le (t * la / 10 ^ 12)). lra. }
    assert (hl : 0 <= h * la) by (apply Rmult_le_pos; lra).
    set (eg := exp (h * la / 10 ^ 12)) in *. set (G2 := exp (t * la / 10 ^ 12)) in *. assert (g1 : 1 <= eg) by lra.
    assert (A1 : (1 + 1 / 10 ^ 12 * (h * la)) * er <= eg * (t * K * G2 * (la * v))).
    { apply Rmult_le_compat; [lra|exact er0|exact X1|exact IE]. }
    assert (A2 : h * la * (2 / 10 ^ 12 + 4 * q) * v <= h * la * K * v) by (apply Rmult_le_compat_r; [exact v0|]; apply Rmult_le_compat_l; assumption).
    assert (A3 : h * la * K * v * 1 <= h * la * K * v * (eg * G2)).
    { apply Rmult_le_compat_l; [repeat (apply Rmult_le_pos; try assumption); lra|]. nra. }
    assert (A4 : eg * (t * K * G2 * (la * v)) + h * la * K * v * (eg * G2) = (t + h) * K * (eg * G2) * (la * v)) by ring.
    lra.
Qed.
Lemma run_at l s : radau_run Mt n f nit thet fnewt scal jacu x0 y0 eta0 l s -> r_x s = x0 \/ exists t h cv, In (t, h, cv, Some true) l /\ r_x s = t + h.
Proof.
  intros HR. induction HR as [|l s h W0 V0 J1 eta h' HR IH HS HJ HN|l s h W0 V0 J1 V eta HR IH HS HJ HN|l s h conv W0 V0 J1 V eta h2 J2 err HR IH HS HJ HJ2 HN HE s' Hs].
  - left. reflexivity.
  - cbn [r_x]. destruct IH as [IH|(t & k & cv & Hin & E)]; [left; exact IH|right; exists t, k, cv; split; [right; exact Hin|exact E]].
  - cbn [r_x]. destruct IH as [IH|(t & k & cv & Hin & E)]; [left; exact IH|right; exists t, k, cv; split; [right; exact Hin|exact E]].
  - destruct Hs as [[Hr ->]|[Hr ->]]; cbv zeta; cbn [r_x].
    + right. exists (r_x s), h, conv. split; [left; destruct (Rlt_dec err 1); [reflexivity|contradiction]|reflexivity].
    + destruct IH as [IH|(t & k & cv & Hin & E)]; [left; exact IH|right; exists t, k, cv; split; [right; exact Hin|exact E]].
Qed.
End Run.
(* the eigenvalue 0 with a source: the component of the solution is a straight line *)
Section RunZero.
Variables (n : Z) (sh : shape) (numjac : bool) (J : Z -> Z -> R) (lr li : Z -> R).
Hypothesis Hn : (0 <= n)%Z.
Hypothesis He : left_eigen n J lr li 0 0.
Notation Lc := (L n lr li).
Variable f : R -> (Z -> R) -> Z -> R.
Variable g : Z -> R.
Hypothesis Hlin : forall t y k, (1 <= k <= n)%Z -> f t y k = linear_rhs n J t y k + g k.
Hypothesis Hout : forall i k, in_full n i k -> ~ in_shape n sh i k -> J i k = 0.
Notation Mt := (rd_method (@rd_const Rnum)).
Notation jacu := (jac_used n sh numjac f (fun _ _ => J)).
Lemma L_J0 v : Lc (fun i => rsum 1 n (fun j => J i j * v j)) = c0.
Proof. rewrite (L_J n J lr li 0 0 He). change ((0, 0) : cx) with c0. ring. Qed.
Lemma zero_newton J' x h y W V D W' V' : (forall i k, in_full n i k -> J' i k = J i k) -> 0 < h -> newton_iter Mt n f J' x h y W V D W' V' ->
  cn (csub (Lc (V' 3%Z)) (cmul (cr h) (Lc g))) <= 1 / 10 ^ 12 * (h * cn (Lc g)).
Proof.
  intros HJ Hh (HB & HW & HV).
  replace (h * cn (Lc g)) with (cn (cmul (cr h) (Lc g))) by (rewrite cn_scal, Rabs_pos_eq by lra; reflexivity).
  apply (zero_step (cmul (cr h) (Lc g)) (fun k => Lc (W' k)) (fun k => Lc (V' k))).
  - intros k Hk.
    assert (E : csub (tr (fun _ l => Lambda_of c k l / h) (fun l => Lc (D l)) 1) c0 =
      csub (tr (fun _ l => TI_of c k l) (fun l => Lc g) 1) (tr (fun _ l => Lambda_of c k l / h) (fun l => Lc (W l)) 1)).
    { rewrite <- (L_comb n lr li (fun l => Lambda_of c k l / h) D), <- (L_comb n lr li (fun l => Lambda_of c k l / h) W), <- (L_J0 (D k)), <- L_sub.
      rewrite (tr_ext _ (fun l => Lc g) (fun l => Lc (fun i => rsum 1 n (fun j => J i j * (y j + V l j)) + g i))).
      2: { intros l Hl. rewrite L_add, L_J0. ring. }
      rewrite <- (L_comb n lr li (fun l => TI_of c k l) (fun l i => rsum 1 n (fun j => J i j * (y j + V l j)) + g i)), <- L_sub.
      apply L_ext. intros i Hi. specialize (HB k i Hk Hi). cbn [m_L m_TI m_c rd_method] in HB. unfold trans in HB.
      etransitivity; [|etransitivity; [exact HB|]].
      - f_equal. unfold matvec. apply rsum_ext. intros j Hj. rewrite HJ; [reflexivity|unfold in_full; lia].
      - f_equal. apply rsum_ext. intros l Hl. rewrite Hlin by exact Hi. reflexivity. }
    rewrite (tr_ext _ (fun l => Lc (W' l)) (fun l => cadd (Lc (W l)) (Lc (D l)))) by (intros l Hl; rewrite <- L_add; apply L_ext; intros i _; apply HW, Hl).
    assert (EL : forall w : Z -> cx, tr (fun _ l => Lambda_of c k l / h) w 1 = cmul (cr (/ h)) (tr (Lambda_of c) w k)).
    { intros w. unfold tr. apply cx_eq; unfold cadd, cmul, cr; cbn [fst snd]; field; apply Rgt_not_eq, Hh. }
    rewrite !EL in E. rewrite (tr_add (Lambda_of c)). rewrite (tr_scal (TI_of c) (cr h) (fun _ => Lc g)).
    change (tr (fun _ l => TI_of c k l) (fun _ => Lc g) 1) with (tr (TI_of c) (fun _ => Lc g) k) in E.
    set (LD := tr (Lambda_of c) (fun l => Lc (D l)) k) in *. set (LW := tr (Lambda_of c) (fun l => Lc (W l)) k) in *. set (Tg := tr (TI_of c) (fun _ => Lc g) k) in *.
    assert (Eh : cmul (cr h) (cmul (cr (/ h)) LD) = LD) by (apply cx_eq; unfold cmul, cr; cbn [fst snd]; field; apply Rgt_not_eq, Hh).
    assert (Eh2 : cmul (cr h) (cmul (cr (/ h)) LW) = LW) by (apply cx_eq; unfold cmul, cr; cbn [fst snd]; field; apply Rgt_not_eq, Hh).
    pose proof (f_equal (cmul (cr h)) E) as E2.
    transitivity (cadd LW (cmul (cr h) (csub (cmul (cr (/ h)) LD) c0))).
    { transitivity (cadd LW (cmul (cr h) (cmul (cr (/ h)) LD))); [rewrite Eh; ring|ring]. }
    rewrite E2. transitivity (cadd LW (csub (cmul (cr h) Tg) (cmul (cr h) (cmul (cr (/ h)) LW)))); [ring|]. rewrite Eh2. ring.
  - intros k Hk. rewrite (L_ext n lr li (V' k) (fun i => rsum 1 3 (fun l => T_of c k l * W' l i))) by (intros i _; apply (HV k i Hk)).
    rewrite (L_comb n lr li (fun l => T_of c k l) W'). reflexivity.
Qed.
Lemma zero_ended J' nit thet fnewt scal x h y W0 V0 eta0 V eta (conv : bool) : (forall i k, in_full n i k -> J' i k = J i k) -> 0 < h ->
  (if conv then exists th, newton_ok Mt n f nit thet fnewt scal J' x h y W0 V0 eta0 V eta th
   else newton_exhausted Mt n f nit thet fnewt scal J' x h y W0 V0 eta0 V eta) ->
  cn (csub (Lc (V 3%Z)) (cmul (cr h) (Lc g))) <= 1 / 10 ^ 12 * (h * cn (Lc g)).
Proof.
  intros HJ Hh H. destruct conv.
  - destruct H as (th & m & W & d & q & HI & Hm & _). inversion HI; subst; [exfalso; lia| |]; eapply zero_newton; eassumption.
  - destruct H as (W & V1 & D & W' & d & q & th & HI & _ & HN). eapply zero_newton; eassumption.
Qed.
Variable u : R -> Z -> R.
Hypothesis Hu : affine_flow n J g u.
Lemma zero_flow t : 0 <= t -> Lc (u t) = cadd (Lc (u 0)) (cmul (cr t) (Lc g)).
Proof.
  intros Ht.
  pose proof (exp_unique (fun s => dot n lr (u s) - s * dot n lr g) (fun s => dot n li (u s) - s * dot n li g) 0 0 t Ht) as X.
  assert (D : forall s, dot n lr (fun k => rsum 1 n (fun l => J k l * u s l)) = 0 /\ dot n li (fun k => rsum 1 n (fun l => J k l * u s l)) = 0).
  { intros s. pose proof (L_J0 (u s)) as E. unfold L, c0 in E. injection E as E1 E2. split; assumption. }
  assert (Y : (dot n lr (u t) - t * dot n lr g, dot n li (u t) - t * dot n li g) = cmul (cexp (tz (0, 0) t)) (dot n lr (u 0) - 0 * dot n lr g, dot n li (u 0) - 0 * dot n li g)).
  { apply X; intros s.
    - apply (dl_eq _ _ (dot n lr (fun k => rsum 1 n (fun l => J k l * u s l) + g k) - 1 * dot n lr g)).
      + apply derivable_pt_lim_minus; [apply D_dot1; [exact Hn|intros p Hp; apply Hu, Hp]|]. apply (dl_eq _ _ (1 * dot n lr g + s * 0)); [|ring].
        apply (derivable_pt_lim_mult (fun s => s) (fun _ => dot n lr g)); [apply derivable_pt_lim_id|apply derivable_pt_lim_const].
      + rewrite dot_add, (proj1 (D s)). ring.
    - apply (dl_eq _ _ (dot n li (fun k => rsum 1 n (fun l => J k l * u s l) + g k) - 1 * dot n li g)).
      + apply derivable_pt_lim_minus; [apply D_dot1; [exact Hn|intros p Hp; apply Hu, Hp]|]. apply (dl_eq _ _ (1 * dot n li g + s * 0)); [|ring].
        apply (derivable_pt_lim_mult (fun s => s) (fun _ => dot n li g)); [apply derivable_pt_lim_id|apply derivable_pt_lim_const].
      + rewrite dot_add, (proj2 (D s)). ring. }
  assert (E1 : cexp (tz (0, 0) t) = c1) by (unfold cexp, tz, c1; cbn [fst snd]; rewrite !Rmult_0_r, exp_0, cos_0, sin_0; f_equal; ring).
  rewrite E1 in Y. unfold L. unfold cmul, c1, cadd, cr in *. cbn [fst snd] in *. injection Y as Y1 Y2. apply cx_eq; cbn [fst snd]; lra.
Qed.
Variables (nit : Z) (thet fnewt : R) (scal : (Z -> R) -> Z -> R) (x0 : R) (y0 : Z -> R) (eta0 : R).
Hypothesis Hy : forall k, (1 <= k <= n)%Z -> y0 k = u 0 k.
Lemma zero_err l s : radau_run Mt n f nit thet fnewt scal jacu x0 y0 eta0 l s ->
  (forall t h cv ac, In (t, h, cv, ac) l -> 0 < h) ->
  x0 <= r_x s /\ cn (csub (Lc (r_y s)) (Lc (u (r_x s - x0)))) <= (r_x s - x0) * (1 / 10 ^ 12) * cn (Lc g).
Proof.
  intros HR. induction HR as [|l s h W0 V0 J1 eta h' HR IH HS HJ HN|l s h W0 V0 J1 V eta HR IH HS HJ HN|l s h conv W0 V0 J1 V eta h2 J2 err HR IH HS HJ HJ2 HN HE s' Hs]; intros Hp.
  - cbn [r_x r_y]. split; [lra|]. rewrite (L_ext n lr li y0 (u 0)) by exact Hy. replace (x0 - x0) with 0 by ring.
    replace (csub (Lc (u 0)) (Lc (u 0))) with c0 by ring. rewrite cn_0. lra.
  - cbn [r_x r_y]. apply IH; intros t h0 cv ac Hin; apply (Hp t h0 cv ac); right; exact Hin.
  - cbn [r_x r_y]. apply IH; intros t h0 cv ac Hin; apply (Hp t h0 cv ac); right; exact Hin.
  - destruct IH as [Ix IE]; [intros t h0 cv ac Hin; apply (Hp t h0 cv ac); right; exact Hin|].
    destruct Hs as [[Hr ->]|[Hr ->]]; [|cbn [r_x r_y]; split; assumption]. cbv zeta. cbn [r_x r_y].
    pose proof (Hp _ h conv _ ltac:(left; reflexivity)) as Hh.
    split; [lra|]. destruct HJ as (p & _ & HJ). pose proof (jac_exact n sh numjac J f g Hlin Hout _ _ _ HJ) as EJ.
    assert (HN' : if conv then exists th, newton_ok Mt n f nit thet fnewt scal J1 (r_x s) h (r_y s) W0 V0 (eta_start s) V eta th
       else newton_exhausted Mt n f nit thet fnewt scal J1 (r_x s) h (r_y s) W0 V0 (eta_start s) V eta) by (destruct conv; apply HN).
    pose proof (zero_ended J1 _ _ _ _ _ _ _ _ _ _ _ _ conv EJ Hh HN') as E.
    rewrite (L_add n lr li (r_y s) (V 3%Z)). rewrite (zero_flow (r_x s + h - x0)) by lra. rewrite (zero_flow (r_x s - x0)) in IE by lra.
    replace (r_x s + h - x0) with (r_x s - x0 + h) by ring. set (t := r_x s - x0) in *.
    replace (csub (cadd (Lc (r_y s)) (Lc (V 3%Z))) (cadd (Lc (u 0)) (cmul (cr (t + h)) (Lc g)))) with
      (cadd (csub (Lc (r_y s)) (cadd (Lc (u 0)) (cmul (cr t) (Lc g)))) (csub (Lc (V 3%Z)) (cmul (cr h) (Lc g))))
      by (apply cx_eq; unfold csub, cadd, copp, cmul, cr; cbn [fst snd]; ring).
    eapply Rle_trans; [apply cn_add|]. lra.
Qed.
End RunZero.

Lemma radau_converges : forall (Sg La : Type)
    (userF : Sg -> R -> (Z -> R) -> Sg * (Z -> R))
    (userJ : Sg -> R -> (Z -> R) -> (Z -> R) -> (Z -> R) -> Sg * (Z -> R))
    (decomr : La -> R -> (Z -> R) -> out (La * (Z -> R))) (decomc : La -> R -> R -> (Z -> R) -> out La)
    (solvereal : La -> (Z -> R) -> (Z -> R) -> out (Z -> R))
    (solvecomplex : La -> (Z -> R) -> (Z -> R) -> (Z -> R) -> out ((Z -> R) * (Z -> R)))
    (set_calhes : La -> La) n sh (numjac : bool) (atol rtol : Z -> R) nit (thet fnewt : R) nfuel
    (f : R -> (Z -> R) -> Z -> R) (J : Z -> Z -> R) (g : Z -> R) holds (o : dopts Rnum) (x0 xend : R) fuel ifuel (w : @wrk Rnum Sg La) (h0 : R) (y0 : Z -> R) a b d e e' lr li ea eb u,
  (forall s t y k, snd (userF s t y) k = f t y k) ->
  (forall t y k, (1 <= k <= n)%Z -> f t y k = linear_rhs n J t y k + g k) ->
  (forall s t y fy j i k, in_full n i k -> sh_mat n sh (snd (userJ s t y fy j)) i k = J i k) ->
  (forall i k, in_full n i k -> ~ in_shape n sh i k -> J i k = 0) ->
  calgebra La decomr decomc solvereal solvecomplex set_calhes n sh holds ->
  (1 <= n)%Z -> shape_ok sh -> (1 <= nit)%Z ->
  0 < (d_safe o : R) < 1 -> (1 <= d_nit o)%Z -> (d_quot1 o : R) = 1 -> x0 < xend ->
  left_eigen n J lr li ea eb -> ea <= 0 ->
  affine_flow n J g u -> (forall k, (1 <= k <= n)%Z -> y0 k = u 0 k) ->
  pc (radau (@k_jacob Rnum Sg La userF userJ set_calhes n sh numjac) (@k_mats Rnum Sg La decomr decomc rd_const)
            (@k_evalF Rnum Sg La userF) (@k_doscal Rnum Sg La atol rtol)
            (@k_newton Rnum Sg La userF solvereal solvecomplex n rd_const nit thet fnewt nfuel)
            (@k_estrad Rnum Sg La userF solvereal n rd_const) (@k_adv Rnum Sg La) (@k_save Rnum Sg La rd_const)
            o fuel ifuel w h0 x0 xend y0 a b d e e')
    (fun st => exists x, x0 <= x <= xend /\ 
      (d_onestep o = false -> q_x st = x /\
        (x = xend \/ xend - x <= 1 / 10 ^ 15 * Rabs x \/ exists p, In p (q_hist st) /\ g_reason p = didNotConverge)) /\
      forall H, (forall p, In p (q_hist st) -> g_test p = Some true -> g_h p <= H) ->
      let m := sqrt (ea ^ 2 + eb ^ 2) in
      size n lr li (fun k => q_Y st k - u (x - x0) k) <=
        (x - x0) * (2 / 10 ^ 12 + 4 * (H * m) ^ 5) * exp ((x - x0) * m / 10 ^ 12) * size n lr li (fun k => rsum 1 n (fun l => J k l * u 0 l) + g k)).
Proof.
  intros Sg La userF userJ decomr decomc solvereal solvecomplex set_calhes n sh numjac atol rtol nit thet fnewt nfuel f J g holds o x0 xend fuel ifuel w h0 y0 a b d e e' lr li ea eb u
    Hf Hlin HJ Hout Halg Hn Hsh Hnit Ho1 Ho2 Ho3 Hx He Ha Hu Hy.
  pose proof (full_real Sg La userF userJ decomr decomc solvereal solvecomplex set_calhes n sh numjac atol rtol nit thet fnewt nfuel 1 x0 xend (fun _ => True)
    ltac:(intros; exact Logic.I) ltac:(intros; exact Logic.I) o ltac:(left; split; [reflexivity|exact Hx]) Ho1 Ho2 Ho3 fuel ifuel w h0 y0 a b d e e' Logic.I) as HF.
  pose proof (run_all Sg La userF userJ decomr decomc solvereal solvecomplex set_calhes n sh numjac atol rtol nit thet fnewt nfuel f (fun _ _ => J) Hf HJ holds Halg Hn Hsh Hnit
    o x0 y0 xend fuel ifuel w h0 a b d e e') as HL.
  destruct (radau _ _ _ _ _ _ _ _ _ _ _ _ _ _ _ _ _ _ _ _ _) as [st| | |]; try exact Logic.I. cbn [pc] in *.
  destruct HF as (_ & HX & HG & HE). destruct HL as (s & HR & EY & EX).
  pose proof (good_span x0 xend 1 _ ltac:(left; reflexivity) ltac:(lra) HG) as GS. rewrite Forall_forall in GS.
  exists (r_x s).
  assert (GP : forall t h cv ac, In (t, h, cv, ac) (map event (q_hist st)) -> 0 < h /\ t + h <= xend).
  { intros t h cv ac Hin. apply in_map_iff in Hin. destruct Hin as (p & Ep & Hin). unfold event in Ep. injection Ep as <- <- _ _. specialize (GS p Hin). cbn in GS. lra. }
  assert (HB : forall H, (forall p, In p (q_hist st) -> g_test p = Some true -> g_h p <= H) -> forall t h cv, In (t, h, cv, Some true) (map event (q_hist st)) -> h <= H).
  { intros H HH t h cv Hin. apply in_map_iff in Hin. destruct Hin as (p & Ep & Hin). unfold event in Ep. injection Ep as _ <- _ Et. apply (HH p Hin Et). }
  assert (HM : exists H, forall t h cv, In (t, h, cv, Some true) (map event (q_hist st)) -> h <= H).
  { exists (xend - x0). intros t h cv Hin. apply in_map_iff in Hin. destruct Hin as (p & Ep & Hin). unfold event in Ep. injection Ep as <- <- _ _. specialize (GS p Hin). cbn in GS. lra. }
  destruct HM as (H0 & HM).
  assert (RE : forall H, (forall t h cv, In (t, h, cv, Some true) (map event (q_hist st)) -> h <= H) -> x0 <= r_x s /\
    cn (csub (L n lr li (r_y s)) (L n lr li (u (r_x s - x0)))) <= (r_x s - x0) * (2 / 10 ^ 12 + 4 * (H * cn (ea, eb)) ^ 5) * exp ((r_x s - x0) * cn (ea, eb) / 10 ^ 12) *
      cn (L n lr li (fun k => rsum 1 n (fun l => J k l * u 0 l) + g k))).
  { intros H HH. rewrite (L_add n lr li (fun k => rsum 1 n (fun l => J k l * u 0 l)) g), (L_J n J lr li ea eb He). destruct (Req_dec (ea * ea + eb * eb) 0) as [Z0|N0].
    - assert (Ea : ea = 0) by nra. assert (Eb : eb = 0) by nra. clear Z0. subst ea eb.
      destruct (zero_err n sh numjac J lr li ltac:(lia) He f g Hlin Hout u Hu nit _ fnewt _ x0 y0 _ Hy _ _ HR ltac:(intros t h cv ac Hin; apply (GP t h cv ac Hin))) as [X0 IE]. split; [exact X0|].
      change ((0, 0) : cx) with c0. rewrite cn_0. replace (cadd (cmul c0 (L n lr li (u 0))) (L n lr li g)) with (L n lr li g) by ring.
      replace (exp ((r_x s - x0) * 0 / 10 ^ 12)) with 1 by (replace ((r_x s - x0) * 0 / 10 ^ 12) with 0 by field; rewrite exp_0; reflexivity).
      replace ((H * 0) ^ 5) with 0 by ring. pose proof (cn_pos (L n lr li g)). assert (0 <= (r_x s - x0) * cn (L n lr li g)) by (apply Rmult_le_pos; lra). lra.
    - set (sft := ((ea * dot n lr g + eb * dot n li g) / (ea * ea + eb * eb), (ea * dot n li g - eb * dot n lr g) / (ea * ea + eb * eb)) : cx).
      assert (Hsft : L n lr li g = cmul (ea, eb) sft) by (unfold L, cmul, sft; cbn [fst snd]; apply cx_eq; cbn [fst snd]; field; exact N0).
      clearbody sft. rewrite Hsft.
      destruct (run_err n sh numjac J lr li ea eb ltac:(lia) He Ha f g sft Hsft Hlin Hout u Hu nit _ fnewt _ x0 y0 _ Hy _ _ H HR ltac:(intros t h cv ac Hin; apply (GP t h cv ac Hin)) HH) as [X0 IE]. split; [exact X0|].
      replace (cadd (cmul (ea, eb) (L n lr li (u 0))) (cmul (ea, eb) sft)) with (cmul (ea, eb) (cadd (L n lr li (u 0)) sft)) by ring. rewrite cn_mul. exact IE. }
  pose proof (proj1 (RE H0 HM)) as X0.
  split; [split; [exact X0|]|split].
  - destruct (run_at n sh numjac J f nit _ fnewt _ x0 y0 _ _ _ HR) as [E|(t & h & cv & Hin & E)]; [rewrite E; lra|rewrite E; apply (GP t h cv _ Hin)].
  - intros Ho. split; [exact (EX Ho)|]. rewrite <- (EX Ho). destruct (HE Ho) as [_ [H6|[H6|H6]]]; [left; exact H6| |right; right; exact H6].
    right; left. unfold near in H6. unfold RodasReal.between in HX. destruct (Rle_dec _ _); lra.
  - intros H HH. cbv zeta. destruct (RE H (HB H HH)) as [_ IE]. rewrite !size_cn, L_sub, EY.
    replace (sqrt (ea ^ 2 + eb ^ 2)) with (cn (ea, eb)) by (unfold cn, norm2; cbn [fst snd]; f_equal; ring). exact IE.
Qed.
