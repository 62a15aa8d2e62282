(* C98: one Newton iteration along an eigenvector of the eigenvalue 0, where y' = g. *)
From Coq Require Import ZArith Reals Lra Lia Psatz Ring List.
From Verif Require Import Base Spec HessModel CMacros Dec RodasStab Conv ConvPoly RadauModel RadauAlg RadauSpec RadauConst RadauAcc RadauPert.
Import ListNotations.
Open Scope R_scope.
Local Notation c := (@rd_const Rnum).

Section Zero.
Variable y : cx.
Variables W V : Z -> cx.
Hypothesis HW : forall k, (1 <= k <= 3)%Z -> tr (Lambda_of c) W k = tr (TI_of c) (fun _ => y) k.
Hypothesis HV : forall k, (1 <= k <= 3)%Z -> V k = tr (T_of c) W k.
Lemma zero_size : n1 W <= 12 * cn y.
Proof.
  destruct eig_bounds as (HU & HA & HB). destruct TI_sum as (S1 & S2 & S3).
  pose proof (HW 1%Z ltac:(lia)) as E1. pose proof (HW 2%Z ltac:(lia)) as E2. pose proof (HW 3%Z ltac:(lia)) as E3. rewrite tr_const in E1, E2, E3.
  set (t1 := TI_of c 1 1 + TI_of c 1 2 + TI_of c 1 3) in *. set (t2 := TI_of c 2 1 + TI_of c 2 2 + TI_of c 2 3) in *. set (t3' := TI_of c 3 1 + TI_of c 3 2 + TI_of c 3 3) in *.
  clearbody t1 t2 t3'. set (U := (U1 c : R)) in *. set (A := (ALPH c : R)) in *. set (B := (BETA c : R)) in *.
  assert (F1 : cmul (cr U) (W 1%Z) = cmul (cr t1) y).
  { rewrite <- E1. unfold tr, Lambda_of, three. cbn [Z.eqb Pos.eqb]. apply cx_eq; unfold csub, cadd, copp, cmul, cr; cbn [fst snd]; unfold U; ring. }
  assert (F2 : csub (cmul (cr A) (W 2%Z)) (cmul (cr B) (W 3%Z)) = cmul (cr t2) y).
  { rewrite <- E2. unfold tr, Lambda_of, three. cbn [Z.eqb Pos.eqb]. apply cx_eq; unfold csub, cadd, copp, cmul, cr; cbn [fst snd]; unfold A, B; ring. }
  assert (F3 : cadd (cmul (cr B) (W 2%Z)) (cmul (cr A) (W 3%Z)) = cmul (cr t3') y).
  { rewrite <- E3. unfold tr, Lambda_of, three. cbn [Z.eqb Pos.eqb]. apply cx_eq; unfold csub, cadd, copp, cmul, cr; cbn [fst snd]; unfold A, B; ring. }
  clearbody U A B. clear E1 E2 E3. pose proof (cn_pos y) as Py.
  assert (G1 : U * cn (W 1%Z) = Rabs t1 * cn y) by (rewrite <- (Rabs_pos_eq U) by lra; rewrite <- !cn_scal, F1; reflexivity).
  assert (G2 : (A * A + B * B) * cn (W 2%Z) = Rabs (A * t2 + B * t3') * cn y).
  { rewrite <- (Rabs_pos_eq (A * A + B * B)) by nra. rewrite <- !cn_scal. f_equal.
    transitivity (cadd (cmul (cr A) (csub (cmul (cr A) (W 2%Z)) (cmul (cr B) (W 3%Z)))) (cmul (cr B) (cadd (cmul (cr B) (W 2%Z)) (cmul (cr A) (W 3%Z))))).
    - apply cx_eq; unfold csub, cadd, copp, cmul, cr; cbn [fst snd]; ring.
    - rewrite F2, F3. apply cx_eq; unfold csub, cadd, copp, cmul, cr; cbn [fst snd]; ring. }
  assert (G3 : (A * A + B * B) * cn (W 3%Z) = Rabs (A * t3' - B * t2) * cn y).
  { rewrite <- (Rabs_pos_eq (A * A + B * B)) by nra. rewrite <- !cn_scal. f_equal.
    transitivity (csub (cmul (cr A) (cadd (cmul (cr B) (W 2%Z)) (cmul (cr A) (W 3%Z)))) (cmul (cr B) (csub (cmul (cr A) (W 2%Z)) (cmul (cr B) (W 3%Z))))).
    - apply cx_eq; unfold csub, cadd, copp, cmul, cr; cbn [fst snd]; ring.
    - rewrite F2, F3. apply cx_eq; unfold csub, cadd, copp, cmul, cr; cbn [fst snd]; ring. }
  apply Rabs_b' in S1. assert (S2' := Rabs_b' _ _ S2). assert (S3' := Rabs_b' _ _ S3).
  assert (K1 : Rabs t1 <= 53 / 10) by (apply Rabs_b; exact S1).
  assert (K2 : Rabs (A * t2 + B * t3') <= 183 / 10) by (apply Rabs_b; nra).
  assert (K3 : Rabs (A * t3' - B * t2) <= 209 / 10) by (apply Rabs_b; nra).
  assert (D : 25 / 4 <= A * A + B * B) by nra. set (D' := A * A + B * B) in *. clearbody D'.
  pose proof (cn_pos (W 1%Z)). pose proof (cn_pos (W 2%Z)). pose proof (cn_pos (W 3%Z)).
  assert (M1 : 3 * cn (W 1%Z) <= 53 / 10 * cn y) by nra. assert (M2 : 25 / 4 * cn (W 2%Z) <= 183 / 10 * cn y) by nra. assert (M3 : 25 / 4 * cn (W 3%Z) <= 209 / 10 * cn y) by nra.
  unfold n1. lra.
Qed.
Lemma zero_step : cn (csub (V 3%Z) y) <= 1 / 10 ^ 12 * cn y.
Proof.
  pose proof zero_size as HS. destruct node_bounds as [Np Nq]. pose proof (cn_pos y) as Pm. set (m := cn y) in *.
  assert (BV : forall k, (1 <= k <= 3)%Z -> cn (V k) <= 12 * m).
  { intros k Hk. rewrite HV by exact Hk. eapply Rle_trans; [apply (tr_bound _ _ _ 1); intros l _; apply T_bound|]. lra. }
  assert (BR : forall k, (1 <= k <= 3)%Z -> Rabs (fst (V k)) <= 12 * m /\ Rabs (snd (V k)) <= 12 * m).
  { intros k Hk. destruct (parts_cn (V k)). specialize (BV k Hk). lra. }
  destruct (interpol (C1 c) (C2 c) Np Nq (fst (V 1%Z)) (fst (V 2%Z)) (fst (V 3%Z)) (12 * m)) as (ar & br & dr & I1 & I2 & I3 & IB); [lra|apply BR; lia|apply BR; lia|apply BR; lia|].
  destruct (interpol (C1 c) (C2 c) Np Nq (snd (V 1%Z)) (snd (V 2%Z)) (snd (V 3%Z)) (12 * m)) as (ai & bi & dii & K1 & K2 & K3 & KB); [lra|apply BR; lia|apply BR; lia|apply BR; lia|].
  set (a := (ar, ai) : cx). set (b := (br, bi) : cx). set (d := (dr, dii) : cx).
  assert (EV : forall k, (1 <= k <= 3)%Z -> V k = ccub a b d (nodes_of c k)).
  { intros k Hk. unfold ccub, a, b, d, nodes_of, three; cbn [fst snd]. assert (k = 1 \/ k = 2 \/ k = 3)%Z as [->|[->| ->]] by lia; cbn [Z.eqb Pos.eqb]; apply cx_eq; cbn [fst snd]; symmetry; assumption. }
  set (eps := fun k => csub (tr (mul3 (TI_of c) (T_of c)) W k) (W k)).
  assert (Be : n1 eps <= 36 / 10 ^ 19 * m).
  { unfold n1, eps. pose proof (tr_near _ W 1%Z _ (proj2 inverse_ok) ltac:(lia)). pose proof (tr_near _ W 2%Z _ (proj2 inverse_ok) ltac:(lia)). pose proof (tr_near _ W 3%Z _ (proj2 inverse_ok) ltac:(lia)). lra. }
  set (B := mul3 (T_of c) (mul3 (Lambda_of c) (TI_of c))).
  assert (EB : forall k, (1 <= k <= 3)%Z -> tr B V k = cadd y (cadd (tr (T_of c) (tr (Lambda_of c) eps) k) (csub (tr (mul3 (T_of c) (TI_of c)) (fun _ => y) k) y))).
  { intros k Hk. unfold B. rewrite <- tr_mul.
    rewrite (tr_ext (T_of c) (tr (mul3 (Lambda_of c) (TI_of c)) V) (fun l => cadd (tr (TI_of c) (fun _ => y) l) (tr (Lambda_of c) eps l))).
    - rewrite (tr_add (T_of c)). rewrite (tr_mul (T_of c) (TI_of c)). ring.
    - intros l Hl. rewrite <- tr_mul. rewrite (tr_ext (Lambda_of c) (tr (TI_of c) V) (fun j => cadd (W j) (eps j))).
      + rewrite (tr_add (Lambda_of c)). f_equal. exact (HW l Hl).
      + intros j Hj. unfold eps. rewrite (tr_ext (TI_of c) V (tr (T_of c) W)) by exact HV. rewrite tr_mul. ring. }
  assert (BS : forall k, (1 <= k <= 3)%Z -> cn (csub (ccub' a b d (nodes_of c k)) y) <= 16 / 10 ^ 16 * m).
  { intros k Hk.
    replace (csub (ccub' a b d (nodes_of c k)) y) with
      (cadd (copp (csub (tr B V k) (ccub' a b d (nodes_of c k)))) (cadd (tr (T_of c) (tr (Lambda_of c) eps) k) (csub (tr (mul3 (T_of c) (TI_of c)) (fun _ => y) k) y))) by (rewrite (EB k Hk); ring).
    assert (X1 : cn (csub (tr B V k) (ccub' a b d (nodes_of c k))) <= 12000 / 10 ^ 19 * m).
    { rewrite (tr_ext B V (fun j => ccub a b d (nodes_of c j))) by exact EV.
      pose proof (derivation_ok k Hk ar br dr) as D1. pose proof (derivation_ok k Hk ai bi dii) as D2. rewrite rsum3 in D1, D2. fold B in D1, D2.
      eapply Rle_trans; [apply cn_parts|].
      match goal with |- Rabs ?p + Rabs ?q <= _ =>
        replace p with (B k 1%Z * cubic ar br dr (nodes_of c 1%Z) + B k 2%Z * cubic ar br dr (nodes_of c 2%Z) + B k 3%Z * cubic ar br dr (nodes_of c 3%Z) - cubic' ar br dr (nodes_of c k));
        [replace q with (B k 1%Z * cubic ai bi dii (nodes_of c 1%Z) + B k 2%Z * cubic ai bi dii (nodes_of c 2%Z) + B k 3%Z * cubic ai bi dii (nodes_of c 3%Z) - cubic' ai bi dii (nodes_of c k))|] end.
      - change (B_of c) with B in D1, D2. lra.
      - unfold tr, ccub, ccub', csub, cadd, copp, cmul, cr, a, b, d; cbn [fst snd]. ring.
      - unfold tr, ccub, ccub', csub, cadd, copp, cmul, cr, a, b, d; cbn [fst snd]. ring. }
    assert (X2 : cn (tr (T_of c) (tr (Lambda_of c) eps) k) <= 500 / 10 ^ 19 * m).
    { eapply Rle_trans; [apply (tr_bound _ _ _ 1); intros l _; apply T_bound|]. unfold n1 at 1.
      assert (Y : forall l, cn (tr (Lambda_of c) eps l) <= 4 * n1 eps) by (intros l; apply tr_bound; intros; apply L_bound).
      pose proof (Y 1%Z). pose proof (Y 2%Z). pose proof (Y 3%Z). pose proof (n1_pos eps). lra. }
    assert (X3 : cn (csub (tr (mul3 (T_of c) (TI_of c)) (fun _ => y) k) y) <= 3 / 10 ^ 19 * m).
    { pose proof (tr_near _ (fun _ => y) k _ (proj1 inverse_ok) Hk) as N1. unfold n1 in N1. cbv beta in N1. fold m in N1. lra. }
    eapply Rle_trans; [apply cn_add|]. rewrite cn_opp. eapply Rle_trans; [apply Rplus_le_compat_l, cn_add|]. lra. }
  assert (BP : forall k, (1 <= k <= 3)%Z -> Rabs ((ar - fst y) + 2 * br * nodes_of c k + 3 * dr * nodes_of c k ^ 2) <= 16 / 10 ^ 16 * m /\ Rabs ((ai - snd y) + 2 * bi * nodes_of c k + 3 * dii * nodes_of c k ^ 2) <= 16 / 10 ^ 16 * m).
  { intros k Hk. specialize (BS k Hk). match type of BS with cn ?w <= _ => pose proof (parts_cn w) as [Q1 Q2] end.
    unfold csub, cadd, copp, ccub', cubic', a, b, d in Q1, Q2. cbn [fst snd] in Q1, Q2. 
    split; [eapply Rle_trans; [|eapply Rle_trans; [exact Q1|exact BS]]|eapply Rle_trans; [|eapply Rle_trans; [exact Q2|exact BS]]]; right; f_equal; ring. }
  pose proof (BP 1%Z ltac:(lia)) as [F1 G1]. pose proof (BP 2%Z ltac:(lia)) as [F2 G2]. pose proof (BP 3%Z ltac:(lia)) as [F3 G3].
  unfold nodes_of, three in F1, F2, F3, G1, G2, G3. cbn [Z.eqb Pos.eqb] in F1, F2, F3, G1, G2, G3.
  destruct (lagr (C1 c) (C2 c) Np Nq (ar - fst y) (2 * br) (3 * dr) (16 / 10 ^ 16 * m)) as (L0 & L1 & L2); [lra|assumption|assumption| |].
  { replace (ar - fst y + 2 * br + 3 * dr) with (ar - fst y + 2 * br * 1 + 3 * dr * 1 ^ 2) by ring. exact F3. }
  destruct (lagr (C1 c) (C2 c) Np Nq (ai - snd y) (2 * bi) (3 * dii) (16 / 10 ^ 16 * m)) as (M0 & M1 & M2); [lra|assumption|assumption| |].
  { replace (ai - snd y + 2 * bi + 3 * dii) with (ai - snd y + 2 * bi * 1 + 3 * dii * 1 ^ 2) by ring. exact G3. }
  rewrite (EV 3%Z) by lia. eapply Rle_trans; [apply cn_parts|].
  unfold ccub, csub, cadd, copp, cubic, nodes_of, three, a, b, d. cbn [Z.eqb Pos.eqb fst snd].
  apply Rabs_b' in L0, L1, L2, M0, M1, M2. clearbody m.
  assert (Q1 : Rabs (ar * 1 + br * 1 ^ 2 + dr * 1 ^ 3 + - fst y) <= 1 / 10 ^ 13 * m) by (apply Rabs_b; lra).
  assert (Q2 : Rabs (ai * 1 + bi * 1 ^ 2 + dii * 1 ^ 3 + - snd y) <= 1 / 10 ^ 13 * m) by (apply Rabs_b; lra).
  lra.
Qed.
End Zero.
