(* C98: the effect of the rounded transformation of Radau5 (C67) on one Newton iteration for y' = lambda y. *)
From Coq Require Import ZArith Reals Lra Lia Psatz Ring List.
From Verif Require Import Base Spec HessModel CMacros Dec RodasStab Conv ConvPoly RadauModel RadauAlg RadauSpec RadauConst RadauAcc.
Import ListNotations.
Open Scope R_scope.
Notation c := (@rd_const Rnum).

(* ---- interpolation ---- *)
Lemma Rabs_b (a m : R) : - m <= a <= m -> Rabs a <= m.
Proof. intros H. apply Rabs_le. exact H. Qed.
Lemma Rabs_b' (a m : R) : Rabs a <= m -> - m <= a <= m.
Proof. intros H. pose proof (Rle_abs a). pose proof (Rle_abs (- a)). rewrite Rabs_Ropp in *. lra. Qed.
Lemma quot_bound a q k e : 0 < q -> Rabs a <= k * q * e -> Rabs (a / q) <= k * e.
Proof.
  intros Hq H. unfold Rdiv. rewrite Rabs_mult, (Rabs_pos_eq (/ q)) by (left; apply Rinv_0_lt_compat; exact Hq).
  apply (Rmult_le_reg_r q); [exact Hq|]. rewrite Rmult_assoc, Rinv_l by lra. lra.
Qed.
Section Nodes.
Variables p q : R.
Hypothesis Hp : 155 / 1000 <= p <= 156 / 1000.
Hypothesis Hq : 644 / 1000 <= q <= 645 / 1000.
Lemma lagr s0 s1 s2 e : 0 <= e -> Rabs (s0 + s1 * p + s2 * p ^ 2) <= e -> Rabs (s0 + s1 * q + s2 * q ^ 2) <= e -> Rabs (s0 + s1 + s2) <= e ->
  Rabs s0 <= 38 * e /\ Rabs s1 <= 25 * e /\ Rabs s2 <= 12 * e.
Proof.
  intros He H1 H2 H3. set (v1 := s0 + s1 * p + s2 * p ^ 2) in *. set (v2 := s0 + s1 * q + s2 * q ^ 2) in *. set (v3 := s0 + s1 + s2) in *.
  assert (A : Rabs ((v2 - v1) / (q - p)) <= 41 / 10 * e).
  { apply quot_bound; [lra|]. apply Rabs_b' in H1, H2. apply Rabs_b. clearbody v1 v2. nra. }
  assert (B : Rabs ((v3 - v2) / (1 - q)) <= 57 / 10 * e).
  { apply quot_bound; [lra|]. apply Rabs_b' in H2, H3. apply Rabs_b. clearbody v2 v3. nra. }
  replace ((v2 - v1) / (q - p)) with (s1 + s2 * (p + q)) in A by (unfold v1, v2; field; lra).
  replace ((v3 - v2) / (1 - q)) with (s1 + s2 * (1 + q)) in B by (unfold v3, v2; field; lra).
  assert (S2 : Rabs s2 <= 117 / 10 * e).
  { replace s2 with ((s1 + s2 * (1 + q) - (s1 + s2 * (p + q))) / (1 - p)) by (field; lra). apply quot_bound; [lra|]. apply Rabs_b' in A, B. apply Rabs_b. nra. }
  apply Rabs_b' in A, B, S2, H3.
  assert (S1 : - (25 * e) <= s1 <= 25 * e) by (split; nra).
  split; [|split]; apply Rabs_b; [unfold v3 in H3; nra|exact S1|nra].
Qed.
Lemma interpol v1 v2 v3 e : 0 <= e -> Rabs v1 <= e -> Rabs v2 <= e -> Rabs v3 <= e ->
  exists a b d, cubic a b d p = v1 /\ cubic a b d q = v2 /\ cubic a b d 1 = v3 /\ Rabs a + Rabs b + Rabs d <= 500 * e.
Proof.
  intros He H1 H2 H3.
  set (w1 := v1 / p). set (w2 := v2 / q). set (A := (w2 - w1) / (q - p)). set (B := (v3 - w2) / (1 - q)). set (d := (B - A) / (1 - p)).
  set (b := B - d * (1 + q)). set (a := v3 - b - d).
  exists a, b, d. assert (E1 : a + b * p + d * p ^ 2 = w1) by (unfold a, b, d, A, B; field; lra).
  assert (E2 : a + b * q + d * q ^ 2 = w2) by (unfold a, b, d, A, B; field; lra).
  assert (E3 : a + b + d = v3) by (unfold a; ring). clearbody a b d.
  split; [|split; [|split]].
  - transitivity (p * (a + b * p + d * p ^ 2)); [unfold cubic; ring|]. rewrite E1. unfold w1. field. lra.
  - transitivity (q * (a + b * q + d * q ^ 2)); [unfold cubic; ring|]. rewrite E2. unfold w2. field. lra.
  - rewrite <- E3. unfold cubic. ring.
  - destruct (lagr a b d (65 / 10 * e)) as (X & Y & Z); [lra| | | |lra].
    + rewrite E1. apply quot_bound; [lra|]. nra.
    + rewrite E2. apply quot_bound; [lra|]. nra.
    + rewrite E3. lra.
Qed.
End Nodes.

(* ---- three complex values ---- *)
Definition tr (A : Z -> Z -> R) (w : Z -> cx) (k : Z) : cx := cadd (cadd (cmul (cr (A k 1%Z)) (w 1%Z)) (cmul (cr (A k 2%Z)) (w 2%Z))) (cmul (cr (A k 3%Z)) (w 3%Z)).
Definition n1 (w : Z -> cx) : R := cn (w 1%Z) + cn (w 2%Z) + cn (w 3%Z).
Lemma n1_pos w : 0 <= n1 w.
Proof. unfold n1. pose proof (cn_pos (w 1%Z)). pose proof (cn_pos (w 2%Z)). pose proof (cn_pos (w 3%Z)). lra. Qed.
Lemma tr_mul A B w k : tr A (tr B w) k = tr (mul3 A B) w k.
Proof.
  unfold tr, mul3. rewrite !rsum3. generalize (A k 1%Z) (A k 2%Z) (A k 3%Z) (w 1%Z) (w 2%Z) (w 3%Z). intros.
  apply cx_eq; unfold cadd, cmul, cr; cbn [fst snd]; ring.
Qed.
Lemma tr_ext A v w k : (forall l, (1 <= l <= 3)%Z -> v l = w l) -> tr A v k = tr A w k.
Proof. intros H. unfold tr. rewrite !H by lia. reflexivity. Qed.
Lemma tr_add A v w k : tr A (fun l => cadd (v l) (w l)) k = cadd (tr A v k) (tr A w k).
Proof. unfold tr. ring. Qed.
Lemma tr_scal A z w k : tr A (fun l => cmul z (w l)) k = cmul z (tr A w k).
Proof. unfold tr. ring. Qed.
Lemma tr_bound A w k m : (forall l, (1 <= l <= 3)%Z -> Rabs (A k l) <= m) -> cn (tr A w k) <= m * n1 w.
Proof.
  intros H. unfold tr, n1. eapply Rle_trans; [apply cn_add|]. eapply Rle_trans; [apply Rplus_le_compat_r, cn_add|]. rewrite !cn_scal.
  pose proof (H 1%Z ltac:(lia)). pose proof (H 2%Z ltac:(lia)). pose proof (H 3%Z ltac:(lia)).
  pose proof (cn_pos (w 1%Z)). pose proof (cn_pos (w 2%Z)). pose proof (cn_pos (w 3%Z)). nra.
Qed.
Lemma tr_near A w k m : near_identity A m -> (1 <= k <= 3)%Z -> cn (csub (tr A w k) (w k)) <= m * n1 w.
Proof.
  intros H Hk. replace (csub (tr A w k) (w k)) with (tr (fun i j => A i j - (if (i =? j)%Z then 1 else 0)) w k).
  - apply tr_bound. intros l Hl. apply H; assumption.
  - unfold tr. assert (k = 1 \/ k = 2 \/ k = 3)%Z as [->|[->| ->]] by lia; cbn [Z.eqb Pos.eqb]; apply cx_eq; unfold csub, cadd, copp, cmul, cr; cbn [fst snd]; ring.
Qed.
Lemma cn_parts (w : cx) : cn w <= Rabs (fst w) + Rabs (snd w).
Proof.
  pose proof (Rabs_pos (fst w)). pose proof (Rabs_pos (snd w)). apply cn_le; [lra|]. unfold norm2.
  replace (fst w * fst w) with (Rabs (fst w) * Rabs (fst w)) by (rewrite <- Rabs_mult; apply Rabs_pos_eq; nra).
  replace (snd w * snd w) with (Rabs (snd w) * Rabs (snd w)) by (rewrite <- Rabs_mult; apply Rabs_pos_eq; nra). nra.
Qed.
Lemma parts_cn (w : cx) : Rabs (fst w) <= cn w /\ Rabs (snd w) <= cn w.
Proof.
  split; rewrite <- sqrt_Rsqr_abs; apply sqrt_le_1_alt; unfold norm2, Rsqr; nra.
Qed.

(* ---- the constants ---- *)
Lemma node_bounds : 155 / 1000 <= (C1 c : R) <= 156 / 1000 /\ 644 / 1000 <= (C2 c : R) <= 645 / 1000.
Proof.
  rewrite c1_form, c2_form. pose proof sq6 as H. pose proof sq6_bounds as B. set (s := sqrt 6) in *.
  assert (244 / 100 <= s <= 245 / 100) by (split; nra). lra.
Qed.
Lemma node_poly k : (1 <= k <= 3)%Z -> nodes_of c k ^ 3 = 9 / 5 * nodes_of c k ^ 2 - 9 / 10 * nodes_of c k + 1 / 10.
Proof.
  intros Hk. unfold nodes_of, three. pose proof sq6 as H. rewrite c1_form, c2_form. set (s := sqrt 6) in *.
  assert (k = 1 \/ k = 2 \/ k = 3)%Z as [->|[->| ->]] by lia; cbn [Z.eqb Pos.eqb].
  - replace (((4 - s) / 10) ^ 3) with ((64 - 48 * s + 12 * (s * s) - (s * s) * s) / 1000) by field.
    replace (((4 - s) / 10) ^ 2) with ((16 - 8 * s + s * s) / 100) by field. rewrite H. field.
  - replace (((4 + s) / 10) ^ 3) with ((64 + 48 * s + 12 * (s * s) + (s * s) * s) / 1000) by field.
    replace (((4 + s) / 10) ^ 2) with ((16 + 8 * s + s * s) / 100) by field. rewrite H. field.
  - field.
Qed.
Lemma t3_bounds : 144 / 100 <= t3 <= 145 / 100.
Proof. pose proof t3_cube as H. pose proof t3_pos as P. split; apply Rnot_lt_le; intros G; [assert (t3 * t3 < 144 / 100 * (144 / 100)) by nra|assert (145 / 100 * (145 / 100) < t3 * t3) by nra]; nra. Qed.
Lemma eig_bounds : 3 <= (U1 c : R) <= 4 /\ 5 / 2 <= (ALPH c : R) <= 3 /\ 0 <= (BETA c : R) <= 4.
Proof.
  change (car Rnum) with R. rewrite u1_form, alph_form, beta_form. pose proof t3_bounds. pose proof sq3 as H3. pose proof (sqrt_pos 3) as P.
  assert (17 / 10 <= sqrt 3 <= 174 / 100) by (split; nra). set (s := sqrt 3) in *. set (t := t3) in *.
  assert (T : 207 / 100 <= t * t <= 211 / 100) by (split; nra). split; [lra|]. split; [lra|]. split; nra.
Qed.
Lemma T_bound k l : Rabs (T_of c k l) <= 1.
Proof.
  rewrite Tm_dec. unfold dTm, three. destruct (k =? 1)%Z, (k =? 2)%Z, (l =? 1)%Z, (l =? 2)%Z; rewrite ?D2R_1, ?D2R_z; rewrite ?D2R_lit, ?Rlit_neg; apply Rabs_b;
  repeat match goal with |- context [(10 ^ ?e)%Z] => let v := eval vm_compute in (10 ^ e)%Z in change (10 ^ e)%Z with v end; lra.
Qed.
Lemma TI_sum : Rabs (TI_of c 1 1 + TI_of c 1 2 + TI_of c 1 3) <= 53 / 10 /\ Rabs (TI_of c 2 1 + TI_of c 2 2 + TI_of c 2 3) <= 41 / 10 /\ Rabs (TI_of c 3 1 + TI_of c 3 2 + TI_of c 3 3) <= 15 / 10.
Proof.
  rewrite !TI_dec. unfold dTI, three; cbn [Z.eqb Pos.eqb]. rewrite ?D2R_lit, ?Rlit_neg.
  repeat match goal with |- context [(10 ^ ?e)%Z] => let v := eval vm_compute in (10 ^ e)%Z in change (10 ^ e)%Z with v end.
  split; [|split]; apply Rabs_b; lra.
Qed.
Lemma L_bound k l : Rabs (Lambda_of c k l) <= 4.
Proof.
  destruct eig_bounds as (A & B & D). unfold Lambda_of, three. destruct (k =? 1)%Z, (k =? 2)%Z, (l =? 1)%Z, (l =? 2)%Z; apply Rabs_b; lra.
Qed.

(* ---- one iteration: W, V before it, W', V' after it ---- *)
Section Iter.
Variables (z y : cx).
Hypothesis Hz : fst z <= 0.
Definition rho (W V : Z -> cx) (k : Z) : cx := csub (tr (TI_of c) V k) (W k).
Definition good (W V : Z -> cx) : Prop := forall k, (1 <= k <= 3)%Z -> cn (rho W V k) <= 1 / 10 ^ 16 * cn y.
Definition gg (W V : Z -> cx) (k : Z) : cx := cadd (tr (TI_of c) (fun _ => y) k) (rho W V k).
Definition iter (W V W' V' : Z -> cx) : Prop :=
  (forall k, (1 <= k <= 3)%Z -> csub (tr (Lambda_of c) W' k) (cmul z (W' k)) = cmul z (gg W V k)) /\
  (forall k, (1 <= k <= 3)%Z -> V' k = tr (T_of c) W' k).
Lemma tr_const A k : tr A (fun _ => y) k = cmul (cr (A k 1%Z + A k 2%Z + A k 3%Z)) y.
Proof. unfold tr. apply cx_eq; unfold cadd, cmul, cr; cbn [fst snd]; ring. Qed.
Lemma iter_size W V W' V' : good W V -> iter W V W' V' -> n1 W' <= 12 * (cn z * cn y) /\ n1 W' <= 168 * cn y.
Proof.
  intros HG [HI _]. destruct eig_bounds as (HU & HA & HB). destruct TI_sum as (S1 & S2 & S3).
  pose proof (HI 1%Z ltac:(lia)) as E1. pose proof (HI 2%Z ltac:(lia)) as E2. pose proof (HI 3%Z ltac:(lia)) as E3.
  pose proof (HG 1%Z ltac:(lia)) as G1. pose proof (HG 2%Z ltac:(lia)) as G2. pose proof (HG 3%Z ltac:(lia)) as G3.
  assert (B : forall k m, Rabs (TI_of c k 1 + TI_of c k 2 + TI_of c k 3) <= m -> cn (rho W V k) <= 1 / 10 ^ 16 * cn y -> cn (gg W V k) <= (m + 1 / 10 ^ 16) * cn y).
  { intros k m Hm Hr. unfold gg. eapply Rle_trans; [apply cn_add|]. rewrite tr_const, cn_scal. pose proof (cn_pos y).
    apply Rle_trans with (m * cn y + cn (rho W V k)); [apply Rplus_le_compat_r, Rmult_le_compat_r; assumption|lra]. }
  pose proof (B 1%Z _ S1 G1) as B1. pose proof (B 2%Z _ S2 G2) as B2. pose proof (B 3%Z _ S3 G3) as B3. clear B S1 S2 S3 G1 G2 G3.
  generalize dependent (gg W V 1%Z). generalize dependent (gg W V 2%Z). generalize dependent (gg W V 3%Z). intros g3 E3 B3 g2 E2 B2 g1 E1 B1.
  assert (X : 1 / 10 ^ 16 <= 1 / 100) by lra. set (e := 1 / 10 ^ 16) in *. clearbody e. pose proof (cn_pos y) as Py.
  destruct (row1 (U1 c) z (W' 1%Z) g1 HU Hz) as [R1 R2].
  { rewrite <- E1. unfold tr, Lambda_of, three. cbn [Z.eqb Pos.eqb]. apply cx_eq; unfold csub, cadd, copp, cmul, cr; cbn [fst snd]; ring. }
  destruct (row23 (ALPH c) (BETA c) z (W' 2%Z) (W' 3%Z) g2 g3 HA HB Hz) as [R3 R4].
  { rewrite <- E2. unfold tr, Lambda_of, three. cbn [Z.eqb Pos.eqb]. apply cx_eq; unfold csub, cadd, copp, cmul, cr; cbn [fst snd]; ring. }
  { rewrite <- E3. unfold tr, Lambda_of, three. cbn [Z.eqb Pos.eqb]. apply cx_eq; unfold csub, cadd, copp, cmul, cr; cbn [fst snd]; ring. }
  unfold n1. pose proof (cn_pos z) as Pz. assert (S : cn g1 + (cn g2 + cn g3) <= 12 * cn y) by nra.
  pose proof (cn_pos g1). pose proof (cn_pos g2). pose proof (cn_pos g3). split; [|lra].
  apply Rle_trans with (cn z * (cn g1 + (cn g2 + cn g3))); [lra|]. nra.
Qed.
Lemma iter_good W V W' V' : good W V -> iter W V W' V' -> good W' V'.
Proof.
  intros HG HI k Hk. destruct (iter_size W V W' V' HG HI) as [_ HS]. unfold rho. rewrite (tr_ext _ V' (tr (T_of c) W')) by (intros l Hl; apply HI; exact Hl).
  rewrite tr_mul. eapply Rle_trans; [apply (tr_near _ _ _ _ (proj2 inverse_ok) Hk)|]. pose proof (n1_pos W'). pose proof (cn_pos y). lra.
Qed.
Definition ccub (a b d : cx) (t : R) : cx := (cubic (fst a) (fst b) (fst d) t, cubic (snd a) (snd b) (snd d) t).
Definition ccub' (a b d : cx) (t : R) : cx := (cubic' (fst a) (fst b) (fst d) t, cubic' (snd a) (snd b) (snd d) t).
Lemma iter_step W V W' V' : good W V -> iter W V W' V' ->
  cn (csub (cmul (DD z) (cadd y (V' 3%Z))) (cmul (NN z) y)) <= cn (DD z) * (cn z * (1 / 10 ^ 12 * cn y)).
Proof.
  intros HG HI. destruct (iter_size W V W' V' HG HI) as [HS _]. destruct HI as [HI HV]. destruct node_bounds as [Np Nq].
  pose proof (cn_pos y) as Py. pose proof (cn_pos z) as Pz. set (m := cn z * cn y) in *. assert (Pm : 0 <= m) by (unfold m; nra).
  assert (BV : forall k, (1 <= k <= 3)%Z -> cn (V' k) <= 12 * m).
  { intros k Hk. rewrite HV by exact Hk. eapply Rle_trans; [apply (tr_bound _ _ _ 1); intros l _; apply T_bound|]. lra. }
  assert (BR : forall k, (1 <= k <= 3)%Z -> Rabs (fst (V' k)) <= 12 * m /\ Rabs (snd (V' k)) <= 12 * m).
  { intros k Hk. destruct (parts_cn (V' k)). specialize (BV k Hk). lra. }
  destruct (interpol (C1 c) (C2 c) Np Nq (fst (V' 1%Z)) (fst (V' 2%Z)) (fst (V' 3%Z)) (12 * m)) as (ar & br & dr & I1 & I2 & I3 & IB); [lra|apply BR; lia|apply BR; lia|apply BR; lia|].
  destruct (interpol (C1 c) (C2 c) Np Nq (snd (V' 1%Z)) (snd (V' 2%Z)) (snd (V' 3%Z)) (12 * m)) as (ai & bi & dii & K1 & K2 & K3 & KB); [lra|apply BR; lia|apply BR; lia|apply BR; lia|].
  set (a := (ar, ai) : cx). set (b := (br, bi) : cx). set (d := (dr, dii) : cx).
  assert (EV : forall k, (1 <= k <= 3)%Z -> V' k = ccub a b d (nodes_of c k)).
  { intros k Hk. unfold ccub, a, b, d, nodes_of, three; cbn [fst snd]. assert (k = 1 \/ k = 2 \/ k = 3)%Z as [->|[->| ->]] by lia; cbn [Z.eqb Pos.eqb]; apply cx_eq; cbn [fst snd]; symmetry; assumption. }
  (* the residual at the nodes *)
  set (eps := fun k => csub (tr (mul3 (TI_of c) (T_of c)) W' k) (W' k)).
  assert (Be : n1 eps <= 36 / 10 ^ 19 * m).
  { unfold n1, eps. pose proof (tr_near _ W' 1%Z _ (proj2 inverse_ok) ltac:(lia)). pose proof (tr_near _ W' 2%Z _ (proj2 inverse_ok) ltac:(lia)). pose proof (tr_near _ W' 3%Z _ (proj2 inverse_ok) ltac:(lia)). lra. }
  set (B := mul3 (T_of c) (mul3 (Lambda_of c) (TI_of c))).
  assert (EB : forall k, (1 <= k <= 3)%Z -> tr B V' k =
     cadd (cmul z (cadd (V' k) y)) (cadd (tr (T_of c) (tr (Lambda_of c) eps) k)
       (cmul z (cadd (csub (tr (mul3 (T_of c) (TI_of c)) (fun _ => y) k) y) (tr (T_of c) (rho W V) k))))).
  { intros k Hk. unfold B. rewrite <- tr_mul. 
    rewrite (tr_ext (T_of c) (tr (mul3 (Lambda_of c) (TI_of c)) V') (fun l => cadd (cadd (cmul z (W' l)) (cmul z (cadd (tr (TI_of c) (fun _ => y) l) (rho W V l)))) (tr (Lambda_of c) eps l))).
    - rewrite !tr_add, !tr_scal, tr_add. rewrite <- HV by exact Hk. rewrite <- tr_mul. ring.
    - intros l Hl. rewrite <- tr_mul. rewrite (tr_ext (Lambda_of c) (tr (TI_of c) V') (fun j => cadd (W' j) (eps j))).
      + rewrite tr_add. f_equal. change (cadd (tr (TI_of c) (fun _ => y) l) (rho W V l)) with (gg W V l). rewrite <- (HI l Hl). ring.
      + intros j Hj. unfold eps. rewrite (tr_ext (TI_of c) V' (tr (T_of c) W')) by exact HV. rewrite tr_mul. ring. }
  assert (BS : forall k, (1 <= k <= 3)%Z -> cn (csub (ccub' a b d (nodes_of c k)) (cmul z (cadd (V' k) y))) <= 16 / 10 ^ 16 * m).
  { intros k Hk.
    replace (csub (ccub' a b d (nodes_of c k)) (cmul z (cadd (V' k) y))) with
      (cadd (copp (csub (tr B V' k) (ccub' a b d (nodes_of c k)))) (cadd (tr (T_of c) (tr (Lambda_of c) eps) k)
       (cmul z (cadd (csub (tr (mul3 (T_of c) (TI_of c)) (fun _ => y) k) y) (tr (T_of c) (rho W V) k))))) by (rewrite (EB k Hk); ring).
    assert (X1 : cn (csub (tr B V' k) (ccub' a b d (nodes_of c k))) <= 12000 / 10 ^ 19 * m).
    { rewrite (tr_ext B V' (fun j => ccub a b d (nodes_of c j))) by exact EV.
      pose proof (derivation_ok k Hk ar br dr) as D1. pose proof (derivation_ok k Hk ai bi dii) as D2. rewrite rsum3 in D1, D2. fold B in D1, D2.
      eapply Rle_trans; [apply cn_parts|]. 
      match goal with |- Rabs ?p + Rabs ?q <= _ =>
        replace p with (B k 1%Z * cubic ar br dr (nodes_of c 1%Z) + B k 2%Z * cubic ar br dr (nodes_of c 2%Z) + B k 3%Z * cubic ar br dr (nodes_of c 3%Z) - cubic' ar br dr (nodes_of c k));
        [replace q with (B k 1%Z * cubic ai bi dii (nodes_of c 1%Z) + B k 2%Z * cubic ai bi dii (nodes_of c 2%Z) + B k 3%Z * cubic ai bi dii (nodes_of c 3%Z) - cubic' ai bi dii (nodes_of c k))|] end.
      - change (B_of c) with B in D1, D2. lra.
      - unfold tr, ccub, ccub', csub, cadd, copp, cmul, cr, a, b, d; cbn [fst snd]. ring.
      - unfold tr, ccub, ccub', csub, cadd, copp, cmul, cr, a, b, d; cbn [fst snd]. ring. }
    assert (X2 : cn (tr (T_of c) (tr (Lambda_of c) eps) k) <= 500 / 10 ^ 19 * m).
    { eapply Rle_trans; [apply (tr_bound _ _ _ 1); intros l _; apply T_bound|]. unfold n1 at 1.
      assert (Y : forall l, cn (tr (Lambda_of c) eps l) <= 4 * n1 eps) by (intros l; apply tr_bound; intros; apply L_bound).
      pose proof (Y 1%Z). pose proof (Y 2%Z). pose proof (Y 3%Z). pose proof (n1_pos eps). lra. }
    assert (X3 : cn (cadd (csub (tr (mul3 (T_of c) (TI_of c)) (fun _ => y) k) y) (tr (T_of c) (rho W V) k)) <= 3100 / 10 ^ 19 * cn y).
    { eapply Rle_trans; [apply cn_add|]. pose proof (tr_near _ (fun _ => y) k _ (proj1 inverse_ok) Hk) as N1. unfold n1 in N1.
      assert (Y : cn (tr (T_of c) (rho W V) k) <= 3 / 10 ^ 16 * cn y).
      { eapply Rle_trans; [apply (tr_bound _ _ _ 1); intros l _; apply T_bound|]. unfold n1. pose proof (HG 1%Z ltac:(lia)). pose proof (HG 2%Z ltac:(lia)). pose proof (HG 3%Z ltac:(lia)). lra. }
      cbv beta in N1. lra. }
    eapply Rle_trans; [apply cn_add|]. rewrite cn_opp. eapply Rle_trans; [apply Rplus_le_compat_l, cn_add|]. rewrite cn_mul.
    assert (X4 : cn z * cn (cadd (csub (tr (mul3 (T_of c) (TI_of c)) (fun _ => y) k) y) (tr (T_of c) (rho W V) k)) <= 3100 / 10 ^ 19 * m).
    { unfold m. apply Rle_trans with (cn z * (3100 / 10 ^ 19 * cn y)); [apply Rmult_le_compat_l; assumption|lra]. }
    lra. }
  (* the coefficients of the residual *)
  set (s0 := csub (csub a (cmul z y)) (cmul (cr (1 / 10)) (cmul z d))).
  set (s1 := cadd (csub (cmul (cr 2) b) (cmul z a)) (cmul (cr (9 / 10)) (cmul z d))).
  set (s2 := csub (csub (cmul (cr 3) d) (cmul z b)) (cmul (cr (9 / 5)) (cmul z d))).
  assert (ER : forall k, (1 <= k <= 3)%Z -> csub (ccub' a b d (nodes_of c k)) (cmul z (cadd (V' k) y)) =
     (fst s0 + fst s1 * nodes_of c k + fst s2 * nodes_of c k ^ 2, snd s0 + snd s1 * nodes_of c k + snd s2 * nodes_of c k ^ 2)).
  { intros k Hk. rewrite (EV k Hk). pose proof (node_poly k Hk) as P. set (t := nodes_of c k) in *. clearbody t.
    unfold s0, s1, s2. clearbody a b d. clear - P. destruct a as [a1 a2], b as [b1 b2], d as [d1 d2], z as [z1 z2], y as [y1 y2].
    unfold ccub, ccub', cubic, cubic', csub, cadd, copp, cmul, cr; cbn [fst snd]. rewrite P. apply cx_eq; cbn [fst snd]; field. }
  assert (BP : forall k, (1 <= k <= 3)%Z -> Rabs (fst s0 + fst s1 * nodes_of c k + fst s2 * nodes_of c k ^ 2) <= 16 / 10 ^ 16 * m /\ Rabs (snd s0 + snd s1 * nodes_of c k + snd s2 * nodes_of c k ^ 2) <= 16 / 10 ^ 16 * m).
  { intros k Hk. specialize (BS k Hk). rewrite (ER k Hk) in BS. match type of BS with cn ?w <= _ => pose proof (parts_cn w) as [Q1 Q2] end. cbn [fst snd] in Q1, Q2. lra. }
  pose proof (BP 1%Z ltac:(lia)) as [F1 G1]. pose proof (BP 2%Z ltac:(lia)) as [F2 G2]. pose proof (BP 3%Z ltac:(lia)) as [F3 G3].
  unfold nodes_of, three in F1, F2, F3, G1, G2, G3. cbn [Z.eqb Pos.eqb] in F1, F2, F3, G1, G2, G3.
  destruct (lagr (C1 c) (C2 c) Np Nq (fst s0) (fst s1) (fst s2) (16 / 10 ^ 16 * m)) as (L0 & L1 & L2); [lra|assumption|assumption| |].
  { replace (fst s0 + fst s1 + fst s2) with (fst s0 + fst s1 * 1 + fst s2 * 1 ^ 2) by ring. exact F3. }
  destruct (lagr (C1 c) (C2 c) Np Nq (snd s0) (snd s1) (snd s2) (16 / 10 ^ 16 * m)) as (M0 & M1 & M2); [lra|assumption|assumption| |].
  { replace (snd s0 + snd s1 + snd s2) with (snd s0 + snd s1 * 1 + snd s2 * 1 ^ 2) by ring. exact G3. }
  pose proof (cn_parts s0). pose proof (cn_parts s1). pose proof (cn_parts s2).
  replace (cadd y (V' 3%Z)) with (cadd y (cadd a (cadd b d))).
  2: { rewrite (EV 3%Z) by lia. unfold ccub, cubic, nodes_of, three. cbn [Z.eqb Pos.eqb]. f_equal. apply cx_eq; unfold cadd; cbn [fst snd]; ring. }
  eapply Rle_trans; [apply (colloc z y a b d s0 s1 s2 Hz eq_refl eq_refl eq_refl)|]. apply Rmult_le_compat_l; [apply cn_pos|].
  replace (cn z * (1 / 10 ^ 12 * cn y)) with (1 / 10 ^ 12 * m) by (unfold m; ring). lra.
Qed.
End Iter.
