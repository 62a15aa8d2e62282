(* C97: the runs of Rock4 and Rock4-L against the solution of u' = A u. *)
From Coq Require Import ZArith Reals Lra Lia List Bool FunctionalExtensionality.
From Verif Require Import Base HessModel VecFun Spec HessPathProofs RKSpec Rock4Model Rock4Spec Rock4Proofs Rock4Drive Rock4Step Rock4Cor Rock4LModel Rock4LSpec Rock4LDrive Rock4TabSpec Rock4TabNG Rock4TabL Rock4Check Rock4Poly Rock4Stab Rock4StabKer Rock4StabThm Rock4Order Rock4OrderK Rock4Acc Rock4ConvSpec.
From Verif Require RodasStab Conv.
Import ListNotations.
Open Scope R_scope.

Lemma fst_le w : Rabs (fst w) <= Conv.cn w.
Proof.
  unfold Conv.cn. rewrite <- sqrt_Rsqr_abs. apply sqrt_le_1_alt. unfold RodasStab.norm2, Rsqr. pose proof (Rle_0_sqr (snd w)) as H. unfold Rsqr in H. lra.
Qed.
Lemma exp_poly z : z <= 0 -> Rabs (exp z - poly4 1 1 (1 / 2) (1 / 6) (1 / 24) z) <= Rabs z ^ 5 / 120.
Proof.
  intros Hz. pose proof (Conv.taylor (z, 0) 5 1 Hz ltac:(lra)) as T.
  assert (E1 : Conv.cn (z, 0) = Rabs z).
  { unfold Conv.cn, RodasStab.norm2. cbn [fst snd]. replace (z * z + 0 * 0) with (Rsqr z) by (unfold Rsqr; ring). apply sqrt_Rsqr_abs. }
  rewrite E1 in T. replace (1 ^ 5 / INR (fact 5)) with (/ 120) in T by (cbn [fact Nat.mul Nat.add INR pow]; field).
  eapply Rle_trans; [|exact T]. eapply Rle_trans; [|apply fst_le]. apply Req_le. f_equal.
  unfold RodasStab.csub, RodasStab.cadd, RodasStab.copp, Conv.tz, Conv.cexp. cbn [fst snd]. rewrite Rmult_1_l, Rmult_0_r, cos_0, Rmult_1_r. unfold Rminus. f_equal. f_equal.
  unfold poly4. cbn [Conv.tay Conv.cpow fact Nat.mul Nat.add INR pow]. unfold RodasStab.cadd, RodasStab.cmul, RodasStab.cr, RodasStab.c0, RodasStab.c1. cbn [fst snd]. field.
Qed.

Lemma pairs_in n : forall l s (mu ka : nat -> R), Datatypes.length l = (2 * n)%nat ->
  (forall j, (j < n)%nat -> infb (mu (s + j)%nat) (nth (2 * j) l fzero) /\ infb (ka (s + j)%nat) (nth (2 * j + 1) l fzero)) ->
  Forall2 (fun a b => infb (fst a) (fst b) /\ infb (snd a) (snd b)) (map (fun j => (mu j, ka j)) (seq s n)) (pairs n l).
Proof.
  induction n as [|n IH]; intros l s mu ka Hl H; [constructor|].
  destruct l as [|a [|b l]]; try (cbn in Hl; lia). cbn [seq map pairs]. constructor.
  - specialize (H 0%nat ltac:(lia)). rewrite Nat.add_0_r in H. exact H.
  - apply IH; [cbn in Hl; lia|]. intros j Hj. specialize (H (S j) ltac:(lia)).
    replace (s + S j)%nat with (S s + j)%nat in H by lia. replace (2 * S j)%nat with (S (S (2 * j))) in H by lia. replace (S (S (2 * j)) + 1)%nat with (S (S (2 * j + 1))) in H by lia. exact H.
Qed.
Lemma acc_in i mu1 mu ka a b : (i < 50)%nat -> coef_near 51 i mu1 mu ka a b -> tin (polyR mu1 (coefs i mu ka) (finl a b)) (acc_poly i).
Proof.
  intros Hi (N1 & N2 & N3 & N4). unfold acc_poly. cbv zeta.
  assert (CL : (off i + (2 * deg i - 1) <= 4382)%nat /\ (0 < deg i)%nat).
  { assert (HH : forallb (fun i => (off i + (2 * deg i - 1) <=? 4382)%nat && (0 <? deg i)%nat) (seq 0 50) = true) by (vm_cast_no_check (eq_refl true)).
    rewrite forallb_forall in HH. specialize (HH i ltac:(apply in_seq; lia)). apply andb_prop in HH. destruct HH as [H1 H2]. apply Nat.leb_le in H1. apply Nat.ltb_lt in H2. split; assumption. }
  destruct CL as [CL D].
  set (B := map (fun x => fent (tz x)) (firstn (2 * deg i - 1) (skipn (off i) ng_RECF))) in *.
  assert (LB : Datatypes.length B = (2 * deg i - 1)%nat).
  { unfold B. rewrite map_length, firstn_length, skipn_length. destruct ng_lens as (L1 & _ & _). change List.length with Datatypes.length in L1. rewrite L1. lia. }
  assert (HB : forall k v, (k < 2 * deg i - 1)%nat -> near 51 v (nthZ ng_RECF (off i + k)) -> infb v (nth k B fzero)).
  { intros k v Hk Hv. rewrite (nth_indep B fzero (fent (tz (0, 0)%Z))); [|rewrite LB; exact Hk]. unfold B.
    rewrite (map_nth (fun x => fent (tz x))), nth_firstn', nth_skipn' by exact Hk. apply infb_ent. exact Hv. }
  apply tin_poly.
  - rewrite <- nth_hd'. apply HB; [lia|]. rewrite Nat.add_0_r. exact N1.
  - unfold coefs. apply pairs_in; [rewrite length_tl', LB; lia|]. intros j Hj. destruct (N2 (2 + j)%nat ltac:(lia)) as [A1 A2].
    rewrite !nth_tl'. split; apply HB; try lia.
    + replace (S (2 * j)) with (2 * (2 + j) - 3)%nat by lia. exact A1.
    + replace (S (2 * j + 1)) with (2 * (2 + j) - 2)%nat by lia. exact A2.
  - unfold infin, finl. cbn [a21 a31 a32 a41 a42 a43 b1 b2 b3 b4]. repeat split; apply infb_ent; first [apply N3; lia|apply N4; lia].
Qed.
Lemma acc_exp i mu1 mu ka a b : (i < 50)%nat -> acc_ok i = true -> coef_near 51 i mu1 mu ka a b -> forall z, -1 <= z <= 0 ->
  Rabs (polyR mu1 (coefs i mu ka) (finl a b) z - exp z) <= Rabs z * (1 / 10 ^ 13 + 2 * Rabs z ^ 4).
Proof.
  intros Hi HC HN z Hz. destruct (acc_in i mu1 mu ka a b Hi HN) as (c0 & c1 & c2 & c3 & c4 & (_ & I1 & I2 & I3 & I4) & Ht & HT).
  unfold acc_ok in HC. cbv zeta in HC. set (p := acc_poly i) in *. clearbody p.
  apply andb_prop in HC. destruct HC as [HC H5]. apply andb_prop in HC. destruct HC as [HC H4]. apply andb_prop in HC. destruct HC as [HC H3]. apply andb_prop in HC. destruct HC as [H1 H2].
  pose proof (fnear_ok 1 _ _ eq_refl H1 I1) as F1. pose proof (fnear_ok 2 _ _ eq_refl H2 I2) as F2. pose proof (fnear_ok 6 _ _ eq_refl H3 I3) as F3. pose proof (fnear_ok 24 _ _ eq_refl H4 I4) as F4.
  apply Z.leb_le, IZR_le in H5. set (P := polyR mu1 (coefs i mu ka) (finl a b)) in *. pose proof PP_pos as HP.
  assert (E0 : c0 = 1).
  { pose proof (HT 0 ltac:(lra)) as H0. rewrite Rabs_R0 in H0. replace (0 ^ 5) with 0 in H0 by ring. rewrite Rmult_0_l in H0.
    assert (X : Rabs (P 0 - poly4 c0 c1 c2 c3 c4 0) <= 0).
    { apply (Rmult_le_reg_r (IZR PP)); [exact HP|]. rewrite Rmult_0_l. exact H0. }
    pose proof (Rabs_pos (P 0 - poly4 c0 c1 c2 c3 c4 0)) as Y. assert (Z0 : P 0 - poly4 c0 c1 c2 c3 c4 0 = 0).
    { destruct (Req_dec (P 0 - poly4 c0 c1 c2 c3 c4 0) 0) as [E|E]; [exact E|]. apply Rabs_pos_lt in E. lra. }
    unfold P in Z0. rewrite polyR_0 in Z0. unfold poly4 in Z0. lra. }
  assert (HT' : Rabs (P z - poly4 c0 c1 c2 c3 c4 z) <= Rabs z ^ 5).
  { apply (Rmult_le_reg_r (IZR PP)); [exact HP|]. eapply Rle_trans; [apply (HT z Hz)|]. apply Rmult_le_compat_l; [apply pow_le, Rabs_pos|exact H5]. }
  pose proof (exp_poly z (proj2 Hz)) as HE.
  assert (Z1 : Rabs z <= 1) by (apply Rabs_le; lra). pose proof (Rabs_pos z) as Z0.
  assert (HQ : Rabs (poly4 c0 c1 c2 c3 c4 z - poly4 1 1 (1 / 2) (1 / 6) (1 / 24) z) <= Rabs z * (4 * (2 / 10 ^ 14))).
  { rewrite E0. replace (poly4 1 c1 c2 c3 c4 z - poly4 1 1 (1 / 2) (1 / 6) (1 / 24) z) with
      (z * (((c1 - 1 / 1) + (c2 - 1 / 2) * z) + ((c3 - 1 / 6) * z ^ 2 + (c4 - 1 / 24) * z ^ 3))) by (unfold poly4; field).
    rewrite Rabs_mult. apply Rmult_le_compat_l; [exact Z0|].
    assert (B : forall c k, Rabs c <= 2 / 10 ^ 14 -> Rabs (c * z ^ k) <= 2 / 10 ^ 14).
    { intros c k Hc. rewrite Rabs_mult, <- RPow_abs. assert (Rabs z ^ k <= 1) by (rewrite <- (pow1 k); apply pow_incr; lra). assert (0 <= Rabs z ^ k) by (apply pow_le, Z0).
      pose proof (Rabs_pos c). replace (2 / 10 ^ 14) with (2 / 10 ^ 14 * 1) by ring. apply Rmult_le_compat; lra. }
    pose proof (B _ 1%nat F2) as B2. rewrite pow_1 in B2. pose proof (B _ 2%nat F3) as B3. pose proof (B _ 3%nat F4) as B4.
    eapply Rle_trans; [apply Rabs_triang|]. eapply Rle_trans; [apply Rplus_le_compat; apply Rabs_triang|]. lra. }
  replace (P z - exp z) with ((P z - poly4 c0 c1 c2 c3 c4 z) + ((poly4 c0 c1 c2 c3 c4 z - poly4 1 1 (1 / 2) (1 / 6) (1 / 24) z) - (exp z - poly4 1 1 (1 / 2) (1 / 6) (1 / 24) z))) by ring.
  eapply Rle_trans; [apply Rabs_triang|]. eapply Rle_trans; [apply Rplus_le_compat_l; apply Rabs_triang|]. rewrite Rabs_Ropp.
  assert (Q5 : 0 <= Rabs z ^ 5) by (apply pow_le, Z0). replace (Rabs z * (1 / 10 ^ 13 + 2 * Rabs z ^ 4)) with (Rabs z * (1 / 10 ^ 13) + 2 * Rabs z ^ 5) by ring. lra.
Qed.
Lemma acc_block d i r : right_block d i r -> (d <= 92)%Z -> d <> 63%Z -> acc_ok (Z.to_nat (i - 1)) = true.
Proof.
  intros HR H1 H2. destruct (rb_deg d i r HR) as (E1 & _ & E3 & E4 & _). set (k := Z.to_nat (i - 1)) in *.
  assert (HH : forallb (fun k => (92 <? Z.of_nat (deg k))%Z || (Z.of_nat (deg k) =? 63)%Z || existsb (Nat.eqb k) acc_degs) (seq 0 50) = true) by (vm_cast_no_check (eq_refl true)).
  rewrite forallb_forall in HH. specialize (HH k ltac:(apply in_seq; lia)). cbv beta in HH.
  apply orb_prop in HH. destruct HH as [HH|HH].
  { apply orb_prop in HH. destruct HH as [HH|HH]; [apply Z.ltb_lt in HH; lia|apply Z.eqb_eq in HH; lia]. }
  apply existsb_exists in HH. destruct HH as (j & Hj & Ej). apply Nat.eqb_eq in Ej. subst j. pose proof acc_all_ok as A. rewrite forallb_forall in A. apply A, Hj.
Qed.
Lemma Rabs_def2_le x a : Rabs x <= a -> - a <= x <= a.
Proof. unfold Rabs. destruct (Rcase_abs x); lra. Qed.
(* a step: stable and accurate *)
Definition local (h lam : R) : R := h * Rabs lam * (1 / 10 ^ 13 + 2 * (h * Rabs lam) ^ 4).
Lemma step_accurate f l c d i r mu1 mu ka a b h : linear f -> Forall (eigen f) l -> right_block d i r -> (d <= 92)%Z -> d <> 63%Z -> 0 < h ->
  (forall p, In p l -> interval d (h * fst p)) ->
  coef_near 51 (Z.to_nat (i - 1)) mu1 (fun j => mu (Z.of_nat j)) (fun j => ka (Z.of_nat j)) (fun j => a (Z.of_nat j + 1)%Z) (fun j => b (Z.of_nat j + 1)%Z) ->
  exists q, (forall p, In p l -> Rabs (q (fst p)) <= 1 /\ Rabs (q (fst p) - exp (h * fst p)) <= local h (fst p)) /\
  fin_y f (a 1%Z) (a 2%Z) (a 3%Z) (a 4%Z) (a 5%Z) (a 6%Z) (b 1%Z) (b 2%Z) (b 3%Z) (b 4%Z) h (stage f mu1 mu ka h (comb l c) (Z.to_nat d)) = comb l (fun lam => q lam * c lam).
Proof.
  intros Hf Hl HR D1 D2 Hh Hint HC. destruct (rb_deg d i r HR) as (E1 & E2 & E3 & E4 & E5 & E6).
  destruct (checked_block d i r HR D1 D2) as (p & Hp).
  assert (Hc : comb l c = comb (rescale c l) (fun _ => 1)).
  { rewrite comb_rescale. f_equal. apply functional_extensionality. intros lam. ring. }
  exists (fun lam => polyR mu1 (map (fun j => (mu (Z.of_nat j), ka (Z.of_nat j))) (seq 2 (Z.to_nat d - 1))) (FZ a b) (h * lam)). split.
  - intros q Hq. rewrite <- E1.
    assert (S : Rabs (polyR mu1 (map (fun j => (mu (Z.of_nat j), ka (Z.of_nat j))) (seq 2 (deg (Z.to_nat (i - 1)) - 1))) (FZ a b) (h * fst q)) <= 1).
    { apply (deg_sound 51 (Z.to_nat (i - 1)) p ltac:(lia) Hp _ _ _ _ _ HC). apply (L4_interval _ d); [apply HR|]. now apply Hint. }
    split; [exact S|]. assert (Z0 : h * fst q <= 0) by (apply (Hint q Hq)). unfold local.
    replace (h * Rabs (fst q)) with (Rabs (h * fst q)) by (rewrite Rabs_mult, (Rabs_right h) by lra; reflexivity). set (z := h * fst q) in *.
    destruct (Rle_lt_dec (-1) z) as [Hz|Hz].
    + apply (acc_exp (Z.to_nat (i - 1)) _ _ _ _ _ E4 (acc_block d i r HR D1 D2) HC z (conj Hz Z0)).
    + assert (Az : 1 < Rabs z) by (rewrite Rabs_left by lra; lra). assert (A4 : 1 <= Rabs z ^ 4) by (apply pow_R1_Rle; lra).
      assert (X : 0 <= exp z <= 1) by (split; [left; apply exp_pos|rewrite <- exp_0; destruct Z0 as [Z0|Z0]; [left; apply exp_increasing; exact Z0|rewrite Z0; lra]]).
      assert (Rabs z * (1 / 10 ^ 13 + 2 * Rabs z ^ 4) >= 2) by (assert (0 < 1 / 10 ^ 13) by lra; nra).
      apply Rabs_def2_le in S. apply Rabs_le. lra.
  - rewrite Hc. rewrite (step_comb f Hf (rescale c l) (eigen_rescale f c l Hf Hl) h mu1 mu ka a b (Z.to_nat d)) by lia. apply comb_rescale.
Qed.
Lemma local_acc q c t h H lam : Rabs q <= 1 -> Rabs (q - exp (h * lam)) <= local h lam -> 0 < h <= H -> lam <= 0 -> 0 <= t ->
  Rabs (c - exp (lam * t)) <= t * Rabs lam * (1 / 10 ^ 13 + 2 * (H * Rabs lam) ^ 4) ->
  Rabs (q * c - exp (lam * (t + h))) <= (t + h) * Rabs lam * (1 / 10 ^ 13 + 2 * (H * Rabs lam) ^ 4).
Proof.
  intros Q1 Q2 [h1 h2] Hl Ht HC. set (k := 1 / 10 ^ 13 + 2 * (H * Rabs lam) ^ 4) in *. pose proof (Rabs_pos lam) as L0.
  assert (E : local h lam <= h * Rabs lam * k).
  { unfold local, k. apply Rmult_le_compat_l; [apply Rmult_le_pos; lra|]. apply Rplus_le_compat_l. apply Rmult_le_compat_l; [lra|]. apply pow_incr. split; [apply Rmult_le_pos; lra|]. apply Rmult_le_compat_r; lra. }
  assert (X : 0 <= exp (lam * t) <= 1).
  { split; [left; apply exp_pos|]. rewrite <- exp_0. assert (Z0 : lam * t <= 0) by (clear - Hl Ht; nra). destruct Z0 as [Z0|Z0]; [left; apply exp_increasing; exact Z0|rewrite Z0; lra]. }
  replace (lam * (t + h)) with (h * lam + lam * t) by ring. rewrite exp_plus.
  replace (q * c - exp (h * lam) * exp (lam * t)) with (q * (c - exp (lam * t)) + (q - exp (h * lam)) * exp (lam * t)) by ring.
  eapply Rle_trans; [apply Rabs_triang|]. rewrite !Rabs_mult, (Rabs_right (exp (lam * t))) by lra.
  replace ((t + h) * Rabs lam * k) with (t * Rabs lam * k + h * Rabs lam * k) by ring. clearbody k.
  pose proof (Rabs_pos q). pose proof (Rabs_pos (c - exp (lam * t))). pose proof (Rabs_pos (q - exp (h * lam))).
  apply Rplus_le_compat; [eapply Rle_trans; [|exact HC]; rewrite <- (Rmult_1_l (Rabs (c - _))) at 2; apply Rmult_le_compat_r; assumption|].
  eapply Rle_trans; [|exact E]. eapply Rle_trans; [|exact Q2]. rewrite <- (Rmult_1_r (Rabs (q - _))) at 2. apply Rmult_le_compat_l; lra.
Qed.
Lemma close_start l u H : u = comb l (fun _ => 1) -> close_to l 0 (order4 0 H) u.
Proof.
  intros ->. exists (fun _ => 1). split; [reflexivity|]. intros p _. rewrite Rmult_0_r, exp_0. unfold order4, Rminus. rewrite Rplus_opp_r, Rabs_R0. lra.
Qed.

Section NG.
Variables RECF FPA FPB FPBE : Z -> R.
Hypothesis T1 : as_stored RECF ng_RECF.
Hypothesis T2 : as_stored FPA ng_FPA.
Hypothesis T3 : as_stored FPB ng_FPB.
Lemma ng_acc f l c d i r h : linear f -> Forall (eigen f) l -> right_block d i r -> (d <= 92)%Z -> d <> 63%Z -> 0 < h ->
  (forall p, In p l -> interval d (h * fst p)) ->
  exists q, (forall p, In p l -> Rabs (q (fst p)) <= 1 /\ Rabs (q (fst p) - exp (h * fst p)) <= local h (fst p)) /\
  new_y f FPA FPB h i (stage f (t_mu1 RECF r) (t_mu RECF r) (t_kappa RECF r) h (comb l c) (Z.to_nat d)) = comb l (fun lam => q lam * c lam).
Proof.
  intros Hf Hl HR H1 H2 Hh Hi.
  exact (step_accurate f l c d i r (t_mu1 RECF r) (t_mu RECF r) (t_kappa RECF r) (tab FPA i) (tab FPB i) h Hf Hl HR H1 H2 Hh Hi
    (coef_ng d i r HR RECF FPA FPB T1 T2 T3)).
Qed.
Lemma ng_converges Sg userF userrho toint size (atol rtol tend : R) (e0 : est (K := Rnum) Sg) t0 h0 hl0 m1 m2 (f : vec Rnum -> vec Rnum) l H :
  (forall s v, snd (userF s v) = f v) -> NoDup (ptrs Sg e0) -> (0 <= size)%Z -> linear f -> Forall (eigen f) l ->
  e_H e0 (e_y e0) = comb l (fun _ => 1) ->
  (forall x z, 0 <= x -> toint x = Ok z -> IZR z <= x < IZR z + 1) ->
  forall st, reach (K := Rnum) toint (kernel userF RECF FPA FPB FPBE size atol rtol) k_accept (r4_rho userrho) tend (r4_start (k_init userF) e0 t0 h0 hl0 m1 m2) st ->
  (forall a, In a (u_hist st) -> t_acc a = true -> t_h a <= H /\ (t_deg a <= 92)%Z /\ t_deg a <> 63%Z /\ forall p, In p l -> - t_rho a <= fst p <= 0) ->
  t0 <= u_t st /\ close_to l (u_t st - t0) (order4 (u_t st - t0) H) (sol Sg st).
Proof.
  intros HF HN Hs Hf Hl Hy Htoint st HR.
  induction HR as [|st st' HR IH Ht Hb].
  - intros _. unfold r4_start at 1 2 3. cbn [u_t]. split; [apply Rle_refl|]. rewrite Rminus_diag_eq by reflexivity.
    apply close_start. rewrite <- Hy.
    unfold sol, r4_start. cbn [u_w]. unfold k_init, callF. destruct (userF (e_f e0) (e_H e0 (e_y e0))) as [s v] eqn:EU. cbn [e_H e_y].
    destruct (Z.eq_dec (e_y e0) (e_fn e0)) as [EE|NE].
    + exfalso. unfold ptrs in HN. rewrite EE in HN. inversion HN as [|? ? Hn _]. apply Hn. cbn. auto 12.
    + unfold hset. destruct (Z.eqb_spec (e_y e0) (e_fn e0)); [contradiction|reflexivity].
  - intros HA.
    destruct (reach_pass (K := Rnum) toint (kernel userF RECF FPA FPB FPBE size atol rtol) (k_init userF) k_accept (r4_rho userrho) tend _ _ _ (start_cached _ _ _ _ _ _ _) HR Ht Hb)
      as (a & w1 & w2 & err & Hh & _ & Hq & _ & _ & _ & _ & _ & _ & _ & _ & Hacc & Hrej).
    rewrite Hh in HA.
    assert (IH' := IH (fun a' Ha' => HA a' (or_intror Ha'))). destruct IH' as (B0 & q0 & Q2 & Q1).
    destruct (t_acc a) eqn:Ea.
    + destruct (accepted_step Sg userF userrho toint RECF FPA FPB FPBE size atol rtol tend e0 t0 h0 hl0 m1 m2 f HF HN Hs st HR st' a Ht Hb Hh) as [_ X].
      specialize (X Ea). destruct (HA a (or_introl eq_refl) Ea) as (D0 & D1 & D2 & D3).
      destruct (Hacc eq_refl) as (_ & Et & _).
      destruct Hq as (_ & _ & Hq). rewrite Q2 in X.
      destruct (real_stable _ toint (kernel userF RECF FPA FPB FPBE size atol rtol) k_accept (r4_rho userrho) tend st st' a Htoint
        (reach_cached (K := Rnum) toint (kernel userF RECF FPA FPB FPBE size atol rtol) (k_init userF) k_accept (r4_rho userrho) tend _ _ (start_cached _ _ _ _ _ _ _) HR) Hb Hh) as [R1 R2].
      assert (D4 : forall p, In p l -> interval (t_deg a) (t_h a * fst p)).
      { intros p Hp. specialize (D3 p Hp). unfold interval. split.
        - apply Rle_trans with (t_h a * - t_rho a); [lra|]. apply Rmult_le_compat_l; lra.
        - replace 0 with (t_h a * 0) by ring. apply Rmult_le_compat_l; lra. }
      destruct (ng_acc f l q0 (t_deg a) (t_mz a) (t_mr a) (t_h a) Hf Hl Hq D1 D2 R1 D4) as (q & P1 & P2).
      change (u_t st' = u_t st + t_h a) in Et. rewrite Et. split; [lra|]. replace (u_t st + t_h a - t0) with ((u_t st - t0) + t_h a) by ring.
      exists (fun lam => q lam * q0 lam). split; [rewrite X; exact P2|].
      intros p Hp. specialize (P1 p Hp). destruct P1 as [P1 P3]. specialize (Q1 p Hp). specialize (D3 p Hp).
      apply local_acc; try assumption; lra.
    + destruct (derivative_current Rnum Sg userF userrho toint RECF FPA FPB FPBE size atol rtol tend e0 t0 h0 hl0 m1 m2 f HF HN st HR) as [_ X].
      destruct (Hrej eq_refl) as (_ & Et & _). rewrite Et.
      split; [exact B0|]. exists q0. split; [|exact Q1]. rewrite (X st' a Ht Hb Hh Ea). exact Q2.
Qed.
End NG.

Lemma leads_app l : forall t s h d t', leads t (l ++ [(s, h, d)]) t' -> leads t l s /\ t' = s + h.
Proof.
  induction l as [|[[s1 h1] d1] l IH]; intros t s h d t' HL.
  - cbn [app leads] in HL. destruct HL as [-> HL]. split; [reflexivity|]. now symmetry.
  - cbn [app leads] in *. destruct HL as [-> HL]. destruct (IH _ _ _ _ _ HL) as [A B]. repeat split; assumption.
Qed.
Lemma leads_le l : forall t t', leads t l t' -> (forall s h d, In (s, h, d) l -> 0 < h) -> t <= t'.
Proof.
  induction l as [|[[s1 h1] d1] l IH]; intros t t' HL Hp; cbn [leads] in HL; [rewrite HL; lra|].
  destruct HL as [_ HL]. specialize (IH _ _ HL (fun s h d H => Hp s h d (or_intror H))). specialize (Hp s1 h1 d1 (or_introl eq_refl)). lra.
Qed.
Section L.
Variables RECF FPA FPB : Z -> R.
Hypothesis T1 : as_stored RECF l_RECF.
Hypothesis T2 : as_stored FPA l_FPA.
Hypothesis T3 : as_stored FPB l_FPB.
Lemma l_acc A l c d i r h : linear A -> Forall (eigen A) l -> right_block d i r -> (d <= 92)%Z -> d <> 63%Z -> 0 < h ->
  (forall p, In p l -> interval d (h * fst p)) ->
  exists q, (forall p, In p l -> Rabs (q (fst p)) <= 1 /\ Rabs (q (fst p) - exp (h * fst p)) <= local h (fst p)) /\
  rock4_step RECF FPA FPB A d i r h (comb l c) = comb l (fun lam => q lam * c lam).
Proof.
  intros Hf Hl HR H1 H2 Hh Hi.
  exact (step_accurate A l c d i r (RECF (r - 1)%Z) (fun j => RECF (r - 1 + 2 * j - 3)%Z) (fun j => RECF (r - 1 + 2 * j - 2)%Z) (row FPA 6 i) (row FPB 4 i) h
    Hf Hl HR H1 H2 Hh Hi (coef_l d i r HR RECF FPA FPB T1 T2 T3)).
Qed.
Lemma l_follow A l H : linear A -> Forall (eigen A) l -> (forall p, In p l -> fst p <= 0) -> forall L u u', rock4_steps RECF FPA FPB A L u u' -> u = comb l (fun _ => 1) ->
  (forall t h d, In (t, h, d) L -> 0 < h <= H /\ (d <= 92)%Z /\ d <> 63%Z /\ forall p, In p l -> interval d (h * fst p)) ->
  forall t0 t1, leads t0 L t1 -> close_to l (t1 - t0) (order4 (t1 - t0) H) u'.
Proof.
  intros Hf Hl Hneg L u u' HS. induction HS as [w|L t h d w w' w'' HS IH (i & r & HR & Hw)]; intros Hu HA t0 t1 HL.
  - cbn [leads] in HL. rewrite HL, Rminus_diag_eq by reflexivity. apply close_start. exact Hu.
  - destruct (leads_app _ _ _ _ _ _ HL) as [HL1 ->].
    assert (HA1 : forall t h d, In (t, h, d) L -> 0 < h <= H /\ (d <= 92)%Z /\ d <> 63%Z /\ forall p, In p l -> interval d (h * fst p)) by (intros a b e Q; apply (HA a b e), in_or_app; now left).
    destruct (IH Hu HA1 t0 t HL1) as (q0 & Q2 & Q1).
    destruct (HA t h d) as (D0 & D1 & D2 & D3); [apply in_or_app; right; now left|].
    destruct (l_acc A l q0 d i r h Hf Hl HR D1 D2 (proj1 D0) D3) as (q & P1 & P2).
    assert (B : t0 <= t) by (apply (leads_le L _ _ HL1); intros a b e Q; apply (HA1 a b e Q)).
    replace (t + h - t0) with ((t - t0) + h) by ring.
    exists (fun lam => q lam * q0 lam). split; [rewrite Hw, Q2; exact P2|].
    intros p Hp. specialize (P1 p Hp). destruct P1 as [P1 P3]. specialize (Q1 p Hp). specialize (Hneg p Hp).
    apply local_acc; try assumption; lra.
Qed.
Lemma l_converges Sg (A : vec Rnum -> vec Rnum) l opL toint tend rho t0 h0 y k1 g0 g1 g2 mp1 mp2 (e0 : lest (K := Rnum) Sg) opLc :
  linear A -> Forall (eigen A) l -> (forall p, In p l -> - rho <= fst p <= 0) -> l_H e0 y = comb l (fun _ => 1) ->
  truncates toint -> 0 <= rho -> 1 / 10 ^ 13 <= h0 -> 101 / 100 * h0 * rho + 3 < 353 / 1000 * 152 ^ 2 -> 1 / 10 ^ 15 <= tend - t0 ->
  doc_L Sg A opL -> doc_Lc Sg A opLc -> NoDup [y; k1; g0; g1; g2] ->
  exists fuel st, rock4l (K := Rnum) toint (kernel1 opL opLc RECF FPA FPB y k1 g0 g1 g2) tend rho false fuel (l_init e0) t0 h0 mp1 mp2 = Ok st /\ v_t st = tend /\
    ((forall t h d, In (t, h, d) (v_hist st) -> (d <= 92)%Z /\ d <> 63%Z) \/ 101 / 100 * h0 * rho < 353 / 1000 * 63 ^ 2 - 3 ->
     close_to l (tend - t0) (order4 (tend - t0) (101 / 100 * h0)) (l_H (v_w st) y)).
Proof.
  intros HA Hl Hrho Hy H1 H2 H3 H4 H5 H6 H7 HN.
  destruct (linear_run Sg A HA opL RECF FPA FPB (fun _ _ => True) toint tend rho t0 h0 y k1 g0 g1 g2 mp1 mp2 e0 H1 H2 H3 H4 H5 Logic.I H6 (fun _ _ _ _ _ _ _ => Logic.I)
    opLc H7 (fun _ _ _ _ _ _ _ _ => Logic.I) HN) as (fuel & st & E & Et & (G0 & G & _) & HS & _).
  exists fuel, st. split; [exact E|]. split; [exact Et|]. rewrite Forall_forall in G.
  assert (X : (forall t h d, In (t, h, d) (v_hist st) -> (d <= 92)%Z /\ d <> 63%Z) -> close_to l (tend - t0) (order4 (tend - t0) (101 / 100 * h0)) (l_H (v_w st) y)).
  { intros HD. apply (l_follow A l (101 / 100 * h0) HA Hl (fun p Hp => proj2 (Hrho p Hp)) _ _ _ HS Hy); [|exact G0].
    intros t h d Hin. apply in_rev in Hin. destruct (HD t h d Hin) as [D1 D2].
    destruct (G _ Hin) as (Q1 & Q0 & _ & Q2 & _). split; [exact Q1|]. split; [exact D1|]. split; [exact D2|].
    intros p Hp. specialize (Hrho p Hp). unfold stable_degree in Q2. unfold interval. split.
    - apply Rle_trans with (h * - rho); [lra|]. apply Rmult_le_compat_l; lra.
    - replace 0 with (h * 0) by ring. apply Rmult_le_compat_l; lra. }
  intros [HD|Hsm]; [exact (X HD)|]. apply X. intros t h d Hin. destruct (G _ Hin) as (Q1 & _ & _ & _ & Q3).
  assert (D : (d <= 59)%Z).
  { apply Q3; [unfold MS; do 35 right; left; reflexivity|]. change (59 + 4)%Z with 63%Z.
    eapply Rle_lt_trans; [|exact Hsm]. apply Rmult_le_compat_r; lra. }
  lia.
Qed.
End L.

(* the solution *)
Lemma A_comb (A : vec Rnum -> vec Rnum) l c : linear A -> Forall (eigen A) l -> A (comb l c) = comb l (fun lam => lam * c lam).
Proof.
  intros HA. induction 1 as [|p l Hp Hl IH].
  - apply functional_extensionality. intros i. pose proof (HA 0 0 (fun _ => 0) (fun _ => 0)) as E. cbn [comb].
    transitivity (A (fun i => 0 * 0 + 0 * 0) i); [apply (f_equal (fun v => A v i)); apply functional_extensionality; intros; rring|]. rewrite E. rring.
  - apply functional_extensionality. intros i. cbn [comb].
    transitivity (A (fun i => c (fst p) * snd p i + 1 * comb l c i) i); [apply (f_equal (fun v => A v i)); apply functional_extensionality; intros; rring|].
    rewrite (HA (c (fst p)) 1 (snd p) (comb l c)), IH. rewrite (Hp i). rring.
Qed.
Lemma flow_derives l t i : derivable_pt_lim (fun s => flow_of l s i) t (comb l (fun lam => lam * exp (lam * t)) i).
Proof.
  unfold flow_of. induction l as [|p l IH]; cbn [comb]; [apply derivable_pt_lim_const|].
  apply (derivable_pt_lim_plus (fun s => exp (fst p * s) * snd p i) (fun s => comb l (fun lam => exp (lam * s)) i)); [|exact IH].
  assert (D1 : derivable_pt_lim (fun s => fst p * s) t (fst p)).
  { pose proof (derivable_pt_lim_scal id (fst p) t 1 (derivable_pt_lim_id t)) as D. rewrite Rmult_1_r in D. exact D. }
  pose proof (derivable_pt_lim_comp _ exp t _ _ D1 (derivable_pt_lim_exp (fst p * t))) as D2.
  pose proof (derivable_pt_lim_scal _ (snd p i) t _ D2) as D3.
  replace (fst p * exp (fst p * t) * snd p i) with (snd p i * (exp (fst p * t) * fst p)) by ring.
  intros e He. destruct (D3 e He) as (d & Hd). exists d. intros hh H1 H2. specialize (Hd hh H1 H2). unfold mult_real_fct, comp in Hd. rewrite (Rmult_comm (exp (fst p * (t + hh)))), (Rmult_comm (exp (fst p * t)) (snd p i)). exact Hd.
Qed.
Lemma flow_solves A l : linear A -> Forall (eigen A) l -> flow_of l 0 = comb l (fun _ => 1) /\ solves A (flow_of l).
Proof.
  intros HA Hl. split.
  - unfold flow_of. f_equal. apply functional_extensionality. intros lam. rewrite Rmult_0_r. apply exp_0.
  - intros t i. unfold flow_of at 2. rewrite (A_comb A l _ HA Hl). apply flow_derives.
Qed.

Lemma A_plus A u v i : linear A -> A (fun i => u i + v i) i = A u i + A v i.
Proof.
  intros HA. transitivity (A (fun i => 1 * u i + 1 * v i) i); [apply (f_equal (fun w => A w i)); apply functional_extensionality; intros; rring|]. rewrite (HA 1 1 u v). rring.
Qed.
