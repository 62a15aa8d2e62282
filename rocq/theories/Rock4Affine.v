(* C97: Rock4-L on u' = A u + b when b is not in the range of A: b = b0 - A ys with A b0 = 0. *)
From Coq Require Import ZArith Reals Lra Lia List Bool FunctionalExtensionality Psatz.
From Verif Require Import Base HessModel VecFun Spec HessPathProofs RKSpec Rock4Model Rock4Spec Rock4Proofs Rock4Drive Rock4Step Rock4Cor Rock4LModel Rock4LSpec Rock4LDrive Rock4TabSpec Rock4TabNG Rock4TabL Rock4Check Rock4Poly Rock4Stab Rock4StabKer Rock4StabThm Rock4Order Rock4OrderK Rock4Acc Rock4ConvSpec Rock4Conv.
Import ListNotations.
Open Scope R_scope.

(* ---- continuity at 0 ---- *)
Definition ct (g : R -> R) : Prop := continuity_pt g 0.
Lemma ct_plus f g : ct f -> ct g -> ct (fun x => f x + g x). Proof. intros; apply continuity_pt_plus; assumption. Qed.
Lemma ct_minus f g : ct f -> ct g -> ct (fun x => f x - g x). Proof. intros; apply continuity_pt_minus; assumption. Qed.
Lemma ct_mult f g : ct f -> ct g -> ct (fun x => f x * g x). Proof. intros; apply continuity_pt_mult; assumption. Qed.
Lemma ct_opp f : ct f -> ct (fun x => - f x). Proof. intros; apply continuity_pt_opp; assumption. Qed.
Lemma ct_const c : ct (fun _ => c). Proof. apply continuity_pt_const. intros x y. reflexivity. Qed.
Lemma ct_ext f g : (forall x, f x = g x) -> ct g -> ct f. Proof. intros E H. replace f with g; [exact H|]. apply functional_extensionality. intros x. symmetry. apply E. Qed.
Lemma ct_id : ct (fun x => x). Proof. apply derivable_continuous_pt, derivable_pt_id. Qed.
Lemma ct_bound g c e M m : ct g -> 0 < m -> 0 <= M -> (forall x, - m < x < 0 -> Rabs (g x - c) <= e + M * Rabs x) -> Rabs (g 0 - c) <= e.
Proof.
  intros Hg Hm HM HB. apply Rnot_lt_le. intros HN. set (ep := (Rabs (g 0 - c) - e) / 2). assert (He : 0 < ep) by (unfold ep; lra).
  destruct (Hg ep He) as (al & Ha & HC). cbn in HC. unfold R_dist in HC.
  set (x := - (Rmin (Rmin al m) (ep / (M + 1)) / 2)).
  assert (P : 0 < ep / (M + 1)) by (apply Rdiv_lt_0_compat; lra).
  assert (Q1 : 0 < Rmin (Rmin al m) (ep / (M + 1))) by (apply Rmin_glb_lt; [apply Rmin_glb_lt|]; lra).
  pose proof (Rmin_l (Rmin al m) (ep / (M + 1))) as Q2. pose proof (Rmin_r (Rmin al m) (ep / (M + 1))) as Q3.
  pose proof (Rmin_l al m) as Q4. pose proof (Rmin_r al m) as Q5.
  assert (X1 : x < 0) by (unfold x; lra). assert (X2 : - m < x) by (unfold x; lra). assert (X3 : Rabs x < al) by (rewrite Rabs_left by exact X1; unfold x; lra).
  assert (X4 : Rabs x * (M + 1) <= ep).
  { rewrite Rabs_left by exact X1. apply Rle_trans with (ep / (M + 1) * (M + 1)); [apply Rmult_le_compat_r; [lra|unfold x; lra]|]. right. field. lra. }
  clearbody x. specialize (HC x). rewrite Rminus_0_r in HC.
  assert (D : Rabs (g x - g 0) < ep) by (apply HC; split; [split; [exact Logic.I|lra]|exact X3]).
  pose proof (HB x (conj X2 X1)) as B. pose proof (Rabs_pos x).
  assert (T : Rabs (g 0 - c) <= Rabs (g x - g 0) + Rabs (g x - c)).
  { replace (g 0 - c) with (- (g x - g 0) + (g x - c)) by ring. eapply Rle_trans; [apply Rabs_triang|]. rewrite Rabs_Ropp. lra. }
  unfold ep in *. nra.
Qed.
Lemma exp_first z : -1 <= z <= 0 -> Rabs (exp z - 1 - z) <= z * z.
Proof.
  intros Hz. pose proof (exp_ineq1_le z) as L. pose proof (exp_ineq1_le (- z)) as U. rewrite exp_Ropp in U. pose proof (exp_pos z) as P.
  assert (U' : exp z * (1 - z) <= 1). { apply Rmult_le_compat_l with (r := exp z) in U; [|lra]. rewrite Rinv_r in U by lra. lra. }
  rewrite Rabs_right by lra. nra.
Qed.

Section Step.
(* the coefficients of one degree; n is the degree *)
Variables (mu1 : R) (mu ka a b : Z -> R) (n : nat).
Definition gstep (f : vec Rnum -> vec Rnum) (h : R) (y : vec Rnum) : vec Rnum :=
  fin_y f (a 1%Z) (a 2%Z) (a 3%Z) (a 4%Z) (a 5%Z) (a 6%Z) (b 1%Z) (b 2%Z) (b 3%Z) (b 4%Z) h (stage f mu1 mu ka h y n).
(* ---- a step on u' = A u + b in terms of one on u' = A u and one on u' = 1 ---- *)
Definition one_rhs : vec Rnum -> vec Rnum := fun _ _ => 1.
Definition gain (h : R) : R := gstep one_rhs h (fun _ => 0) 0%Z.
Section A.
Variables (A : vec Rnum -> vec Rnum) (g ys b0 : vec Rnum).
Hypothesis HA : linear A.
Hypothesis Hys : forall i, A ys i + g i = b0 i.
Hypothesis Hb0 : forall i, A b0 i = 0.
Notation f := (affine_rhs A g).
Lemma A_scal c u i : A (fun i => c * u i) i = c * A u i.
Proof.
  transitivity (A (fun i => c * u i + 0 * u i) i); [apply (f_equal (fun w => A w i)); apply functional_extensionality; intros; rring|]. rewrite (HA c 0 u u). rring.
Qed.
Lemma f_part (u w : vec Rnum) s : (forall i, u i = ys i + w i + s * b0 i) -> forall i, f u i = A w i + b0 i.
Proof.
  intros H i. unfold affine_rhs. replace u with (fun i => (ys i + w i) + s * b0 i) by (apply functional_extensionality; intros; symmetry; apply H).
  rewrite (A_plus A (fun i => ys i + w i) (fun i => s * b0 i) i HA), (A_plus A ys w i HA), A_scal. pose proof (Hys i) as E. pose proof (Hb0 i) as E0.
  change (A ys i + A w i + s * A b0 i + g i = A w i + b0 i). rewrite E0. lra.
Qed.
Lemma stages_part h y s m :
  let o := stages one_rhs mu1 mu ka h (fun _ => 0) m in
  (forall i, fst (stages f mu1 mu ka h (fun i => ys i + y i + s * b0 i) m) i = ys i + fst (stages A mu1 mu ka h y m) i + (s + fst o 0%Z) * b0 i) /\
  (forall i, snd (stages f mu1 mu ka h (fun i => ys i + y i + s * b0 i) m) i = ys i + snd (stages A mu1 mu ka h y m) i + (s + snd o 0%Z) * b0 i).
Proof.
  cbv zeta. induction m as [|m [IH1 IH2]]; [split; intros i; cbn [stages fst snd]; rring|]. destruct m as [|m].
  - cbn [stages fst snd]. split; intros i; [|rring]. rewrite (f_part _ y s) by reflexivity. unfold one_rhs. rring.
  - set (Y := fun i => ys i + y i + s * b0 i) in *.
    change (stages f mu1 mu ka h Y (S (S m))) with
      (let '(v, vp) := stages f mu1 mu ka h Y (S m) in let j := Z.of_nat (S (S m)) in ((fun i => h * mu j * f v i + (1 + ka j) * v i - ka j * vp i) : vec Rnum, v)).
    change (stages A mu1 mu ka h y (S (S m))) with
      (let '(v, vp) := stages A mu1 mu ka h y (S m) in let j := Z.of_nat (S (S m)) in ((fun i => h * mu j * A v i + (1 + ka j) * v i - ka j * vp i) : vec Rnum, v)).
    change (stages one_rhs mu1 mu ka h (fun _ => 0) (S (S m))) with
      (let '(v, vp) := stages one_rhs mu1 mu ka h (fun _ => 0) (S m) in let j := Z.of_nat (S (S m)) in ((fun i => h * mu j * one_rhs v i + (1 + ka j) * v i - ka j * vp i) : vec Rnum, v)).
    destruct (stages f mu1 mu ka h Y (S m)) as [v vp]. destruct (stages A mu1 mu ka h y (S m)) as [g' gp']. destruct (stages one_rhs mu1 mu ka h (fun _ => 0) (S m)) as [g'' gp''].
    cbn [fst snd] in *. cbv zeta. split; intros i; [|apply IH1].
    cbn [fst]. rewrite (f_part v g' _ IH1), IH1, IH2. unfold one_rhs. rring.
Qed.
Lemma step_part h y s : gstep f h (fun i => ys i + y i + s * b0 i) = fun k => ys k + gstep A h y k + (s + gain h) * b0 k.
Proof.
  apply functional_extensionality. intros k. unfold gain, gstep.
  set (v := stage f _ _ _ h _ n). set (g' := stage A _ _ _ h y n). set (o := stage one_rhs _ _ _ h _ n).
  assert (G : forall i, v i = ys i + g' i + (s + o 0%Z) * b0 i) by (intros q; apply stages_part). clearbody v g' o. unfold fin_y.
  assert (K1 : forall q, fin_k1 f v q = fin_k1 A g' q + b0 q) by (intros q; apply (f_part _ _ _ G)).
  assert (K2 : forall a h q, fin_k2 f a h v q = fin_k2 A a h g' q + b0 q).
  { intros c h' q. unfold fin_k2. apply (f_part _ _ (s + o 0%Z + h' * c)). intros q'. rewrite G, K1. rring. }
  assert (K3 : forall a a1 a2 h q, fin_k3 f a a1 a2 h v q = fin_k3 A a a1 a2 h g' q + b0 q).
  { intros c a1 a2 h' q. unfold fin_k3. apply (f_part _ _ (s + o 0%Z + h' * (a1 + a2))). intros q'. rewrite G, K1, K2. rring. }
  assert (K4 : forall a a1 a2 a3 a4 a5 h q, fin_k4 f a a1 a2 a3 a4 a5 h v q = fin_k4 A a a1 a2 a3 a4 a5 h g' q + b0 q).
  { intros c a1 a2 a3 a4 a5 h' q. unfold fin_k4. apply (f_part _ _ (s + o 0%Z + h' * (a3 + a4 + a5))). intros q'. rewrite G, K1, K2, K3. rring. }
  rewrite G, K1, K2, K3, K4. unfold fin_k4, fin_k3, fin_k2, fin_k1, one_rhs. rring.
Qed.
End A.

(* ---- continuity of a step in the coefficient of u' = lam u + 1 ---- *)
Definition fl (lam : R) : vec Rnum -> vec Rnum := fun v i => lam * v i + 1.
Ltac ctac := repeat (cbv beta; first [ apply ct_const | apply ct_id | assumption | apply ct_plus | apply ct_minus | apply ct_mult | apply ct_opp ]).
Lemma stages_ct h m : (forall i, ct (fun lam => fst (stages (fl lam) mu1 mu ka h (fun _ => 0) m) i)) /\ (forall i, ct (fun lam => snd (stages (fl lam) mu1 mu ka h (fun _ => 0) m) i)).
Proof.
  induction m as [|m [IH1 IH2]]; [split; intros i; cbn [stages fst snd]; apply ct_const|]. destruct m as [|m].
  - cbn [stages fst snd]. unfold fl. split; intros i; ctac.
  - set (F := fun lam => stages (fl lam) mu1 mu ka h (fun _ => 0) (S m)). set (j := Z.of_nat (S (S m))).
    assert (E : forall lam, stages (fl lam) mu1 mu ka h (fun _ => 0) (S (S m)) =
      ((fun i => h * mu j * (lam * fst (F lam) i + 1) + (1 + ka j) * fst (F lam) i - ka j * snd (F lam) i) : vec Rnum, fst (F lam))).
    { intros lam. change (stages (fl lam) mu1 mu ka h (fun _ => 0) (S (S m))) with
        (let '(g, gp) := F lam in ((fun i => h * mu j * fl lam g i + (1 + ka j) * g i - ka j * gp i) : vec Rnum, g)). destruct (F lam) as [g gp]. reflexivity. }
    split; intros i.
    + eapply ct_ext; [intros lam; rewrite E; cbn [fst]; reflexivity|]. pose proof (IH1 i) as I1. pose proof (IH2 i) as I2. fold (F) in I1, I2.
      change (ct (fun lam => h * mu j * (lam * fst (F lam) i + 1) + (1 + ka j) * fst (F lam) i - ka j * snd (F lam) i)).
      change (ct (fun lam => fst (F lam) i)) in I1. change (ct (fun lam => snd (F lam) i)) in I2. clearbody F. ctac.
    + eapply ct_ext; [intros lam; rewrite E; cbn [snd]; reflexivity|]. exact (IH1 i).
Qed.
Lemma step_ct h k : ct (fun lam => gstep (fl lam) h (fun _ => 0) k).
Proof.
  unfold gstep. set (G := fun lam => stage (fl lam) mu1 mu ka h (fun _ => 0) n).
  assert (HG : forall q, ct (fun lam => G lam q)) by (intros q; apply stages_ct).
  change (ct (fun lam => fin_y (fl lam) (a 1%Z) (a 2%Z) (a 3%Z) (a 4%Z) (a 5%Z) (a 6%Z) (b 1%Z) (b 2%Z) (b 3%Z) (b 4%Z) h (G lam) k)).
  clearbody G. pose proof (HG k). unfold fin_y, fin_k4, fin_k3, fin_k2, fin_k1, fl. ctac.
Qed.

(* ---- the part along b0: time, up to 10^-13 ---- *)
Lemma gain_near d i r h : right_block d i r -> n = Z.to_nat d -> (d <= 92)%Z -> d <> 63%Z -> 0 < h ->
  coef_near 51 (Z.to_nat (i - 1)) mu1 (fun j => mu (Z.of_nat j)) (fun j => ka (Z.of_nat j)) (fun j => a (Z.of_nat j + 1)%Z) (fun j => b (Z.of_nat j + 1)%Z) ->
  Rabs (gain h - h) <= h * (1 / 10 ^ 13).
Proof.
  intros HR Hd D1 D2 Hh HC.
  assert (E : gain h = gstep (fl 0) h (fun _ => 0) 0%Z).
  { unfold gain. f_equal. apply functional_extensionality. intros v. apply functional_extensionality. intros k. unfold one_rhs, fl. rring. }
  rewrite E. apply (ct_bound (fun lam => gstep (fl lam) h (fun _ => 0) 0%Z) h (h * (1 / 10 ^ 13)) (3 * h * h) (1 / h)).
  - apply step_ct.
  - apply Rdiv_lt_0_compat; lra.
  - nra.
  - intros lam [L1 L2].
    assert (Z1 : -1 < h * lam < 0).
    { split; [|nra]. apply Rmult_lt_compat_l with (r := h) in L1; [|exact Hh]. replace (h * - (1 / h)) with (-1) in L1 by (field; lra). exact L1. }
    set (A := fun (v : vec Rnum) i => lam * v i : R) in *.
    assert (HA : linear A) by (intros a1 b1 x y; apply functional_extensionality; intros k; unfold A; rring).
    assert (HE : Forall (eigen A) [(lam, fun _ => 1 / lam)]) by (constructor; [intros k; reflexivity|constructor]).
    destruct (step_accurate A [(lam, fun _ => 1 / lam)] (fun _ => 1) d i r mu1 mu ka a b h HA HE HR D1 D2 Hh) with (2 := HC) as (q & Q1 & Q2).
    { intros p [<-|[]]. cbn [fst]. unfold interval. destruct (rb_deg d i r HR) as (_ & _ & G & _). assert (5 <= IZR (d + 4)) by (apply IZR_le; lia). split; [nra|lra]. }
    specialize (Q1 _ (or_introl eq_refl)). cbn [fst] in Q1. destruct Q1 as [_ Q1].
    assert (V : gstep (fl lam) h (fun _ => 0) 0%Z = - (1 / lam) + q lam * (1 / lam)).
    { pose proof (step_part A (fun _ => 1) (fun _ => - (1 / lam)) (fun _ => 0) HA ltac:(intros k; unfold A; field; lra) ltac:(intros k; unfold A; rring) h (comb [(lam, fun _ => 1 / lam)] (fun _ => 1)) 0) as X.
      apply (f_equal (fun v => v 0%Z)) in X. rewrite <- Hd in Q2. unfold gstep at 2 in X. rewrite Q2 in X. cbn [comb fst snd] in X.
      transitivity (- (1 / lam) + (q lam * 1 * (1 / lam) + 0) + (0 + gain h) * 0); [|rring]. rewrite <- X.
      change (fl lam) with (affine_rhs A (fun _ => 1)). f_equal. apply functional_extensionality. intros k. rring. }
    rewrite V. clear V Q2 E.
    assert (W : - (1 / lam) + q lam * (1 / lam) - h = ((q lam - exp (h * lam)) + (exp (h * lam) - 1 - h * lam)) * (1 / lam)) by (field; lra).
    rewrite W, Rabs_mult. unfold local in Q1. pose proof (exp_first (h * lam) ltac:(lra)) as X.
    assert (L : Rabs lam = - lam) by (apply Rabs_left; lra). rewrite L in *.
    assert (I : Rabs (1 / lam) = 1 / - lam) by (rewrite Rabs_left; [field; lra|]; unfold Rdiv; rewrite Rmult_1_l; apply Rinv_lt_0_compat; lra). rewrite I.
    assert (Y : Rabs (q lam - exp (h * lam) + (exp (h * lam) - 1 - h * lam)) <= h * - lam * (1 / 10 ^ 13 + 2 * (h * - lam) ^ 4) + h * lam * (h * lam)) by (eapply Rle_trans; [apply Rabs_triang|lra]).
    apply Rle_trans with ((h * - lam * (1 / 10 ^ 13 + 2 * (h * - lam) ^ 4) + h * lam * (h * lam)) * (1 / - lam)).
    { apply Rmult_le_compat_r; [|exact Y]. left. apply Rdiv_lt_0_compat; lra. }
    replace ((h * - lam * (1 / 10 ^ 13 + 2 * (h * - lam) ^ 4) + h * lam * (h * lam)) * (1 / - lam)) with (h * (1 / 10 ^ 13) + h * (2 * (h * - lam) ^ 4) + h * (h * - lam)) by (field; lra).
    set (z := h * - lam) in *. assert (Hz : 0 < z < 1) by (unfold z; lra).
    assert (z ^ 4 <= z). { assert (z ^ 2 <= z) by nra. assert (0 <= z ^ 2) by nra. replace (z ^ 4) with (z ^ 2 * z ^ 2) by ring. nra. }
    replace (3 * h * h * - lam) with (3 * (h * z)) by (unfold z; ring). nra.
Qed.
End Step.

Section L.
Variables RECF FPA FPB : Z -> R.
Hypothesis T1 : as_stored RECF l_RECF.
Hypothesis T2 : as_stored FPA l_FPA.
Hypothesis T3 : as_stored FPB l_FPB.
Definition l_gain (d i r : Z) : R -> R := gain (RECF (r - 1)%Z) (fun j => RECF (r - 1 + 2 * j - 3)%Z) (fun j => RECF (r - 1 + 2 * j - 2)%Z) (row FPA 6 i) (row FPB 4 i) (Z.to_nat d).
Lemma l_gain_near d i r h : right_block d i r -> (d <= 92)%Z -> d <> 63%Z -> 0 < h -> Rabs (l_gain d i r h - h) <= h * (1 / 10 ^ 13).
Proof. intros HR D1 D2 Hh. exact (gain_near _ _ _ _ _ _ d i r h HR eq_refl D1 D2 Hh (coef_l d i r HR RECF FPA FPB T1 T2 T3)). Qed.
Lemma l_step_part A b ys b0 d i r h y s : linear A -> (forall i, A ys i + b i = b0 i) -> (forall i, A b0 i = 0) ->
  rock4_step RECF FPA FPB (affine_rhs A b) d i r h (fun i => ys i + y i + s * b0 i) = fun k => ys k + rock4_step RECF FPA FPB A d i r h y k + (s + l_gain d i r h) * b0 k.
Proof. intros HA Hys Hb0. exact (step_part _ _ _ _ _ _ A b ys b0 HA Hys Hb0 h y s). Qed.
Lemma l_follow_affine A b ys b0 l H : linear A -> (forall i, A ys i + b i = b0 i) -> (forall i, A b0 i = 0) -> Forall (eigen A) l -> (forall p, In p l -> fst p <= 0) ->
  forall L u u', rock4_steps RECF FPA FPB (affine_rhs A b) L u u' -> (forall i, u i = ys i + comb l (fun _ => 1) i) ->
  (forall t h d, In (t, h, d) L -> 0 < h <= H /\ (d <= 92)%Z /\ d <> 63%Z /\ forall p, In p l -> interval d (h * fst p)) ->
  forall t0 t1, leads t0 L t1 -> exists s, Rabs (s - (t1 - t0)) <= (t1 - t0) / 10 ^ 13 /\ close_to l (t1 - t0) (order4 (t1 - t0) H) (fun i => u' i - ys i - s * b0 i).
Proof.
  intros Hf Hys Hb0 Hl Hneg L u u' HS Hu HA.
  assert (X : exists s w, (forall k, u' k = ys k + w k + s * b0 k) /\ rock4_steps RECF FPA FPB A L (comb l (fun _ => 1)) w /\ (forall t0 t1, leads t0 L t1 -> Rabs (s - (t1 - t0)) <= (t1 - t0) / 10 ^ 13)).
  { revert Hu HA. induction HS as [w|L t h d w w' w'' HS IH (i & r & HR & Hw)]; intros Hu HA.
    - exists 0, (comb l (fun _ => 1)). split; [intros k; rewrite Hu; rring|]. split; [constructor|]. intros t0 t1 HL. cbn [leads] in HL. rewrite HL.
      replace (0 - (t1 - t1)) with 0 by ring. rewrite Rabs_R0. lra.
    - destruct (IH Hu) as (s & v & E & F & G); [intros a c e Q; apply (HA a c e), in_or_app; now left|].
      destruct (HA t h d) as (D0 & D1 & D2 & D3); [apply in_or_app; right; now left|].
      exists (s + l_gain d i r h), (rock4_step RECF FPA FPB A d i r h v). split; [|split].
      + intros k. replace w' with (fun k => ys k + v k + s * b0 k) in Hw by (apply functional_extensionality; intros q; symmetry; apply E).
        rewrite (l_step_part A b ys b0 d i r h v s Hf Hys Hb0) in Hw. rewrite Hw. reflexivity.
      + eapply follows_snoc; [exact F|]. exists i, r. split; [exact HR|reflexivity].
      + intros t0 t1 HL. destruct (leads_app _ _ _ _ _ _ HL) as [HL1 ->]. specialize (G _ _ HL1).
        pose proof (l_gain_near d i r h HR D1 D2 (proj1 D0)) as GN.
        replace (s + l_gain d i r h - (t + h - t0)) with ((s - (t - t0)) + (l_gain d i r h - h)) by ring. eapply Rle_trans; [apply Rabs_triang|]. lra. }
  destruct X as (s & w & E & F & G). intros t0 t1 HL. exists s. split; [apply G; exact HL|].
  replace (fun i => u' i - ys i - s * b0 i) with w by (apply functional_extensionality; intros k; rewrite E; rring).
  exact (l_follow RECF FPA FPB T1 T2 T3 A l H Hf Hl Hneg L _ _ F eq_refl HA t0 t1 HL).
Qed.
Lemma l_source_converges Sg (A : vec Rnum -> vec Rnum) l ys b0 opL toint tend rho t0 h0 y b k1 g0 g1 g2 mp1 mp2 (e0 : lest (K := Rnum) Sg) opA opAc :
  linear A -> Forall (eigen A) l -> (forall p, In p l -> - rho <= fst p <= 0) -> (forall i, A b0 i = 0) -> (forall i, A ys i + l_H e0 b i = b0 i) -> (forall i, l_H e0 y i = ys i + comb l (fun _ => 1) i) ->
  truncates toint -> 0 <= rho -> 1 / 10 ^ 13 <= h0 -> 101 / 100 * h0 * rho + 3 < 353 / 1000 * 152 ^ 2 -> 1 / 10 ^ 15 <= tend - t0 ->
  doc_L Sg A opL -> imp_A Sg A opA -> imp_Ac Sg A opAc -> NoDup [y; b; k1; g0; g1; g2] ->
  exists fuel st, rock4l (K := Rnum) toint (kernel2 opL opA opAc RECF FPA FPB y b k1 g0 g1 g2) tend rho false fuel (l_init e0) t0 h0 mp1 mp2 = Ok st /\ v_t st = tend /\
    ((forall t h d, In (t, h, d) (v_hist st) -> (d <= 92)%Z /\ d <> 63%Z) \/ 101 / 100 * h0 * rho < 353 / 1000 * 63 ^ 2 - 3 ->
     exists s, Rabs (s - (tend - t0)) <= (tend - t0) / 10 ^ 13 /\
       close_to l (tend - t0) (order4 (tend - t0) (101 / 100 * h0)) (fun i => l_H (v_w st) y i - ys i - s * b0 i)).
Proof.
  intros HA Hl Hrho Hb0 Hys Hy H1 H2 H3 H4 H5 H6 H7 H8 HN.
  destruct (affine_run Sg A HA opL RECF FPA FPB (fun _ _ => True) toint tend rho t0 h0 y b k1 g0 g1 g2 mp1 mp2 e0 H1 H2 H3 H4 H5 Logic.I H6 (fun _ _ _ _ _ _ _ => Logic.I)
    opA opAc H7 H8 (fun _ _ _ _ _ _ _ _ => Logic.I) (fun _ _ _ _ _ _ _ _ _ => Logic.I) HN) as (fuel & st & E & Et & (G0 & G & _) & HS & _).
  exists fuel, st. split; [exact E|]. split; [exact Et|]. rewrite Forall_forall in G.
  assert (X : (forall t h d, In (t, h, d) (v_hist st) -> (d <= 92)%Z /\ d <> 63%Z) -> exists s, Rabs (s - (tend - t0)) <= (tend - t0) / 10 ^ 13 /\
       close_to l (tend - t0) (order4 (tend - t0) (101 / 100 * h0)) (fun i => l_H (v_w st) y i - ys i - s * b0 i)).
  { intros HD. apply (l_follow_affine A (l_H e0 b) ys b0 l (101 / 100 * h0) HA Hys Hb0 Hl (fun p Hp => proj2 (Hrho p Hp)) _ _ _ HS Hy); [|exact G0].
    intros t h d Hin. apply in_rev in Hin. destruct (HD t h d Hin) as [D1 D2].
    destruct (G _ Hin) as (Q1 & Q0 & _ & Q2 & _). split; [exact Q1|]. split; [exact D1|]. split; [exact D2|].
    intros p Hp. specialize (Hrho p Hp). unfold stable_degree in Q2. unfold interval. split.
    - apply Rle_trans with (h * - rho); [lra|]. apply Rmult_le_compat_l; lra.
    - replace 0 with (h * 0) by ring. apply Rmult_le_compat_l; lra. }
  intros [HD|Hsm]; [exact (X HD)|]. apply X. intros t h d Hin. destruct (G _ Hin) as (Q1 & _ & _ & _ & Q3).
  assert (D : (d <= 59)%Z).
  { apply Q3; [unfold MS; do 35 right; left; reflexivity|]. change (59 + 4)%Z with 63%Z.
    eapply Rle_lt_trans; [|exact Hsm]. apply Rmult_le_compat_r; lra. }
  lia.
Qed.
End L.
Section NG.
Variables RECF FPA FPB FPBE : Z -> R.
Hypothesis T1 : as_stored RECF ng_RECF.
Hypothesis T2 : as_stored FPA ng_FPA.
Hypothesis T3 : as_stored FPB ng_FPB.
Lemma ng_source_converges Sg userF userrho toint size (atol rtol tend : R) (e0 : est (K := Rnum) Sg) t0 h0 hl0 m1 m2 (A : vec Rnum -> vec Rnum) b ys b0 l H :
  (forall s v, snd (userF s v) = affine_rhs A b v) -> NoDup (ptrs Sg e0) -> (0 <= size)%Z -> linear A -> Forall (eigen A) l -> (forall i, A b0 i = 0) -> (forall i, A ys i + b i = b0 i) ->
  (forall i, e_H e0 (e_y e0) i = ys i + comb l (fun _ => 1) i) ->
  (forall x z, 0 <= x -> toint x = Ok z -> IZR z <= x < IZR z + 1) ->
  forall st, reach (K := Rnum) toint (kernel userF RECF FPA FPB FPBE size atol rtol) k_accept (r4_rho userrho) tend (r4_start (k_init userF) e0 t0 h0 hl0 m1 m2) st ->
  (forall a, In a (u_hist st) -> t_acc a = true -> t_h a <= H /\ (t_deg a <= 92)%Z /\ t_deg a <> 63%Z /\ forall p, In p l -> - t_rho a <= fst p <= 0) ->
  t0 <= u_t st /\ exists s, Rabs (s - (u_t st - t0)) <= (u_t st - t0) / 10 ^ 13 /\
    close_to l (u_t st - t0) (order4 (u_t st - t0) H) (fun i => sol Sg st i - ys i - s * b0 i).
Proof.
  intros HF HN Hs Hf Hl Hb0 Hys Hy Htoint st HR.
  assert (HX : (forall a, In a (u_hist st) -> t_acc a = true -> t_h a <= H /\ (t_deg a <= 92)%Z /\ t_deg a <> 63%Z /\ forall p, In p l -> - t_rho a <= fst p <= 0) ->
    t0 <= u_t st /\ exists s w, (forall i, sol Sg st i = ys i + w i + s * b0 i) /\ Rabs (s - (u_t st - t0)) <= (u_t st - t0) / 10 ^ 13 /\ close_to l (u_t st - t0) (order4 (u_t st - t0) H) w).
  2: { intros HD. destruct (HX HD) as (B0 & s & w & E1 & E2 & E3). split; [exact B0|]. exists s. split; [exact E2|].
    replace (fun i => sol Sg st i - ys i - s * b0 i) with w; [exact E3|]. apply functional_extensionality. intros k. rewrite E1. rring. }
  induction HR as [|st st' HR IH Ht Hb].
  - intros _. unfold r4_start at 1. cbn [u_t]. split; [apply Rle_refl|]. exists 0, (comb l (fun _ => 1)). change (u_t (r4_start (k_init userF) e0 t0 h0 hl0 m1 m2)) with t0.
    rewrite (Rminus_diag_eq t0 t0 eq_refl). split; [|split; [replace (0 - 0) with 0 by ring; rewrite Rabs_R0; lra|apply close_start; reflexivity]].
    intros k. transitivity (e_H e0 (e_y e0) k); [|rewrite Hy; rring].
    unfold sol, r4_start. cbn [u_w]. unfold k_init, callF. destruct (userF (e_f e0) (e_H e0 (e_y e0))) as [s v] eqn:EU. cbn [e_H e_y].
    destruct (Z.eq_dec (e_y e0) (e_fn e0)) as [EE|NE].
    + exfalso. unfold ptrs in HN. rewrite EE in HN. inversion HN as [|? ? Hn _]. apply Hn. cbn. auto 12.
    + unfold hset. destruct (Z.eqb_spec (e_y e0) (e_fn e0)); [contradiction|reflexivity].
  - intros HA.
    destruct (reach_pass (K := Rnum) toint (kernel userF RECF FPA FPB FPBE size atol rtol) (k_init userF) k_accept (r4_rho userrho) tend _ _ _ (start_cached _ _ _ _ _ _ _) HR Ht Hb)
      as (a & w1 & w2 & err & Hh & _ & Hq & _ & _ & _ & _ & _ & _ & _ & _ & Hacc & Hrej).
    rewrite Hh in HA.
    assert (IH' := IH (fun a' Ha' => HA a' (or_intror Ha'))). destruct IH' as (B0 & s & w & Es & Eg & q0 & Q2 & Q1).
    destruct (t_acc a) eqn:Ea.
    + destruct (accepted_step Sg userF userrho toint RECF FPA FPB FPBE size atol rtol tend e0 t0 h0 hl0 m1 m2 (affine_rhs A b) HF HN Hs st HR st' a Ht Hb Hh) as [_ X].
      specialize (X Ea). destruct (HA a (or_introl eq_refl) Ea) as (D0 & D1 & D2 & D3).
      destruct (Hacc eq_refl) as (_ & Et & _).
      destruct Hq as (_ & _ & Hq). replace (sol Sg st) with (fun i => ys i + w i + s * b0 i) in X by (apply functional_extensionality; intros k; symmetry; apply Es).
      pose proof (step_part (t_mu1 RECF (t_mr a)) (t_mu RECF (t_mr a)) (t_kappa RECF (t_mr a)) (tab FPA (t_mz a)) (tab FPB (t_mz a)) (Z.to_nat (t_deg a)) A b ys b0 Hf Hys Hb0 (t_h a) w s) as Y.
      set (G := gain (t_mu1 RECF (t_mr a)) (t_mu RECF (t_mr a)) (t_kappa RECF (t_mr a)) (tab FPA (t_mz a)) (tab FPB (t_mz a)) (Z.to_nat (t_deg a)) (t_h a)) in Y.
      destruct (real_stable _ toint (kernel userF RECF FPA FPB FPBE size atol rtol) k_accept (r4_rho userrho) tend st st' a Htoint
        (reach_cached (K := Rnum) toint (kernel userF RECF FPA FPB FPBE size atol rtol) (k_init userF) k_accept (r4_rho userrho) tend _ _ (start_cached _ _ _ _ _ _ _) HR) Hb Hh) as [R1 R2].
      assert (D4 : forall p, In p l -> interval (t_deg a) (t_h a * fst p)).
      { intros p Hp. specialize (D3 p Hp). unfold interval. split.
        - apply Rle_trans with (t_h a * - t_rho a); [lra|]. apply Rmult_le_compat_l; lra.
        - replace 0 with (t_h a * 0) by ring. apply Rmult_le_compat_l; lra. }
      assert (GN : Rabs (G - t_h a) <= t_h a * (1 / 10 ^ 13)).
      { exact (gain_near _ _ _ _ _ _ (t_deg a) (t_mz a) (t_mr a) (t_h a) Hq eq_refl D1 D2 R1 (coef_ng _ _ _ Hq RECF FPA FPB T1 T2 T3)). }
      destruct (ng_acc RECF FPA FPB T1 T2 T3 A l q0 (t_deg a) (t_mz a) (t_mr a) (t_h a) Hf Hl Hq D1 D2 R1 D4) as (q & P1 & P2).
      change (u_t st' = u_t st + t_h a) in Et. rewrite Et. split; [lra|]. replace (u_t st + t_h a - t0) with ((u_t st - t0) + t_h a) by ring.
      exists (s + G), (comb l (fun lam => q lam * q0 lam)). split; [|split].
      * intros k. rewrite X. subst w. unfold new_y in P2. unfold gstep at 2 in Y. rewrite P2 in Y. exact (f_equal (fun v => v k) Y).
      * replace (s + G - (u_t st - t0 + t_h a)) with ((s - (u_t st - t0)) + (G - t_h a)) by ring. eapply Rle_trans; [apply Rabs_triang|]. lra.
      * exists (fun lam => q lam * q0 lam). split; [reflexivity|].
        intros p Hp. specialize (P1 p Hp). destruct P1 as [P1 P3]. specialize (Q1 p Hp). specialize (D3 p Hp).
        apply local_acc; try assumption; lra.
    + destruct (derivative_current Rnum Sg userF userrho toint RECF FPA FPB FPBE size atol rtol tend e0 t0 h0 hl0 m1 m2 (affine_rhs A b) HF HN st HR) as [_ X].
      destruct (Hrej eq_refl) as (_ & Et & _). rewrite Et.
      split; [exact B0|]. exists s, w. split; [|split; [exact Eg|exists q0; split; assumption]]. rewrite (X st' a Ht Hb Hh Ea). exact Es.
Qed.
End NG.
Lemma flow_solves_source A b ys b0 l : linear A -> Forall (eigen A) l -> (forall i, A b0 i = 0) -> (forall i, A ys i + b i = b0 i) ->
  solves (affine_rhs A b) (fun t i => ys i + flow_of l t i + t * b0 i).
Proof.
  intros HA Hl Hb0 Hys t i. rewrite (f_part A b ys b0 HA Hys Hb0 _ (flow_of l t) t) by reflexivity.
  replace (A (flow_of l t) i + b0 i) with ((0 + A (flow_of l t) i) + (1 * b0 i + t * 0)) by rring.
  apply (derivable_pt_lim_plus (fun s => ys i + flow_of l s i) (fun s => s * b0 i)).
  - apply (derivable_pt_lim_plus (fun _ => ys i) (fun s => flow_of l s i)); [apply derivable_pt_lim_const|]. apply (proj2 (flow_solves A l HA Hl)).
  - apply (derivable_pt_lim_mult (fun s => s) (fun _ => b0 i)); [apply derivable_pt_lim_id|apply derivable_pt_lim_const].
Qed.
