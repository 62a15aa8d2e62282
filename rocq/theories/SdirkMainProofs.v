(* C101: the errors written by SDIRKL/test/main.cpp. *)
From Coq Require Import Reals Lra Lia Psatz List.
From Verif Require Import Base FieldLU HessModel Spec HessPathProofs Dec RodasStab SdirkModel SdirkSpec SdirkProofs SdirkAlg SdirkTop SdirkTabSpec SdirkTab SdirkStab Conv ConvPoly ConvSpec SdirkConv SdirkConvTop SympQuad SympEnd.
From Verif Require Import LaplModel LaplSpec LaplProofs LaplTop TestModel TestProofs SdirkMainModel.
Import ListNotations.
Open Scope R_scope.

(* ---- an eigenvector: the run is that of one equation ---- *)
Section Span.
Variables (RK : method Rnum) (n : Z) (dt : R) (op A : vec Rnum -> vec Rnum).
Hypothesis Hn : (1 <= n)%Z.
Hypothesis HA : linear_op n A.
Hypothesis Hinv : inverts n (dt * m_A RK 0%Z 0%Z) A op.
Variables (v0 : Z -> R) (lam beta : R).
Hypothesis Hv : veq n (A v0) (fun i => lam * v0 i).
Hypothesis H1 : v0 0%Z = 1.
Hypothesis Hreg : 1 - dt * m_A RK 0%Z 0%Z * lam <> 0.
Definition times : vec Rnum -> vec Rnum := fun x i => lam * x i.
Lemma A_span x c : veq n x (fun i => c * v0 i) -> veq n (A x) (fun i => lam * c * v0 i).
Proof.
  intros H p Hp. destruct HA as [HL HC]. rewrite (HL x (fun i => c * v0 i + 0 * v0 i)) by (first [exact Hp|intros q Hq; rewrite (H q Hq); unfold vec in *; cbn [car Rnum] in *; ring]).
  rewrite (HC c 0 v0 v0 p Hp). rewrite (Hv p Hp). unfold vec in *; cbn [car Rnum] in *. ring.
Qed.
Lemma comb_span u F c (f : Z -> R) i : veq n u (fun q => c * v0 q) -> (forall j, (0 <= j < i)%Z -> veq n (F j) (fun q => f j * v0 q)) ->
  veq n (comb RK u F i) (fun q => comb RK (fun _ => c) (fun j _ => f j) i 0%Z * v0 q).
Proof.
  intros Hu HF p Hp. unfold comb, diag. cbv beta. rewrite (Hu p Hp). rewrite (rsum_ext 0 (i - 1) _ (fun j => v0 p * (m_A RK i j / m_A RK 0%Z 0%Z * f j))).
  - rewrite rsum_scal. unfold vec in *; cbn [car Rnum] in *. ring.
  - intros j Hj. rewrite (HF j ltac:(lia) p Hp). unfold vec in *; cbn [car Rnum] in *. ring.
Qed.
Lemma estep_span u u' c : veq n u (fun q => c * v0 q) -> estep RK n dt A (fun q => beta * v0 q) u u' ->
  exists c', veq n u' (fun q => c' * v0 q) /\ estep RK 1 dt times (fun _ => beta) (fun _ => c) (fun _ => c').
Proof.
  intros Hu (F & HF & Hu'). set (f := fun i => F i 0%Z : R). set (al := dt * m_A RK 0%Z 0%Z) in *.
  assert (HS : forall i, (0 <= i < m_s RK)%Z -> veq n (F i) (fun q => f i * v0 q)).
  { intros i Hi. generalize Hi. destruct Hi as [Hi1 _]. revert i Hi1.
    apply (Zlt_0_ind (fun i => (0 <= i < m_s RK)%Z -> veq n (F i) (fun q => f i * v0 q))). intros i IH _ Hi.
    pose proof (comb_span u F c f i Hu (fun j Hj => IH j Hj ltac:(lia))) as HK. set (ka := comb RK (fun _ => c) (fun j _ => f j) i 0%Z) in *.
    destruct Hinv as [_ H2]. destruct HA as [HL HC]. set (r := al * ka * lam + m_S RK i * dt * beta). set (ph := r / (1 - al * lam)).
    assert (E1 : veq n (op (fun q => r * v0 q)) (F i)).
    { apply H2. intros p Hp. rewrite (HF i Hi p Hp) at 1.
      assert (EA : A (fun q => F i q + comb RK u F i q) p = A (F i) p + lam * ka * v0 p).
      { rewrite <- (A_span (fun q => ka * v0 q) ka (fun q _ => eq_refl) p Hp). rewrite (HL _ (fun q => 1 * F i q + 1 * (ka * v0 q))) by (first [exact Hp|intros q Hq; rewrite (HK q Hq); unfold vec in *; cbn [car Rnum] in *; ring]).
        rewrite (HC 1 1 (F i) (fun q => ka * v0 q) p Hp). unfold vec in *; cbn [car Rnum] in *. ring. }
      fold al. rewrite EA. unfold r, vec in *; cbn [car Rnum] in *. ring. }
    assert (E2 : veq n (op (fun q => r * v0 q)) (fun q => ph * v0 q)).
    { apply H2. intros p Hp. rewrite (A_span (fun q => ph * v0 q) ph (fun q _ => eq_refl) p Hp). fold al. unfold ph. unfold vec in *; cbn [car Rnum] in *. field. exact Hreg. }
    assert (E3 : f i = ph). { unfold f. rewrite <- (E1 0%Z ltac:(lia)), (E2 0%Z ltac:(lia)), H1. apply Rmult_1_r. }
    intros p Hp. rewrite E3, <- (E1 p Hp), (E2 p Hp). reflexivity. }
  exists (c + rsum 0 (m_s RK - 1) (fun i => m_D RK i * f i)). split.
  - intros p Hp. rewrite (Hu' p Hp), (Hu p Hp). rewrite (rsum_ext 0 (m_s RK - 1) _ (fun i => v0 p * (m_D RK i * f i))).
    + rewrite rsum_scal. unfold vec in *; cbn [car Rnum] in *. ring.
    + intros i Hi. rewrite (HS i ltac:(lia) p Hp). unfold vec in *; cbn [car Rnum] in *. ring.
  - exists (fun j _ => f j). split; [|intros p Hp; reflexivity]. intros i Hi p Hp.
    pose proof (comb_span u F c f i Hu (fun j Hj => HS j ltac:(lia))) as HK.
    assert (EC : comb RK (fun _ => c) (fun j _ => f j) i p = comb RK (fun _ => c) (fun j _ => f j) i 0%Z) by reflexivity. unfold times. rewrite EC.
    set (ka := comb RK (fun _ => c) (fun j _ => f j) i 0%Z) in *. unfold f at 1. rewrite (HF i Hi 0%Z ltac:(lia)).
    rewrite (A_span _ (f i + ka)) by (first [lia|intros q Hq; rewrite (HK q Hq), (HS i Hi q Hq); unfold vec in *; cbn [car Rnum] in *; ring]).
    rewrite H1. unfold al. unfold vec in *; cbn [car Rnum] in *. ring.
Qed.
Lemma esteps_span k : forall u u' c, veq n u (fun q => c * v0 q) -> esteps RK n dt A (fun q => beta * v0 q) k u u' ->
  exists c', veq n u' (fun q => c' * v0 q) /\ esteps RK 1 dt times (fun _ => beta) k (fun _ => c) (fun _ => c').
Proof.
  induction k as [|k IH]; intros u u' c Hu H; inversion H; subst.
  - exists c. split; [exact Hu|constructor].
  - destruct (estep_span u u'0 c Hu) as (c1 & Hc1 & E1); [assumption|]. destruct (IH u'0 u' c1 Hc1) as (c2 & Hc2 & E2); [assumption|].
    exists c2. split; [exact Hc2|]. econstructor; eassumption.
Qed.
Lemma times_eigen : left_eigen_op 1 times (fun _ => 1) (fun _ => 0) lam 0.
Proof. intros x. unfold dot0, times. rewrite !(rsum_lo 0 (1 - 1)) by lia. rewrite !rsum_empty by lia. unfold vec in *; cbn [car Rnum] in *. split; ring. Qed.
Lemma span_error p tau (amp : R -> R) k u u' : approximates RK p tau -> 0 < dt -> lam <= 0 ->
  (forall t, derivable_pt_lim amp t (lam * amp t + beta)) -> veq n u (fun q => amp 0 * v0 q) ->
  esteps RK n dt A (fun q => beta * v0 q) k u u' ->
  exists c', veq n u' (fun q => c' * v0 q) /\ Rabs (c' - amp (INR k * (tau * dt))) <= INR k * dt * (1 / 10 ^ 12 + 4 * (dt * - lam) ^ p) * Rabs (lam * amp 0 + beta).
Proof.
  intros Ap Hdt Hl Hd Hu H. destruct (esteps_span k u u' (amp 0) Hu H) as (c' & Hc & E). exists c'. split; [exact Hc|].
  pose proof (top_steps RK p tau Ap 1 dt times (fun _ => 1) (fun _ => 0) lam 0 times_eigen Hdt Hl (fun _ => beta) (fun t _ => amp t) k (fun _ => amp 0) (fun _ => c')) as X.
  specialize (X ltac:(intros t q _; apply Hd) ltac:(intros q _; reflexivity) E). rewrite !modulus1 in X. unfold bound in X.
  replace (sqrt (lam ^ 2 + 0 ^ 2)) with (- lam) in X; [exact X|]. symmetry. replace (lam ^ 2 + 0 ^ 2) with (Rsqr (- lam)) by (unfold Rsqr; ring). apply sqrt_Rsqr. lra.
Qed.
End Span.

(* ---- the distance ---- *)
Lemma std_abs_R x : std_abs (K := Rnum) x = Rabs x.
Proof. unfold std_abs. rlit. unfold Rltb, Rabs. destruct (Rlt_dec x 0), (Rcase_abs x); lra. Qed.
Lemma st_normdiff_ok n x y : (1 <= n)%Z -> st_normdiff (K := Rnum) n x y = Ok (rsum 0 (n - 1) (fun i => Rabs (x i - y i))).
Proof.
  intros Hn. unfold st_normdiff.
  match goal with |- forM 0 (n - 1) ?f ?r0 = _ => assert (W : wp (forM 0 (n - 1) f r0) (fun r => r = rsum 0 (n - 1 + 1 - 1) (fun i => Rabs (x i - y i)))) end.
  { apply (forM_ind (fun k (r : R) => r = rsum 0 (k - 1) (fun i => Rabs (x i - y i)))); [lia|rewrite rsum_empty by lia; rlit; reflexivity|].
    intros i r Hi ->. arr. rewrite std_abs_R. rlit. rewrite (rsum_hi 0 (i + 1 - 1)) by lia. replace (i + 1 - 1)%Z with i by lia. reflexivity. }
  apply wp_ok in W. destruct W as (r & E & ->). rewrite E. f_equal. f_equal. lia.
Qed.

(* ---- a pass of the loop ---- *)
Definition angle (n : Z) : R := PI * 25 / IZR (n - 1).
Definition ev (n : Z) : R := 2 * (1 - cos (PI * 25 / IZR (n - 1))) * IZR (n - 1) ^ 2.
Lemma ev_lam n : (2 <= n)%Z -> -2 * (1 - cos (PI * 25 / IZR (n - 1))) / (1 / IZR (n - 1)) ^ 2 = - ev n.
Proof. intros Hn. pose proof (nm1 n Hn). unfold ev. field. lra. Qed.
Lemma ev_bounds n : (2 <= n)%Z -> 0 < ev n <= 625 * PI ^ 2.
Proof.
  intros Hn. pose proof (nm1 n Hn) as H0. pose proof (th_ne n Hn) as Hne. unfold ev. set (d := PI * 25 / IZR (n - 1)) in *.
  assert (Hm : 0 < IZR (n - 1) ^ 2) by (apply pow_lt; lra). pose proof (COS_bound d) as Hb. split.
  - apply Rmult_lt_0_compat; [|exact Hm]. lra.
  - pose proof (cos_quad d) as Hq. replace (625 * PI ^ 2) with (d * d * IZR (n - 1) ^ 2) by (unfold d; field; lra). apply Rmult_le_compat_r; lra.
Qed.
Section Level.
Context {Fa : Type}.
Variables (RK : method Rnum) (p : nat).
Variable tau : R.
Hypothesis Ap : approximates RK p tau.
Hypothesis Hg : 0 <= m_A RK 0%Z 0%Z.
Variables (dgssv : slu Rnum -> option Fa) (dgstrs : Fa -> vec Rnum -> option (vec Rnum)).
Variables (n : Z) (Tinteg beta : R) (J : Z -> junk).
Hypothesis Hn : (2 <= n)%Z.
Hypothesis HT : 0 < Tinteg.
Hypothesis HC : superlu n dgssv dgstrs.
Notation v0 := (fun i => cos (angle n * IZR i)).
Definition limit (l : Z) : R := IZR n * Tinteg * (1 / 10 ^ 12 + 4 * (Tinteg / 2 ^ Z.to_nat l * ev n) ^ p) * Rabs (beta - ev n) + IZR n * Rabs (amp n beta (tau * Tinteg) - amp n beta Tinteg).
Lemma scale_ok (f : vec Rnum) : veq n f v0 -> exists r, forM 0 (n - 1) (fun i (f : vec Rnum) => v <- rd 0 (n - 1) f i ;; wr 0 (n - 1) f i (v * beta)%R) f = Ok r /\ veq n r (fun i => beta * v0 i).
Proof.
  intros H0. match goal with |- context [forM 0 (n - 1) ?g f] => assert (W : wp (forM 0 (n - 1) g f) (fun r => (forall j, (0 <= j < n - 1 + 1)%Z -> r j = beta * v0 j) /\ forall j, (n - 1 + 1 <= j < n)%Z -> r j = v0 j)) end.
  { apply (forM_ind (fun k (r : Z -> car Rnum) => (forall j, (0 <= j < k)%Z -> r j = beta * v0 j) /\ forall j, (k <= j < n)%Z -> r j = v0 j)); [lia|split; [intros; lia|intros j Hj; apply H0; lia]|].
    intros i r Hi [G1 G2]. arr. split.
    - intros j Hj. destruct (Z.eq_dec j i) as [->|]; [rewrite upd_same, G2 by lia; apply Rmult_comm|]. rewrite upd_other by assumption. apply G1. lia.
    - intros j Hj. rewrite upd_other by lia. apply G2. lia. }
  apply wp_ok in W. destruct W as (r & E & G & _). exists r. split; [exact E|]. intros j Hj. apply G. lia.
Qed.
Lemma estep_phi dt A ph ph' u u' : veq n ph ph' -> estep RK n dt A ph u u' -> estep RK n dt A ph' u u'.
Proof. intros E (F & HF & Hu). exists F. split; [|exact Hu]. intros i Hi q Hq. rewrite (HF i Hi q Hq), (E q Hq). reflexivity. Qed.
Lemma esteps_phi dt A ph ph' k : veq n ph ph' -> forall u u', esteps RK n dt A ph k u u' -> esteps RK n dt A ph' k u u'.
Proof. intros E. induction k as [|k IH]; intros u u' H; inversion H; subst; [constructor|]. econstructor; [eapply estep_phi; eassumption|]. apply IH. assumption. Qed.
Lemma level_ok sol l x force : (0 <= l)%Z -> veq n sol (fun i => amp n beta Tinteg * v0 i) ->
  wp (st_level RK dgssv dgstrs n Tinteg beta J sol l x force) (fun r => fst (fst r) = Tinteg / 2 ^ Z.to_nat l /\ 0 <= snd (fst r) <= limit l).
Proof.
  intros Hl Hsol. unfold st_level. destruct (cinit_ok n Hn x) as (x1 & E1 & X1). destruct (cinit_ok n Hn force) as (f1 & E2 & F1). rewrite E1, E2. cbn [bind].
  destruct (scale_ok f1 F1) as (f2 & E3 & F2). match goal with |- wp (bind ?X _) _ => assert (EX : X = Ok f2) by exact E3; rewrite EX end. cbn [bind]. cbv zeta.
  assert (EP : IZR (2 ^ l) = 2 ^ Z.to_nat l) by (rewrite <- (Z2Nat.id l) at 1 by exact Hl; rewrite <- pow_IZR; reflexivity).
  assert (Hp : 0 < 2 ^ Z.to_nat l) by (apply pow_lt; lra). rewrite EP. set (dt := Tinteg / 2 ^ Z.to_nat l).
  assert (Hdt : 0 < dt) by (apply Rdiv_lt_0_compat; assumption).
  assert (Ha : 0 <= dt * m_A RK 0%Z 0%Z) by (apply Rmult_le_pos; [lra|exact Hg]).
  destruct (lapl_ok n _ Hn Ha dgssv dgstrs HC pm_new (j_a (J l)) (j_ri (J l)) (j_cp (J l)) ltac:(cbn; lia)) as (o & P' & E & _ & Hi & _). rewrite E. cbn [bind fst].
  pose proof Ap as (M & F & ll & HS & _). pose proof (supplied_diagonal RK HS) as HD. pose proof (laplace_linear n Hn) as HL.
  pose proof (affine_esteps RK n dt (lapl_op dgstrs o n) (laplace n) HL HD Hi f2 (Z.to_nat (2 ^ l)) (j_dloc (J l)) (j_Zused (J l)) (j_aloc (J l)) (j_zc0 (J l)) (mkMem x1 (j_zb (J l))) ltac:(lia)) as W.
  apply wp_ok in W. destruct W as (om & E4 & Hom).
  destruct (construct RK n (j_dloc (J l)) (j_Zused (J l)) (j_aloc (J l)) (j_zc0 (J l))) as [oo| | |]; cbn [bind] in E4 |- *; try discriminate. rewrite E4. cbn [bind].
  rewrite st_normdiff_ok by lia. cbn [bind wp fst snd]. split; [reflexivity|]. cbn [io] in Hom.
  apply (esteps_phi dt (laplace n) _ (fun q => beta * v0 q) _ F2) in Hom. pose proof (ev_bounds n Hn) as Hev.
  destruct (span_error RK n dt (lapl_op dgstrs o n) (laplace n) ltac:(lia) HL Hi v0 (- ev n) beta) with (p := p) (tau := tau) (amp := amp n beta) (k := Z.to_nat (2 ^ l)) (u := x1) (u' := io (snd om)) as (c' & G1 & G2); try assumption; try lra.
  - intros q Hq. pose proof (eigenvector n Hn 1 q Hq) as X. rewrite (ev_lam n Hn) in X. unfold angle. 
    rewrite Rmult_1_l in X. rewrite <- X. apply HL; [|exact Hq]. intros j _. symmetry. apply Rmult_1_l.
  - rewrite Rmult_0_r. apply cos_0.
  - pose proof (Rmult_le_pos _ _ Ha (Rlt_le _ _ (proj1 Hev))) as X. lra.
  - intros t. pose proof (amp_der n Hn beta t) as X. rewrite (ev_lam n Hn) in X. exact X.
  - intros q Hq. rewrite (X1 q Hq), (amp_0 n). symmetry. apply Rmult_1_l.
  - rewrite (amp_0 n) in G2. assert (EI : INR (Z.to_nat (2 ^ l)) = 2 ^ Z.to_nat l) by (rewrite INR_IZR_INZ, Z2Nat.id by (apply Z.pow_nonneg; lia); exact EP).
    rewrite EI in G2. replace (2 ^ Z.to_nat l * (tau * dt)) with (tau * Tinteg) in G2 by (unfold dt; field; lra). replace (2 ^ Z.to_nat l * dt) with Tinteg in G2 by (unfold dt; field; lra). rewrite Ropp_involutive in G2.
    replace (- ev n * 1 + beta) with (beta - ev n) in G2 by ring. fold dt. unfold limit. fold dt.
    split; [apply rsum_nonneg; intros; apply Rabs_pos|]. set (B0 := Tinteg * (1 / 10 ^ 12 + 4 * (dt * ev n) ^ p) * Rabs (beta - ev n)) in *. set (D := Rabs (amp n beta (tau * Tinteg) - amp n beta Tinteg)). set (B := B0 + D).
    assert (G3 : Rabs (c' - amp n beta Tinteg) <= B) by (unfold B, D; replace (c' - amp n beta Tinteg) with ((c' - amp n beta (tau * Tinteg)) + (amp n beta (tau * Tinteg) - amp n beta Tinteg)) by ring; eapply Rle_trans; [apply Rabs_triang|]; lra).
    replace (IZR n * Tinteg * (1 / 10 ^ 12 + 4 * (dt * ev n) ^ p) * Rabs (beta - ev n) + IZR n * D) with (rsum 0 (n - 1) (fun _ => B)).
    + apply rsum_le. intros i Hi2. rewrite (G1 i ltac:(lia)), (Hsol i ltac:(lia)). rewrite <- Rmult_minus_distr_r, Rabs_mult.
      eapply Rle_trans; [apply Rmult_le_compat_l; [apply Rabs_pos|]|rewrite Rmult_1_r; exact G3]. pose proof (COS_bound (angle n * IZR i)). apply Rabs_le. lra.
    + rewrite (rsum_ext 0 (n - 1) _ (fun _ => B * 1)) by (intros; ring). rewrite rsum_scal. assert (EN : rsum 0 (n - 1) (fun _ => 1) = IZR n).
      { replace n with (Z.of_nat (Z.to_nat n)) by lia. generalize (Z.to_nat n). intros k. induction k as [|k IH]; [rewrite rsum_empty by lia; reflexivity|].
        rewrite rsum_hi by lia. replace (Z.of_nat (Datatypes.S k) - 1 - 1)%Z with (Z.of_nat k - 1)%Z by lia. rewrite IH, Nat2Z.inj_succ, succ_IZR. reflexivity. }
      rewrite EN. unfold B, B0. ring.
Qed.
Lemma levels_ok sol : veq n sol (fun i => amp n beta Tinteg * v0 i) -> forall k l x force, (0 <= l)%Z ->
  wp (st_levels RK dgssv dgstrs n Tinteg beta J sol k l x force) (fun rows => Datatypes.length rows = k /\
    forall i, (i < k)%nat -> fst (nth i rows (0, 0)) = Tinteg / 2 ^ (Z.to_nat l + i) /\ 0 <= snd (nth i rows (0, 0)) <= limit (l + Z.of_nat i)).
Proof.
  intros Hs. induction k as [|k IH]; intros l x force Hl; cbn [st_levels].
  - cbn [wp]. split; [reflexivity|intros; lia].
  - apply wp_bind. eapply wp_mono; [apply (level_ok sol l x force Hl Hs)|]. intros [row [x' f']] [R1 R2]. apply wp_bind.
    eapply wp_mono; [apply (IH (l + 1)%Z x' f' ltac:(lia))|]. intros rows [L1 L2]. cbn [wp]. split; [cbn; congruence|]. intros [|i] Hi; cbn [nth].
    + rewrite Nat.add_0_r, Z.add_0_r. cbn [fst snd] in R1, R2. split; assumption.
    + destruct (L2 i ltac:(lia)) as [Q1 Q2]. replace (Z.to_nat l + Datatypes.S i)%nat with (Z.to_nat (l + 1) + i)%nat by lia. replace (l + Z.of_nat (Datatypes.S i))%Z with (l + 1 + Z.of_nat i)%Z by lia. split; assumption.
Qed.
Lemma main_ok k sol x force : wp (st_main RK dgssv dgstrs n Tinteg beta J k sol x force) (fun rows => Datatypes.length rows = k /\
    forall l, (l < k)%nat -> fst (nth l rows (0, 0)) = Tinteg / 2 ^ l /\
      0 <= snd (nth l rows (0, 0)) <= IZR n * Tinteg * (1 / 10 ^ 12 + 4 * (Tinteg / 2 ^ l * ev n) ^ p) * Rabs (beta - ev n) + IZR n * Rabs (amp n beta (tau * Tinteg) - amp n beta Tinteg)).
Proof.
  unfold st_main. destruct (sol_ok n Hn Tinteg beta sol) as (s & E & Hs). rewrite E. cbn [bind]. eapply wp_mono; [apply (levels_ok s Hs k 0 x force); lia|].
  intros rows [L1 L2]. split; [exact L1|]. intros l Hl. destruct (L2 l Hl) as [Q1 Q2]. unfold limit in Q2. rewrite Z.add_0_l, Nat2Z.id in Q2. split; [exact Q1|exact Q2].
Qed.
End Level.
Lemma main_errors w RK p : In (RK, p) [(EulerImp w, 1%nat); (RKRS w, 2%nat); (RKMethod1 w, 4%nat); (RKMethod2 w, 4%nat)] ->
  forall Fa (dgssv : slu Rnum -> option Fa) dgstrs n, (2 <= n)%Z -> superlu n dgssv dgstrs -> forall Tinteg beta, 0 < Tinteg -> forall J k sol x force,
  wp (st_main RK dgssv dgstrs n Tinteg beta J k sol x force) (fun rows => Datatypes.length rows = k /\
    forall l, (l < k)%nat -> fst (nth l rows (0, 0)) = Tinteg / 2 ^ l /\
      0 <= snd (nth l rows (0, 0)) <= IZR n * Tinteg * (1 / 10 ^ 12 + 4 * (Tinteg / 2 ^ l * ev n) ^ p) * Rabs (beta - ev n)).
Proof.
  intros H Fa dgssv dgstrs n Hn HC T beta HT J k sol x force.
  assert (Hg : 0 <= m_A RK 0%Z 0%Z).
  { cbn [In] in H. destruct H as [H|[H|[H|[H|[]]]]]; injection H as <- <-; cbn; unfold Rlit; try (apply Rmult_le_pos; [lra|]); try (apply powerRZ_le; lra); try lra. }
  eapply wp_mono; [apply (main_ok RK p 1 (supplied_approximates w RK p H) Hg); assumption|]. intros rows [L HR]. split; [exact L|]. intros l Hl. destruct (HR l Hl) as [H1 H2]. split; [exact H1|].
  rewrite Rmult_1_l, (Rminus_diag_eq (amp n beta T) (amp n beta T) eq_refl), Rabs_R0, Rmult_0_r, Rplus_0_r in H2. exact H2.
Qed.
(* 2^l exceeds every number *)
Lemma pow2_large (X : R) : exists L, forall l, (L <= l)%nat -> X <= 2 ^ l.
Proof.
  assert (P : forall l, INR l <= 2 ^ l). { induction l as [|l IH]; [cbn; lra|]. rewrite S_INR. cbn [pow]. assert (1 <= 2 ^ l) by (apply pow_R1_Rle; lra). lra. }
  exists (Z.to_nat (up X)).
  assert (HL : X <= INR (Z.to_nat (up X))). { destruct (archimed X) as [U _]. rewrite INR_IZR_INZ. assert (Q : (up X <= Z.of_nat (Z.to_nat (up X)))%Z) by lia. apply IZR_le in Q. lra. }
  intros l Hl. apply le_INR in Hl. specialize (P l). lra.
Qed.
Lemma main_limit w RK p : In (RK, p) [(EulerImp w, 1%nat); (RKRS w, 2%nat); (RKMethod1 w, 4%nat); (RKMethod2 w, 4%nat)] ->
  forall Fa (dgssv : slu Rnum -> option Fa) dgstrs n, (2 <= n)%Z -> superlu n dgssv dgstrs -> forall Tinteg beta, 0 < Tinteg -> forall eps, 0 < eps ->
  exists L, forall J k sol x force,
  wp (st_main RK dgssv dgstrs n Tinteg beta J k sol x force) (fun rows =>
    forall l, (L <= l < k)%nat -> snd (nth l rows (0, 0)) <= IZR n * Tinteg / 10 ^ 12 * Rabs (beta - ev n) + eps).
Proof.
  intros H Fa dgssv dgstrs n Hn HC T beta HT eps He. pose proof (ev_bounds n Hn) as Hev.
  assert (HN : 0 < IZR n) by (apply IZR_lt; lia). set (C := IZR n * T * 4 * Rabs (beta - ev n)).
  assert (HC0 : 0 <= C) by (unfold C; pose proof (Rabs_pos (beta - ev n)); assert (0 < IZR n * T) by (apply Rmult_lt_0_compat; assumption); nra).
  assert (HE : 0 < T * ev n) by (apply Rmult_lt_0_compat; lra).
  destruct (pow2_large (Rmax (T * ev n) (C * (T * ev n) / eps))) as (L & HL). exists L. intros J k sol x force.
  eapply wp_mono; [apply (main_errors w RK p H Fa dgssv dgstrs n Hn HC T beta HT J k sol x force)|]. intros rows [_ HR] l [Hl1 Hl2]. destruct (HR l Hl2) as [_ [_ B]].
  eapply Rle_trans; [exact B|]. specialize (HL l Hl1). pose proof (Rmax_l (T * ev n) (C * (T * ev n) / eps)) as M1. pose proof (Rmax_r (T * ev n) (C * (T * ev n) / eps)) as M2.
  assert (HP : 0 < 2 ^ l) by (apply pow_lt; lra). set (z := T / 2 ^ l * ev n). assert (Ez : z = T * ev n / 2 ^ l) by (unfold z; field; lra).
  assert (Z0 : 0 <= z) by (rewrite Ez; apply Rlt_le, Rdiv_lt_0_compat; assumption).
  assert (Z1 : z <= 1). { rewrite Ez. apply (Rmult_le_reg_r (2 ^ l)); [exact HP|]. replace (T * ev n / 2 ^ l * 2 ^ l) with (T * ev n) by (field; lra). lra. }
  assert (Z2 : C * z <= eps). { rewrite Ez. apply (Rmult_le_reg_r (2 ^ l)); [exact HP|]. replace (C * (T * ev n / 2 ^ l) * 2 ^ l) with (C * (T * ev n) / eps * eps) by (field; lra). rewrite Rmult_comm. apply Rmult_le_compat_l; lra. }
  assert (ZP : z ^ p <= z).
  { destruct p as [|q]; [cbn [In] in H; destruct H as [H|[H|[H|[H|[]]]]]; discriminate|]. cbn [pow]. assert (z ^ q <= 1) by (rewrite <- (pow1 q); apply pow_incr; lra). pose proof (Rmult_le_compat_l z _ _ Z0 H0) as Q. rewrite Rmult_1_r in Q. exact Q. }
  replace (IZR n * T * (1 / 10 ^ 12 + 4 * z ^ p) * Rabs (beta - ev n)) with (IZR n * T / 10 ^ 12 * Rabs (beta - ev n) + C * z ^ p) by (unfold C; field; apply pow_nonzero; lra).
  apply Rplus_le_compat_l. eapply Rle_trans; [|exact Z2]. apply Rmult_le_compat_l; assumption.
Qed.

(* ---- what the comparison does not see ---- *)
Lemma exp30 : exp (- (30)) <= 1 / 10 ^ 12.
Proof.
  assert (E10 : 2593 / 1000 <= exp 1).
  { replace (exp 1) with (exp (1 / 10) ^ 10) by (cbn [pow]; rewrite Rmult_1_r, <- !exp_plus; f_equal; field). apply Rle_trans with ((1 + 1 / 10) ^ 10); [lra|].
    apply pow_incr. split; [lra|]. apply Rlt_le, exp_ineq1. lra. }
  assert (E30 : 10 ^ 12 <= exp 30).
  { replace (exp 30) with (exp 1 ^ 30) by (cbn [pow]; rewrite Rmult_1_r, <- !exp_plus; f_equal; ring). apply Rle_trans with ((2593 / 1000) ^ 30); [lra|]. apply pow_incr. lra. }
  rewrite exp_Ropp. unfold Rdiv. rewrite Rmult_1_l. apply Rinv_le_contravar; [|exact E30]. apply pow_lt. lra.
Qed.
Lemma cos_up d : 0 <= d <= 1 -> cos d <= 1 - d ^ 2 / 2 + d ^ 4 / 24.
Proof.
  intros H. assert (P : - PI / 2 <= d <= PI / 2) by (pose proof PI2_1; lra). destruct (pre_cos_bound d 0) as [_ X]; [lra|lra|].
  cbn [Nat.mul Nat.add] in X. unfold cos_approx, cos_term in X. cbn [sum_f_R0 pow fact Nat.mul Nat.add INR] in X. lra.
Qed.
Lemma ev_1000 : 6100 <= ev 1000.
Proof.
  unfold ev. cbn [Z.sub Z.add Z.opp Z.pos_sub Pos.pred_double Z.succ_double Z.pred_double Z.double]. change (IZR (1000 - 1)) with 999. pose proof pi_lower as P1. pose proof pi_upper as P2.
  set (d := PI * 25 / 999). assert (D : 786 / 10000 <= d <= 787 / 10000) by (unfold d; split; lra). pose proof (cos_up d ltac:(lra)) as C.
  assert (Q1 : (786 / 10000) ^ 2 <= d ^ 2) by (apply pow_incr; lra). assert (Q2 : d ^ 4 <= (787 / 10000) ^ 4) by (apply pow_incr; lra). lra.
Qed.
Lemma amp_near beta t t' : 1 / 200 <= t -> 1 / 200 <= t' -> 0 <= beta <= 1 -> Rabs (amp 1000 beta t - amp 1000 beta t') <= 1 / 10 ^ 12.
Proof.
  intros H H' Hb. pose proof ev_1000 as HE. unfold amp. rewrite (ev_lam 1000 ltac:(lia)). set (e := ev 1000) in *. clearbody e.
  assert (X : forall s, 1 / 200 <= s -> 0 < exp (- e * s) <= 1 / 10 ^ 12).
  { intros s Hs. split; [apply exp_pos|]. eapply Rle_trans; [|exact exp30]. destruct (Req_dec (- e * s) (- (30))) as [->|N]; [lra|]. apply Rlt_le, exp_increasing. nra. }
  pose proof (X t H) as X1. pose proof (X t' H') as X2. set (a := exp (- e * t)) in *. set (b := exp (- e * t')) in *. clearbody a b.
  assert (G : 0 <= 1 + beta / - e <= 1).
  { assert (0 <= beta / e <= 1). { split; [apply Rmult_le_pos; [lra|apply Rlt_le, Rinv_0_lt_compat; lra]|]. apply (Rmult_le_reg_r e); [lra|]. replace (beta / e * e) with beta by (field; lra). lra. }
    replace (beta / - e) with (- (beta / e)) by (field; lra). lra. }
  set (g := 1 + beta / - e) in *. replace (a * g - beta / - e - (b * g - beta / - e)) with ((a - b) * g) by ring. rewrite Rabs_mult, (Rabs_pos_eq g) by lra.
  assert (AB : Rabs (a - b) <= 1 / 10 ^ 12) by (apply Rabs_le; lra). pose proof (Rabs_pos (a - b)). nra.
Qed.
(* the exact solutions at two times *)
Lemma blind beta t t' e e' : 1 / 200 <= t -> 1 / 200 <= t' -> 0 <= beta <= 1 -> exists s s' d,
  ex_sol (K := Rnum) cos exp atan 1000 t beta e = Ok s /\ ex_sol (K := Rnum) cos exp atan 1000 t' beta e' = Ok s' /\ st_normdiff (K := Rnum) 1000 s s' = Ok d /\ d <= 1 / 10 ^ 9.
Proof.
  intros H H' Hb. destruct (sol_ok 1000 ltac:(lia) t beta e) as (s & E & Hs). destruct (sol_ok 1000 ltac:(lia) t' beta e') as (s' & E' & Hs').
  eexists s, s', _. split; [exact E|]. split; [exact E'|]. split; [apply st_normdiff_ok; lia|]. pose proof (amp_near beta t t' H H' Hb) as A.
  apply Rle_trans with (rsum 0 (1000 - 1) (fun _ => 1 / 10 ^ 12)).
  - apply rsum_le. intros i Hi. rewrite (Hs i ltac:(lia)), (Hs' i ltac:(lia)), <- Rmult_minus_distr_r, Rabs_mult. match goal with |- _ * Rabs (cos ?x) <= _ => pose proof (COS_bound x) as Q; assert (Q1 : Rabs (cos x) <= 1) by (apply Rabs_le; lra) end.
    eapply Rle_trans; [apply Rmult_le_compat_l; [apply Rabs_pos|exact Q1]|]. rewrite Rmult_1_r. exact A.
  - assert (G : forall k, rsum 0 (Z.of_nat k - 1) (fun _ => 1 / 10 ^ 12) = INR k * (1 / 10 ^ 12)).
    { induction k as [|k IH]; [rewrite rsum_empty by lia; cbn [INR]; ring|]. rewrite rsum_hi by lia. replace (Z.of_nat (Datatypes.S k) - 1 - 1)%Z with (Z.of_nat k - 1)%Z by lia. rewrite IH, S_INR. ring. }
    specialize (G (Z.to_nat 1000)). rewrite Z2Nat.id, INR_IZR_INZ, Z2Nat.id in G by lia. rewrite G. lra.
Qed.
(* the program compiled with Crank-Nicolson *)
Lemma crn_main w Fa (dgssv : slu Rnum -> option Fa) dgstrs : superlu 1000 dgssv dgstrs -> forall beta, 0 <= beta <= 1 -> forall J k sol x force,
  wp (st_main (CrN w) dgssv dgstrs 1000 (1 / 100) beta J k sol x force) (fun rows => Datatypes.length rows = k /\
    forall l, (l < k)%nat -> snd (nth l rows (0, 0)) <= 1000 * (1 / 100) * (1 / 10 ^ 12 + 4 * (1 / 100 / 2 ^ l * ev 1000) ^ 1) * Rabs (beta - ev 1000) + 1 / 10 ^ 9).
Proof.
  intros HC beta Hb J k sol x force. pose proof (all_approximate w) as (_ & _ & _ & _ & Ap).
  assert (Hg : 0 <= m_A (CrN (K := Rnum) w) 0%Z 0%Z) by (cbn; unfold Rlit; unfold powerRZ; simpl; lra).
  eapply wp_mono; [apply (main_ok (CrN w) 1 (1 / 2) Ap Hg dgssv dgstrs 1000 (1 / 100) beta J ltac:(lia) ltac:(lra) HC k sol x force)|].
  intros rows [L HR]. split; [exact L|]. intros l Hl. destruct (HR l Hl) as [_ [_ H2]]. eapply Rle_trans; [exact H2|]. apply Rplus_le_compat_l.
  pose proof (amp_near beta (1 / 2 * (1 / 100)) (1 / 100) ltac:(lra) ltac:(lra) Hb). lra.
Qed.
