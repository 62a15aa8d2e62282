(* C95: the runs of Sdirkl against the solution of u' = A u + phi. *)
From Coq Require Import Reals Lra Lia Psatz Ring List.
From Verif Require Import Base FieldLU HessModel Spec HessPathProofs SympQuad Dec RodasStab RodasStab2 SdirkModel SdirkSpec SdirkProofs SdirkAlg SdirkTop SdirkTabSpec SdirkTab SdirkStab Conv ConvPoly ConvSpec.
Import ListNotations.
Open Scope R_scope.

Lemma D_rsum (n : Z) (f : Z -> R -> R) (g : Z -> R) t : (forall k, (0 <= k < n)%Z -> derivable_pt_lim (f k) t (g k)) ->
  derivable_pt_lim (fun s => rsum 0 (n - 1) (fun k => f k s)) t (rsum 0 (n - 1) g).
Proof.
  destruct (Z.le_gt_cases 0 n) as [Hn|Hn].
  - rewrite <- (Z2Nat.id n Hn). induction (Z.to_nat n) as [|m IH]; intros H.
    + rewrite rsum_empty by lia. intros eps He. exists (mkposreal 1 Rlt_0_1). intros h Hh _. rewrite !rsum_empty by lia.
      replace ((0 - 0) / h - 0) with 0 by (field; exact Hh). rewrite Rabs_R0. exact He.
    + replace (Z.of_nat (S m) - 1)%Z with (Z.of_nat m) by lia.
      assert (E : forall h : Z -> R, rsum 0 (Z.of_nat m) h = rsum 0 (Z.of_nat m - 1) h + h (Z.of_nat m)) by (intros h; rewrite (rsum_hi 0 (Z.of_nat m)) by lia; reflexivity).
      rewrite E. intros eps He. pose proof (derivable_pt_lim_plus _ _ t _ _ (IH ltac:(intros k Hk; apply H; lia)) (H (Z.of_nat m) ltac:(lia)) eps He) as (d & Hd).
      exists d. intros h Hh Hh2. specialize (Hd h Hh Hh2). unfold plus_fct in Hd. rewrite !E. exact Hd.
  - rewrite rsum_empty by lia. intros _ eps He. exists (mkposreal 1 Rlt_0_1). intros h Hh _. rewrite !rsum_empty by lia.
    replace ((0 - 0) / h - 0) with 0 by (field; exact Hh). rewrite Rabs_R0. exact He.
Qed.
Lemma D_dot (n : Z) (l : Z -> R) (u : R -> vec Rnum) (d : Z -> R) t : (forall p, (0 <= p < n)%Z -> derivable_pt_lim (fun s => u s p) t (d p)) ->
  derivable_pt_lim (fun s => dot0 n l (u s)) t (dot0 n l d).
Proof. intros H. unfold dot0. apply (D_rsum n (fun k s => l k * u s k)). intros k Hk. apply (derivable_pt_lim_scal (fun s => u s k)). apply H, Hk. Qed.

(* the sum of D*S: the step on u' = phi *)
Definition reach1 (M : method DNum) : dec := List.fold_right (fun i s => dadd (dmul (m_D M (Z.of_nat i)) (m_S M (Z.of_nat i))) s) dz (List.seq 0 (Z.to_nat (m_s M))).
Lemma fold_rsum (h : Z -> dec) k : forall j, D2R (List.fold_right (fun i s => dadd (h (Z.of_nat i)) s) dz (List.seq j k)) = rsum (Z.of_nat j) (Z.of_nat j + Z.of_nat k - 1) (fun i => D2R (h i)).
Proof.
  induction k as [|k IH]; intros j; cbn [List.seq List.fold_right].
  - rewrite rsum_empty by lia. apply D2R_z.
  - rewrite D2R_add, IH. rewrite (rsum_lo (Z.of_nat j)) by lia. f_equal. replace (Z.of_nat (S j)) with (Z.of_nat j + 1)%Z by lia. f_equal; lia.
Qed.

Section Step.
Variable RK : method Rnum.
Variable n : Z.
Variable dt : R.
Variable A : vec Rnum -> vec Rnum.
Hypothesis Hdia : diagonal RK.
Variable M : method DNum.
Hypothesis HM : dec_of RK M.
Variables (lr li : Z -> R) (a b : R).
Hypothesis He : left_eigen_op n A lr li a b.
Variable phi : vec Rnum.
Notation L := (Lc n lr li).
Notation g := (m_A RK 0%Z 0%Z).
Notation z := (zc dt a b).
Lemma stage_phi (u : vec Rnum) F i : (0 <= i < m_s M)%Z ->
  veq n (F i) (fun p => dt * g * A (fun q => F i q + comb RK u F i q) p + m_S RK i * dt * phi p) ->
  cmul (csub c1 (cmul (cr (D2R (m_A M 0%Z 0%Z))) z)) (L (F i)) =
  cadd (cmul z (cadd (cmul (cr (D2R (m_S M i))) (L u)) (fsum (fun j => L (F j)) (m_A M i) 0 (Z.to_nat i)))) (cmul (cr (D2R (m_S M i))) (cmul (cr dt) (L phi))).
Proof.
  intros Hi E. destruct HM as (Es & Ea & ES & _). pose proof Hdia as (Hs & Hg & Hd).
  set (W := fun q => F i q + comb RK u F i q) in *. set (gg := m_A RK 0%Z 0%Z) in *.
  assert (EF : forall l, dot0 n l (F i) = dt * gg * dot0 n l (A W) + m_S RK i * dt * dot0 n l phi).
  { intros l. rewrite (dot0_ext n l (F i) (fun p => dt * gg * A W p + m_S RK i * dt * phi p)), dot0_add, !dot0_scal; [reflexivity|]. exact E. }
  assert (EW : forall l, gg * dot0 n l W = gg * dot0 n l (F i) + (m_S RK i * dot0 n l u + rsum 0 (i - 1) (fun j => m_A RK i j * dot0 n l (F j)))).
  { intros l. unfold W. rewrite dot0_add. unfold comb. change (diag RK) with gg. rewrite dot0_add, dot0_scal.
    rewrite (dot0_comb n l (i - 1) (fun j => m_A RK i j / gg) F). rewrite !Rmult_plus_distr_l. f_equal. f_equal; [field; exact Hg|].
    rewrite <- rsum_scal. apply rsum_ext. intros j _. field. exact Hg. }
  destruct (He W) as [W1 W2].
  pose proof (EF lr) as F1. pose proof (EF li) as F2. rewrite W1 in F1. rewrite W2 in F2.
  pose proof (EW lr) as G1. pose proof (EW li) as G2.
  rewrite fsum_rsum. rewrite Z2Nat.id by lia. rewrite Z.add_0_l.
  assert (Er : forall h : Z -> R, rsum 0 (i - 1) (fun j => m_A RK i j * h j) = rsum 0 (i - 1) (fun j => D2R (m_A M i j) * h j)) by (intros h; apply rsum_ext; intros j Hj; rewrite Ea by lia; reflexivity).
  rewrite !Er in *. rewrite (ES i Hi) in *.
  replace (D2R (m_A M 0%Z 0%Z)) with gg by (apply Ea; lia).
  unfold L. unfold zc. apply cx_eq; unfold csub, cadd, cmul, copp, c1, cr; cbn [fst snd].
  - set (X := dot0 n lr (F i)) in *. set (Y := dot0 n li (F i)) in *. set (w1 := dot0 n lr W) in *. set (w2 := dot0 n li W) in *.
    match type of G1 with _ = _ + ?r => set (R1 := r) in * end. match type of G2 with _ = _ + ?r => set (R2 := r) in * end.
    assert (X = dt * a * (gg * w1) - dt * b * (gg * w2) + D2R (m_S M i) * dt * dot0 n lr phi) as EX by (rewrite F1; ring). rewrite G1, G2 in EX. unfold R1, R2 in *. lra.
  - set (X := dot0 n lr (F i)) in *. set (Y := dot0 n li (F i)) in *. set (w1 := dot0 n lr W) in *. set (w2 := dot0 n li W) in *.
    match type of G1 with _ = _ + ?r => set (R1 := r) in * end. match type of G2 with _ = _ + ?r => set (R2 := r) in * end.
    assert (Y = dt * b * (gg * w1) + dt * a * (gg * w2) + D2R (m_S M i) * dt * dot0 n li phi) as EX by (rewrite F2; ring). rewrite G1, G2 in EX. unfold R1, R2 in *. lra.
Qed.
Lemma end_phi u u' F : veq n u' (fun p => u p + rsum 0 (m_s RK - 1) (fun i => m_D RK i * F i p)) ->
  L u' = cadd (L u) (fsum (fun j => L (F j)) (m_D M) 0 (Z.to_nat (m_s M))).
Proof.
  intros Hu. destruct HM as (Es & Ea & ES & ED). pose proof Hdia as (Hs & _). rewrite fsum_rsum. rewrite Z2Nat.id by lia. rewrite Z.add_0_l, <- Es.
  assert (G : forall l, dot0 n l u' = dot0 n l u + rsum 0 (m_s RK - 1) (fun i => D2R (m_D M i) * dot0 n l (F i))).
  { intros l. rewrite (dot0_ext n l _ _ Hu), dot0_add, dot0_comb. f_equal. apply rsum_ext. intros j Hj. rewrite ED by lia. reflexivity. }
  unfold L, cadd. cbn [fst snd]. rewrite !G. reflexivity.
Qed.
Lemma step_phi w u u' : cmul (a, b) w = L phi -> estep RK n dt A phi u u' ->
  cmul (peval (sden M) z) (cadd (L u') w) = cmul (peval (snum M) z) (cadd (L u) w).
Proof.
  intros Hw (F & HF & Hu). pose proof HM as (Es & _). pose proof Hdia as (Hs & _). apply (snum_ok M z (cadd (L u) w) (fun j => L (F j))).
  - intros i Hi. rewrite (stage_phi u F i Hi); [|apply HF; lia]. rewrite <- Hw.
    apply cx_eq; unfold zc, csub, cadd, cmul, copp, c1, cr; cbn [fst snd]; ring.
  - lia.
  - rewrite (end_phi u u' F Hu). ring.
Qed.
Lemma step_phi0 u u' : a = 0 -> b = 0 -> estep RK n dt A phi u u' -> L u' = cadd (L u) (cmul (cr (dt * D2R (reach1 M))) (L phi)).
Proof.
  intros Ea Eb (F & HF & Hu). pose proof HM as (Es & _). pose proof Hdia as (Hs & _). rewrite (end_phi u u' F Hu). f_equal.
  assert (EF : forall i, (0 <= i < m_s M)%Z -> L (F i) = cmul (cr (D2R (m_S M i) * dt)) (L phi)).
  { intros i Hi. pose proof (stage_phi u F i Hi ltac:(apply HF; lia)) as E.
    replace z with c0 in E by (unfold zc, c0; rewrite Ea, Eb; f_equal; ring).
    transitivity (cmul (csub c1 (cmul (cr (D2R (m_A M 0%Z 0%Z))) c0)) (L (F i))); [ring|]. rewrite E, cr_mul. ring. }
  rewrite fsum_rsum. unfold reach1. rewrite (fold_rsum (fun i => dmul (m_D M i) (m_S M i)) (Z.to_nat (m_s M)) 0). rewrite Z2Nat.id by lia. rewrite !Z.add_0_l.
  assert (EE : forall h : cx -> R, (forall c, h (cmul (cr c) (L phi)) = c * h (L phi)) ->
    rsum 0 (m_s M - 1) (fun i => D2R (m_D M i) * h (L (F i))) = dt * rsum 0 (m_s M - 1) (fun i => D2R (dmul (m_D M i) (m_S M i))) * h (L phi)).
  { intros h Hh. rewrite <- rsum_scal. rewrite Rmult_comm, <- rsum_scal. apply rsum_ext. intros i Hi. rewrite (EF i) by lia. rewrite Hh, D2R_mul. ring. }
  pose proof (EE fst) as E1. pose proof (EE snd) as E2. change (Z.of_nat 0) with 0%Z.
  rewrite E1 by (intros; unfold cmul, cr; cbn [fst snd]; ring). rewrite E2 by (intros; unfold cmul, cr; cbn [fst snd]; ring).
  unfold cmul, cr. cbn [fst snd]. f_equal; ring.
Qed.

(* ---- against the solution ---- *)
Variables (p : nat) (tau : R) (Fd : dec) (l : list dec).
Hypothesis Hacc : acc_check (snum M) (sden M) p Fd l = true.
Hypothesis Htay : is_tay p tau Fd l.
Hypothesis Htau : 0 <= tau <= 1.
Hypothesis Hsig : Rabs (D2R (reach1 M) - tau) <= 1 / 10 ^ 12.
Variable c : dec.
Hypothesis HC : scheck M c = true.
Hypothesis Hdt : 0 < dt.
Hypothesis Ha : a <= 0.
Variable u : R -> vec Rnum.
Hypothesis Hu : solution n A phi u.
Lemma Lc_sub v w : L (fun q => v q - w q) = csub (L v) (L w).
Proof.
  unfold Lc, csub, cadd, copp. cbn [fst snd].
  assert (G : forall h, dot0 n h (fun q => v q - w q) = dot0 n h v + - dot0 n h w).
  { intros h. rewrite (dot0_ext n h _ (fun q => v q + (-1) * w q)) by (intros q _; ring). rewrite dot0_add, dot0_scal. ring. }
  rewrite !G. reflexivity.
Qed.
Lemma modulus_cn v : modulus n lr li v = cn (L v).
Proof. unfold modulus, cn. rewrite Lc_norm. reflexivity. Qed.
Definition rate (r : R) : R := dt * (1 / 10 ^ 12 + 4 * (dt * r) ^ p).
Lemma z_cn : cn z = dt * cn (a, b).
Proof. replace z with (cmul (cr dt) (a, b)) by (unfold zc, cmul, cr; cbn [fst snd]; f_equal; ring). rewrite cn_scal, Rabs_pos_eq by lra. reflexivity. Qed.
Lemma D_L t : derivable_pt_lim (fun s => dot0 n lr (u s)) t (a * dot0 n lr (u t) - b * dot0 n li (u t) + dot0 n lr phi) /\
  derivable_pt_lim (fun s => dot0 n li (u s)) t (b * dot0 n lr (u t) + a * dot0 n li (u t) + dot0 n li phi).
Proof.
  destruct (He (u t)) as [E1 E2]. split.
  - eapply dl_eq; [apply (D_dot n lr u (fun q => A (u t) q + phi q)); intros q Hq; apply Hu, Hq|]. rewrite dot0_add, E1. reflexivity.
  - eapply dl_eq; [apply (D_dot n li u (fun q => A (u t) q + phi q)); intros q Hq; apply Hu, Hq|]. rewrite dot0_add, E2. reflexivity.
Qed.
Lemma L_rhs v : L (fun q => A v q + phi q) = cadd (cmul (a, b) (L v)) (L phi).
Proof. destruct (He v) as [E1 E2]. unfold Lc, cadd, cmul. cbn [fst snd]. rewrite !dot0_add, E1, E2. f_equal; ring. Qed.
Lemma step_err t v v' : 0 <= t -> estep RK n dt A phi v v' ->
  cn (csub (L v') (L (u (t + tau * dt)))) <= cn (csub (L v) (L (u t))) + rate (cn (a, b)) * cn (L (fun q => A (u 0) q + phi q)).
Proof.
  intros Ht Hst. rewrite L_rhs. destruct (Req_dec (norm2 (a, b)) 0) as [N|N].
  - assert (Eab : a = 0 /\ b = 0) by (unfold norm2 in N; cbn [fst snd] in N; pose proof (Rle_0_sqr a); pose proof (Rle_0_sqr b); unfold Rsqr in *; split; nra).
    destruct Eab as [Ea Eb]. rewrite (step_phi0 v v' Ea Eb Hst).
    assert (T1 : 0 <= t + tau * dt) by nra.
    assert (EL : forall s, 0 <= s -> L (u s) = cadd (L (u 0)) (cmul (cr s) (L phi))).
    { intros s Hs. unfold Lc, cadd, cmul, cr. cbn [fst snd]. f_equal.
      - rewrite (line_unique (fun s => dot0 n lr (u s)) (dot0 n lr phi) s Hs); [ring|]. intros r. destruct (D_L r) as [D _]. eapply dl_eq; [exact D|]. rewrite Ea, Eb. ring.
      - rewrite (line_unique (fun s => dot0 n li (u s)) (dot0 n li phi) s Hs); [ring|]. intros r. destruct (D_L r) as [_ D]. eapply dl_eq; [exact D|]. rewrite Ea, Eb. ring. }
    rewrite (EL (t + tau * dt) T1), (EL t Ht). set (U0 := L (u 0)). set (ph := L phi). set (sg := D2R (reach1 M)) in *.
    replace (csub (cadd (L v) (cmul (cr (dt * sg)) ph)) (cadd U0 (cmul (cr (t + tau * dt)) ph))) with
      (cadd (csub (L v) (cadd U0 (cmul (cr t) ph))) (cmul (cr (dt * (sg - tau))) ph)) by (apply cx_eq; unfold csub, cadd, copp, cmul, cr; cbn [fst snd]; ring).
    eapply Rle_trans; [apply cn_add|]. apply Rplus_le_compat_l. rewrite cn_scal.
    replace (cadd (cmul (a, b) U0) ph) with ph by (rewrite Ea, Eb; apply cx_eq; unfold cadd, cmul; cbn [fst snd]; ring).
    apply Rmult_le_compat_r; [apply cn_pos|]. rewrite Rabs_mult, (Rabs_pos_eq dt) by lra. unfold rate. apply Rmult_le_compat_l; [lra|].
    assert (0 <= (dt * cn (a, b)) ^ p) by (apply pow_le, Rmult_le_pos; [lra|apply cn_pos]). lra.
  - set (nn := norm2 (a, b)) in *. set (ci := (a / nn, - b / nn) : cx). assert (Eci : cmul (a, b) ci = c1).
    { unfold cmul, ci, c1. cbn [fst snd]. f_equal; [|field; exact N]. replace (a * (a / nn) - b * (- b / nn)) with ((a * a + b * b) / nn) by (field; exact N). unfold nn, norm2. cbn [fst snd]. apply Rinv_r. exact N. }
    set (w := cmul ci (L phi)). assert (Hw : cmul (a, b) w = L phi).
    { unfold w. transitivity (cmul (cmul (a, b) ci) (L phi)); [ring|]. rewrite Eci. ring. }
    assert (EV : forall s, 0 <= s -> cadd (L (u s)) w = cmul (cexp (tz (a, b) s)) (cadd (L (u 0)) w)).
    { intros s Hs. assert (w1 : a * fst w - b * snd w = dot0 n lr phi) by (change (fst (cmul (a, b) w) = dot0 n lr phi); rewrite Hw; reflexivity).
      assert (w2 : b * fst w + a * snd w = dot0 n li phi) by (rewrite Rplus_comm; change (snd (cmul (a, b) w) = dot0 n li phi); rewrite Hw; reflexivity).
      apply (exp_unique (fun s => dot0 n lr (u s) + fst w) (fun s => dot0 n li (u s) + snd w) a b s Hs).
      - intros r. destruct (D_L r) as [D _]. eapply dl_eq; [apply (derivable_pt_lim_plus (fun s => dot0 n lr (u s)) (fun _ => fst w)); [exact D|apply derivable_pt_lim_const]|]. lra.
      - intros r. destruct (D_L r) as [_ D]. eapply dl_eq; [apply (derivable_pt_lim_plus (fun s => dot0 n li (u s)) (fun _ => snd w)); [exact D|apply derivable_pt_lim_const]|]. lra. }
    assert (Hz : dt * a <= 0) by nra.
    destruct (scheck_ok M c z HC Hz) as (S1 & Hg & _). pose proof (sden_pos M z Hg Hz) as HP.
    assert (Q1 : 1 <= cn (peval (sden M) z)) by (unfold cn; rewrite <- sqrt_1; apply sqrt_le_1_alt, HP).
    assert (P1 : cn (peval (snum M) z) <= cn (peval (sden M) z)) by (apply sqrt_le_1_alt, S1).
    pose proof (acc_all (snum M) (sden M) p Fd l tau z Hacc Htay Htau Hz Q1 P1) as HA.
    pose proof (err_step _ _ (cadd (L v) w) (cadd (L v') w) (cadd (L (u t)) w) _ _ (Rlt_le_trans _ _ _ Rlt_0_1 Q1) P1 HA (step_phi w v v' Hw Hst)) as ER.
    assert (T1 : 0 <= t + tau * dt) by nra.
    replace (cmul (cexp (tz z tau)) (cadd (L (u t)) w)) with (cadd (L (u (t + tau * dt))) w) in ER.
    2: { rewrite (EV _ T1), (EV t Ht). transitivity (cmul (cmul (cexp (tz z tau)) (cexp (tz (a, b) t))) (cadd (L (u 0)) w)); [|ring]. f_equal. rewrite <- cexp_add. f_equal. unfold cadd, tz, zc. cbn [fst snd]. f_equal; ring. }
    replace (csub (cadd (L v') w) (cadd (L (u (t + tau * dt))) w)) with (csub (L v') (L (u (t + tau * dt)))) in ER by ring.
    replace (csub (cadd (L v) w) (cadd (L (u t)) w)) with (csub (L v) (L (u t))) in ER by ring.
    eapply Rle_trans; [exact ER|]. apply Rplus_le_compat_l. rewrite (EV t Ht), cn_mul.
    assert (X1 : cn (cexp (tz (a, b) t)) <= 1) by (apply cexp_le1; unfold tz; cbn [fst]; nra).
    replace (cadd (cmul (a, b) (L (u 0))) (L phi)) with (cmul (a, b) (cadd (L (u 0)) w)) by (rewrite <- Hw; ring).
    rewrite cn_mul. unfold delta, rate. rewrite z_cn. set (r := cn (a, b)). assert (r0 : 0 <= r) by apply cn_pos. set (V := cn (cadd (L (u 0)) w)). assert (V0 : 0 <= V) by apply cn_pos.
    assert (Hd : 0 <= dt * r * (1 / 10 ^ 12 + 4 * (dt * r) ^ p)).
    { apply Rmult_le_pos; [nra|]. assert (0 <= (dt * r) ^ p) by (apply pow_le; nra). lra. }
    set (e := 1 / 10 ^ 12 + 4 * (dt * r) ^ p) in *. replace (dt * e * (r * V)) with (dt * r * e * V) by ring. apply Rmult_le_compat_l; [exact Hd|]. pose proof (cn_pos (cexp (tz (a, b) t))). nra.
Qed.
Lemma steps_err k : forall t v v', 0 <= t -> esteps RK n dt A phi k v v' ->
  cn (csub (L v') (L (u (t + INR k * (tau * dt))))) <= cn (csub (L v) (L (u t))) + INR k * (rate (cn (a, b)) * cn (L (fun q => A (u 0) q + phi q))).
Proof.
  induction k as [|k IH]; intros t v v' Ht H; inversion H; subst.
  - cbn [INR]. replace (t + 0 * (tau * dt)) with t by ring. lra.
  - assert (T1 : 0 <= t + tau * dt) by nra. specialize (IH (t + tau * dt) _ _ T1 H2). pose proof (step_err t _ _ Ht H1) as E.
    rewrite S_INR. replace (t + (INR k + 1) * (tau * dt)) with (t + tau * dt + INR k * (tau * dt)) by ring. lra.
Qed.
End Step.
