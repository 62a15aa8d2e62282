(* C96: the runs of Rodas against the solution of y' = J y. *)
From Coq Require Import Reals Lra Lia Psatz Ring List.
From Verif Require Import Base Spec FieldLU HessModel CMacros VecFun HessPathProofs LayoutModel LayoutProofs LayoutCases JacModel JacProofs
  RodasModel RodasProofs RodasReal RodasTop RodasTerm RodasFinal RodasSpec RodasStep Dec RodasStab RodasStab2 RodasOrder RodasLinear Conv ConvPoly RodasConvSpec.
From Verif Require SdirkConvTop.
Import ListNotations.
Open Scope R_scope.

Notation d24 := SdirkConvTop.di.
Definition T4 : list dec := [d24 24; d24 24; d24 12; d24 4; d24 1].
Lemma rtay4 : is_tay 4 1 (d24 24) T4.
Proof. exact SdirkConvTop.tay4. Qed.

Definition acc_method (m : Z) : bool := match dcoef m with Ok C => acc_check (numer C) (denom C) 4 (d24 24) T4 | _ => false end.
Lemma rodas_acc : acc_method 1 && acc_method 2 && acc_method 3 = true.
Proof. vm_cast_no_check (eq_refl true). Qed.
Lemma rodas_acc1 m C : dcoef m = Ok C -> acc_check (numer C) (denom C) 4 (d24 24) T4 = true.
Proof.
  intros E. pose proof rodas_acc as H. apply andb_prop in H. destruct H as [H H3]. apply andb_prop in H. destruct H as [H1 H2].
  assert (F : acc_method m = true) by (destruct (dcoef_range m C E) as [->|[->| ->]]; assumption).
  unfold acc_method in F. rewrite E in F. exact F.
Qed.
Lemma denom_ge1 (D : rcoef DNum) z : 0 < D2R (rGAMMA D) -> fst z <= 0 -> 1 <= cn (peval (denom D) z).
Proof.
  intros Hg Hz. unfold denom, pq6, pq5, pq4, pq3, pq2. rewrite !peval_mul, !cn_mul.
  assert (H : 1 <= cn (peval (pq D) z)).
  { unfold cn. rewrite <- sqrt_1. apply sqrt_le_1_alt. unfold pq. cbn [peval].
    match goal with |- _ <= norm2 ?w => replace (norm2 w) with ((1 - D2R (rGAMMA D) * fst z) ^ 2 + (D2R (rGAMMA D) * snd z) ^ 2) end.
    - pose proof (pow2_ge_0 (D2R (rGAMMA D) * snd z)). nra.
    - rewrite D2R_1, D2R_opp. unfold norm2, cadd, cmul, cr, c0. cbn [fst snd]. ring. }
  set (q := cn (peval (pq D) z)) in *. assert (M : forall s t, 1 <= s -> 1 <= t -> 1 <= s * t) by (intros s t Hs Ht; nra).
  repeat first [apply M|exact H].
Qed.

Lemma D_sum1 (lo : Z) (m : nat) (f : Z -> R -> R) (g : Z -> R) t : (forall k, (lo <= k < lo + Z.of_nat m)%Z -> derivable_pt_lim (f k) t (g k)) ->
  derivable_pt_lim (fun s => rsum lo (lo + Z.of_nat m - 1) (fun k => f k s)) t (rsum lo (lo + Z.of_nat m - 1) g).
Proof.
  induction m as [|m IH]; intros H.
  - rewrite rsum_empty by lia. intros eps He. exists (mkposreal 1 Rlt_0_1). intros h Hh _. rewrite !rsum_empty by lia.
    replace ((0 - 0) / h - 0) with 0 by (field; exact Hh). rewrite Rabs_R0. exact He.
  - assert (E : forall h : Z -> R, rsum lo (lo + Z.of_nat (S m) - 1) h = rsum lo (lo + Z.of_nat m - 1) h + h (lo + Z.of_nat m)%Z).
    { intros h. replace (lo + Z.of_nat (S m) - 1)%Z with (lo + Z.of_nat m)%Z by lia. rewrite (rsum_hi lo (lo + Z.of_nat m)) by lia. reflexivity. }
    rewrite E. intros eps He. pose proof (derivable_pt_lim_plus _ _ t _ _ (IH ltac:(intros k Hk; apply H; lia)) (H (lo + Z.of_nat m)%Z ltac:(lia)) eps He) as (d & Hd).
    exists d. intros h Hh Hh2. specialize (Hd h Hh Hh2). unfold plus_fct in Hd. rewrite !E. exact Hd.
Qed.
Lemma D_dot1 (n : Z) (l : Z -> R) (u : R -> Z -> R) (d : Z -> R) t : (0 <= n)%Z -> (forall p, (1 <= p <= n)%Z -> derivable_pt_lim (fun s => u s p) t (d p)) ->
  derivable_pt_lim (fun s => dot n l (u s)) t (dot n l d).
Proof.
  intros Hn H. unfold dot. replace n with (1 + Z.of_nat (Z.to_nat n) - 1)%Z by lia.
  apply (D_sum1 1 (Z.to_nat n) (fun k s => l k * u s k)). intros k Hk. apply (derivable_pt_lim_scal (fun s => u s k)). apply H. lia.
Qed.
Lemma dot_eigen n J lr li a b v : left_eigen n J lr li a b ->
  dot n lr (fun k => rsum 1 n (fun j => J k j * v j)) = a * dot n lr v - b * dot n li v /\
  dot n li (fun k => rsum 1 n (fun j => J k j * v j)) = b * dot n lr v + a * dot n li v.
Proof. intros H. apply dot_J. exact H. Qed.
Lemma size_cn n lr li v : size n lr li v = cn (L n lr li v).
Proof. unfold size, cn, norm2, L. cbn [fst snd]. f_equal. ring. Qed.
Lemma L_sub n lr li v w : L n lr li (fun k => v k - w k) = csub (L n lr li v) (L n lr li w).
Proof.
  unfold L, csub, cadd, copp. cbn [fst snd]. rewrite !dot_sub. reflexivity.
Qed.

Section Err.
Variables (n : Z) (J : Z -> Z -> R) (lr li : Z -> R) (a b : R) (D : rcoef DNum) (m : Z).
Hypothesis Hn : (0 <= n)%Z.
Hypothesis He : left_eigen n J lr li a b.
Hypothesis Ha : a <= 0.
Hypothesis ED : dcoef m = Ok D.
Variable u : R -> Z -> R.
Hypothesis Hu : flow n J u.
Notation Lc := (L n lr li).
Lemma flow_exp t : 0 <= t -> Lc (u t) = cmul (cexp (tz (a, b) t)) (Lc (u 0)).
Proof.
  intros Ht. apply (exp_unique (fun s => dot n lr (u s)) (fun s => dot n li (u s)) a b t Ht).
  - intros s. eapply dl_eq; [apply D_dot1; [exact Hn|intros p Hp; apply Hu, Hp]|]. apply (dot_eigen n J lr li a b (u s) He).
  - intros s. eapply dl_eq; [apply D_dot1; [exact Hn|intros p Hp; apply Hu, Hp]|]. apply (dot_eigen n J lr li a b (u s) He).
Qed.
Definition G0 : R := cn (a, b) * cn (Lc (u 0)).
Lemma one_step t x h v w v' : 0 <= t -> 0 < h -> ros_step 6 n (rodas_tab (rmap D)) (linear_rhs n J) J (fun _ => 0) x h v w v' ->
  cn (csub (Lc v') (Lc (u (t + h)))) <= cn (csub (Lc v) (Lc (u t))) + h * (1 / 10 ^ 12 + 4 * (h * cn (a, b)) ^ 4) * G0.
Proof.
  intros Ht Hh HS. pose proof (gamma_pos m D ED) as Hg.
  pose proof (numer_step D n J lr li a b x h v w v' ltac:(lra) He ltac:(lra) HS) as EN.
  assert (Hz : fst (zz a b h) <= 0) by (unfold zz; cbn [fst]; nra).
  pose proof (proj1 (check_stable (denom D) (numer D) (zz a b h) (method_checked m D ED) Hz)) as S1.
  pose proof (denom_ge1 D _ Hg Hz) as Q1.
  assert (P1 : cn (peval (numer D) (zz a b h)) <= cn (peval (denom D) (zz a b h))) by (apply sqrt_le_1_alt, S1).
  pose proof (acc_all _ _ 4 (d24 24) T4 1 (zz a b h) (rodas_acc1 m D ED) rtay4 ltac:(lra) Hz Q1 P1) as HA.
  pose proof (err_step _ _ (Lc v) (Lc v') (Lc (u t)) _ _ (Rlt_le_trans _ _ _ Rlt_0_1 Q1) P1 HA EN) as ER.
  assert (T1 : 0 <= t + h) by lra.
  replace (cmul (cexp (tz (zz a b h) 1)) (Lc (u t))) with (Lc (u (t + h))) in ER.
  2: { rewrite (flow_exp _ T1), (flow_exp t Ht). transitivity (cmul (cmul (cexp (tz (zz a b h) 1)) (cexp (tz (a, b) t))) (Lc (u 0))); [|ring].
       f_equal. rewrite <- cexp_add. f_equal. unfold cadd, tz, zz. cbn [fst snd]. f_equal; ring. }
  eapply Rle_trans; [exact ER|]. apply Rplus_le_compat_l. rewrite (flow_exp t Ht), cn_mul.
  assert (X1 : cn (cexp (tz (a, b) t)) <= 1) by (apply cexp_le1; unfold tz; cbn [fst]; nra).
  replace (cn (zz a b h)) with (h * cn (a, b)).
  2: { replace (zz a b h) with (cmul (cr h) (a, b)) by (unfold zz, cmul, cr; cbn [fst snd]; f_equal; ring). rewrite cn_scal, Rabs_pos_eq by lra. reflexivity. }
  unfold delta, G0. set (r := cn (a, b)). assert (r0 : 0 <= r) by apply cn_pos. set (V := cn (Lc (u 0))). assert (V0 : 0 <= V) by apply cn_pos.
  assert (Hd : 0 <= h * r * (1 / 10 ^ 12 + 4 * (h * r) ^ 4)).
  { apply Rmult_le_pos; [nra|]. assert (0 <= (h * r) ^ 4) by (apply pow_le; nra). lra. }
  set (e := 1 / 10 ^ 12 + 4 * (h * r) ^ 4) in *. replace (h * e * (r * V)) with (h * r * e * V) by ring. apply Rmult_le_compat_l; [exact Hd|].
  pose proof (cn_pos (cexp (tz (a, b) t))). nra.
Qed.
Lemma rhs_size : size n lr li (fun k => rsum 1 n (fun l => J k l * u 0 l)) = G0.
Proof.
  rewrite size_cn. unfold L. destruct (dot_eigen n J lr li a b (u 0) He) as [E1 E2]. rewrite E1, E2. unfold G0. rewrite <- cn_mul. f_equal.
  unfold cmul, L. cbn [fst snd]. f_equal. ring.
Qed.
Lemma chain_err (step : R -> R -> (Z -> R) -> (Z -> R) -> R -> Prop) x0 y0 l x y H :
  (forall x h y y' e, step x h y y' e -> exists w, ros_step 6 n (rodas_tab (rmap D)) (linear_rhs n J) J (fun _ => 0) x h y w y') ->
  (forall k, (1 <= k <= n)%Z -> y0 k = u 0 k) -> chain step x0 y0 l x y -> (forall t h c, In (t, h, c) l -> 0 < h) -> (forall t h, In (t, h, true) l -> h <= H) ->
  x0 <= x /\ size n lr li (fun k => y k - u (x - x0) k) <= (x - x0) * (1 / 10 ^ 12 + 4 * (H * sqrt (a ^ 2 + b ^ 2)) ^ 4) * size n lr li (fun k => rsum 1 n (fun l => J k l * u 0 l)).
Proof.
  intros HS Hy HC Hp HB. rewrite rhs_size, size_cn, L_sub.
  replace (sqrt (a ^ 2 + b ^ 2)) with (cn (a, b)) by (unfold cn, norm2; cbn [fst snd]; f_equal; ring).
  induction HC as [|l x y h y' err HC IH HT Hr|l x y h y' err HC IH HT Hr].
  - split; [lra|]. replace (x0 - x0) with 0 by ring. assert (EL : Lc y0 = Lc (u 0)).
    { unfold L, dot. f_equal; apply rsum_ext; intros k Hk; rewrite (Hy k Hk); reflexivity. }
    rewrite EL. replace (csub (Lc (u 0)) (Lc (u 0))) with c0 by ring. rewrite cn_0. lra.
  - destruct IH as [Ix IE]; [intros t h0 c Hin; apply (Hp t h0 c); right; exact Hin|intros t h0 Hin; apply (HB t h0); right; exact Hin|].
    pose proof (Hp x h true ltac:(left; reflexivity)) as Hh. pose proof (HB x h ltac:(left; reflexivity)) as HhH.
    split; [lra|]. destruct (HS _ _ _ _ _ HT) as (w & Hw). pose proof (one_step (x - x0) x h y w y' ltac:(lra) Hh Hw) as E.
    replace (x + h - x0) with (x - x0 + h) by ring. eapply Rle_trans; [exact E|].
    eapply Rle_trans; [apply Rplus_le_compat_r; exact IE|].
    assert (G : 0 <= G0) by (apply Rmult_le_pos; apply cn_pos). pose proof (cn_pos (a, b)) as r0.
    assert (HP : (h * cn (a, b)) ^ 4 <= (H * cn (a, b)) ^ 4) by (apply pow_incr; split; [nra|apply Rmult_le_compat_r; lra]).
    set (e1 := (h * cn (a, b)) ^ 4) in *. set (e2 := (H * cn (a, b)) ^ 4) in *.
    assert (K : h * (1 / 10 ^ 12 + 4 * e1) * G0 <= h * (1 / 10 ^ 12 + 4 * e2) * G0) by (apply Rmult_le_compat_r; [exact G|]; apply Rmult_le_compat_l; lra).
    clearbody e1 e2. lra.
  - apply IH; [intros t h0 c Hin; apply (Hp t h0 c); right; exact Hin|intros t h0 Hin; apply (HB t h0); right; exact Hin].
Qed.
End Err.
