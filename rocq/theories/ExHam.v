(* The Hamiltonians of the planetary examples. *)
From Coq Require Import Reals Lra.
From Verif Require Import Base Spec HessModel HessPathProofs LayoutModel ExModel ExSpec ExGrid ExOuter.
Open Scope Z_scope.

(* ---- derivatives ---------------------------------------------------------- *)
Lemma dpl_rsum lo hi (f : Z -> R -> R) (d : Z -> R) x : (forall i, lo <= i <= hi -> derivable_pt_lim (f i) x (d i)) ->
  derivable_pt_lim (fun t => rsum lo hi (fun i => f i t)) x (rsum lo hi d).
Proof.
  intros H. destruct (Z_lt_le_dec hi lo) as [E|E].
  - rewrite rsum_empty by lia. apply (dpl_ext (fun _ => 0%R)). { intros. rewrite rsum_empty by lia. reflexivity. } apply derivable_pt_lim_const.
  - assert (exists k, hi = lo + Z.of_nat k) as [k ->] by (exists (Z.to_nat (hi - lo)); lia). clear E. revert H.
    induction k as [|k IH]; intros H.
    + change (Z.of_nat 0) with 0. rewrite Z.add_0_r. rewrite rsum_hi, rsum_empty by lia.
      apply (dpl_ext (fun t => 0 + f lo t)%R). { intros. rewrite rsum_hi, rsum_empty by lia. reflexivity. }
      apply (derivable_pt_lim_plus (fun _ => 0%R) (f lo)); [apply derivable_pt_lim_const|apply H; lia].
    + rewrite rsum_hi by lia. replace (lo + Z.of_nat (S k) - 1) with (lo + Z.of_nat k) by lia.
      apply (dpl_ext (fun t => rsum lo (lo + Z.of_nat k)%Z (fun i => f i t) + f (lo + Z.of_nat (S k))%Z t)%R).
      { intros. rewrite (rsum_hi lo (lo + Z.of_nat (S k))) by lia. replace (lo + Z.of_nat (S k) - 1) with (lo + Z.of_nat k) by lia. reflexivity. }
      apply (derivable_pt_lim_plus (fun t => rsum lo (lo + Z.of_nat k) (fun i => f i t)) (f (lo + Z.of_nat (S k)))); [apply IH; intros; apply H; lia|apply H; lia].
Qed.
Lemma dpl_aff a b : derivable_pt_lim (fun t => a + t * b)%R 0 b.
Proof.
  apply (dpl_ext (fun t => a + b * t)%R). { intros; ring. } eapply dpl_val; [|apply (derivable_pt_lim_plus (fun _ => a) (fun t => b * t)%R)].
  2: apply derivable_pt_lim_const. 2: apply (derivable_pt_lim_scal id b 0), derivable_pt_lim_id. ring.
Qed.
Lemma dpl_sq f x d : derivable_pt_lim f x d -> derivable_pt_lim (fun t => f t * f t)%R x (2 * f x * d)%R.
Proof. intros H. eapply dpl_val; [|apply (derivable_pt_lim_mult f f); exact H]. ring. Qed.
Lemma dpl_inv_sqrt D x d : (0 < D x)%R -> derivable_pt_lim D x d ->
  derivable_pt_lim (fun t => 1 / sqrt (D t))%R x (- d / (2 * (sqrt (D x) * sqrt (D x) * sqrt (D x))))%R.
Proof.
  intros Hp H. pose proof (sqrt_lt_R0 _ Hp) as Hs.
  assert (H1 : derivable_pt_lim (fun t => sqrt (D t)) x (/ (2 * sqrt (D x)) * d)%R).
  { apply (derivable_pt_lim_comp D sqrt); [exact H|]. apply derivable_pt_lim_sqrt, Hp. }
  eapply dpl_val; [|apply (derivable_pt_lim_div (fun _ => 1%R) (fun t => sqrt (D t)) x 0 _ (derivable_pt_lim_const 1 x) H1)].
  - unfold Rsqr. cbv beta. field. lra.
  - cbv beta. lra.
Qed.

(* ---- Kepler2.hpp ----------------------------------------------------------- *)
Definition kepler_F (x : Z -> R) (i : Z) : R := match i with
  | 0 => (- x 2%Z)%R | 1 => (- x 3%Z)%R
  | 2 => (x 0%Z / sqrt ((x 0%Z * x 0%Z + x 1%Z * x 1%Z) * (x 0%Z * x 0%Z + x 1%Z * x 1%Z) * (x 0%Z * x 0%Z + x 1%Z * x 1%Z)))%R
  | _ => (x 1%Z / sqrt ((x 0%Z * x 0%Z + x 1%Z * x 1%Z) * (x 0%Z * x 0%Z + x 1%Z * x 1%Z) * (x 0%Z * x 0%Z + x 1%Z * x 1%Z)))%R end.
Lemma kepler_computes : computes 4 (kepler_rhs (K := Rnum)) kepler_F.
Proof.
  intros y res. unfold kepler_rhs. rewrite !rd_ok by lia. cbn [bind]. rewrite wr_ok by lia. cbn [bind]. rewrite wr_ok by lia. cbn [bind]. rewrite wr_ok by lia. cbn [bind]. rewrite wr_ok by lia. cbn [wp].
  intros i Hi. assert (C : i = 0 \/ i = 1 \/ i = 2 \/ i = 3) by lia. destruct C as [-> | [-> | [-> | ->]]]; reflexivity.
Qed.
Definition kepler_Hv (x : Z -> R) : R := (1/2 * (x 2%Z * x 2%Z + x 3%Z * x 3%Z) - 1 / sqrt (x 0%Z * x 0%Z + x 1%Z * x 1%Z))%R.
Lemma kepler_H_ok (x : Z -> R) : kepler_H (K := Rnum) x = Ok (kepler_Hv x).
Proof. unfold kepler_H, kepler_Hv. rewrite !rd_ok by lia. cbn [bind]. f_equal. cbn. rewrite Rlit_0. unfold Rlit. simpl. replace (5 * / (10 * 1))%R with (1/2)%R by lra. reflexivity. Qed.
Lemma kepler_rate x : (x 0%Z * x 0%Z + x 1%Z * x 1%Z <> 0)%R -> rate 4 kepler_Hv kepler_F x 0.
Proof.
  intros HN. unfold rate.
  set (D := fun t => ((x 0%Z + t * kepler_F x 0%Z) * (x 0%Z + t * kepler_F x 0%Z) + (x 1%Z + t * kepler_F x 1%Z) * (x 1%Z + t * kepler_F x 1%Z))%R).
  set (T := fun t => ((x 2%Z + t * kepler_F x 2%Z) * (x 2%Z + t * kepler_F x 2%Z) + (x 3%Z + t * kepler_F x 3%Z) * (x 3%Z + t * kepler_F x 3%Z))%R).
  apply (dpl_ext (fun t => 1/2 * T t - 1 / sqrt (D t))%R). { intros t. unfold kepler_Hv. reflexivity. }
  assert (HD0 : D 0%R = (x 0%Z * x 0%Z + x 1%Z * x 1%Z)%R) by (unfold D; ring).
  assert (Hp : (0 < D 0)%R). { rewrite HD0. pose proof (Rle_0_sqr (x 0)). pose proof (Rle_0_sqr (x 1)). unfold Rsqr in *. lra. }
  assert (HD : derivable_pt_lim D 0 (2 * (x 0%Z + 0 * kepler_F x 0%Z) * kepler_F x 0%Z + 2 * (x 1%Z + 0 * kepler_F x 1%Z) * kepler_F x 1%Z)%R).
  { unfold D. apply (derivable_pt_lim_plus (fun t => (x 0%Z + t * kepler_F x 0%Z) * (x 0%Z + t * kepler_F x 0%Z))%R (fun t => (x 1%Z + t * kepler_F x 1%Z) * (x 1%Z + t * kepler_F x 1%Z))%R);
    [apply (dpl_sq (fun t => x 0%Z + t * kepler_F x 0%Z)%R)|apply (dpl_sq (fun t => x 1%Z + t * kepler_F x 1%Z)%R)]; apply dpl_aff. }
  assert (HT : derivable_pt_lim T 0 (2 * (x 2%Z + 0 * kepler_F x 2%Z) * kepler_F x 2%Z + 2 * (x 3%Z + 0 * kepler_F x 3%Z) * kepler_F x 3%Z)%R).
  { unfold T. apply (derivable_pt_lim_plus (fun t => (x 2%Z + t * kepler_F x 2%Z) * (x 2%Z + t * kepler_F x 2%Z))%R (fun t => (x 3%Z + t * kepler_F x 3%Z) * (x 3%Z + t * kepler_F x 3%Z))%R);
    [apply (dpl_sq (fun t => x 2%Z + t * kepler_F x 2%Z)%R)|apply (dpl_sq (fun t => x 3%Z + t * kepler_F x 3%Z)%R)]; apply dpl_aff. }
  eapply dpl_val; [|apply (derivable_pt_lim_minus (fun t => 1/2 * T t)%R (fun t => 1 / sqrt (D t))%R); [apply (derivable_pt_lim_scal T); exact HT|apply dpl_inv_sqrt; [exact Hp|exact HD]]].
  rewrite HD0 in *. cbn [kepler_F]. set (r := (x 0%Z * x 0%Z + x 1%Z * x 1%Z)%R) in *.
  assert (E : sqrt (r * r * r) = (sqrt r * sqrt r * sqrt r)%R). { rewrite !sqrt_mult_alt; try nra. }
  rewrite E. pose proof (sqrt_lt_R0 _ Hp). field. lra.
Qed.

(* ---- Outer*.hpp ------------------------------------------------------------ *)
Lemma tri_swap (a : Z -> Z -> R) n : 0 <= n + 1 ->
  rsum 0 n (fun l => rsum (l + 1) n (a l)) = rsum 0 n (fun j => rsum 0 (j - 1) (fun l => a l j)).
Proof.
  intros Hn. assert (exists k, n = Z.of_nat k - 1) as [k ->] by (exists (Z.to_nat (n + 1)); lia). clear Hn.
  induction k as [|k IH]. { rewrite !rsum_empty by lia. reflexivity. }
  rewrite (rsum_hi 0 _ (fun j => rsum 0 (j - 1) _)) by lia. rewrite (rsum_hi 0 (Z.of_nat (S k) - 1)) by lia.
  replace (Z.of_nat (S k) - 1 - 1) with (Z.of_nat k - 1) by lia. rewrite <- IH.
  rewrite (rsum_empty (Z.of_nat (S k) - 1 + 1)) by lia. rewrite Rplus_0_r, <- rsum_add. apply rsum_ext. intros l Hl.
  rewrite (rsum_hi (l + 1) (Z.of_nat (S k) - 1)) by lia. f_equal. f_equal. lia.
Qed.

Lemma wp_eq {A} (e : out A) v : wp e (fun r => r = v) -> e = Ok v.
Proof. destruct e; simpl; intros H; try contradiction. congruence. Qed.
Section Outer.
Local Open Scope Z_scope.
Variables (nb : Z) (m : Z -> R) (G : R).
Hypothesis Hnb : 2 <= nb.
Hypothesis Hm : forall i, 0 <= i < nb -> m i <> 0%R.
Definition outer_Hv (x : Z -> R) : R :=
  (rsum 0 (nb - 1)%Z (fun i => rsum 0 2 (fun s => mom nb x i s * mom nb x i s) / m i) / 2
   - G * rsum 1 (nb - 1)%Z (fun i => rsum 0 (i - 2)%Z (fun j => m i * m j / sqrt (dist2 x i j))))%R.
Lemma outer_H_ok (x : Z -> R) : outer_H (K := Rnum) nb m G x = Ok (outer_Hv x).
Proof.
  unfold outer_H.
  assert (E1 : forM 0 (nb - 1) (fun i r => d <- outer_dot (K := Rnum) nb x i ;; mi <- rd 0 (nb - 1) m i ;; Ok (r + d / mi)%num) (Rlit 0 0)
     = Ok (rsum 0 (nb - 1)%Z (fun i => rsum 0 2 (fun s => mom nb x i s * mom nb x i s) / m i)%R)).
  { set (P := fun (k : Z) (r : R) => r = rsum 0 (k - 1)%Z (fun i => rsum 0 2 (fun s => mom nb x i s * mom nb x i s) / m i)%R).
    match goal with |- ?e = _ => assert (HL : wp e (P (nb - 1 + 1))) end.
    { apply forM_ind; [lia| |].
      - unfold P. rewrite rsum_empty by lia. apply Rlit_0.
      - intros i r Hi HP. unfold outer_dot. rewrite forM3. rr. cbn [wp]. unfold P in *. subst r.
        replace (i + 1 - 1) with i by lia. rewrite (rsum_hi 0 i) by lia. rewrite rsum02. unfold mom. cbn. rewrite Rlit_0. f_equal. f_equal. ring. }
    apply wp_eq. refine (wp_mono _ _ _ HL _). intros r Hr. unfold P in Hr. replace (nb - 1 + 1 - 1) with (nb - 1) in Hr by lia. exact Hr. }
  refine (eq_trans (f_equal (fun o => bind o _) E1) _). cbn [bind].
  assert (E2 : forM 1 (nb - 1) (fun i s => mi <- rd 0 (nb - 1) m i ;; forM 0 (i - 2) (fun j s =>
         mj <- rd 0 (nb - 1) m j ;; d <- diff2 (K := Rnum) nb x i j ;; Ok (s + mi * mj / nsqrt d)%num) s) (Rlit 0 0)
     = Ok (rsum 1 (nb - 1)%Z (fun i => rsum 0 (i - 2)%Z (fun j => m i * m j / sqrt (dist2 x i j))%R))).
  { set (P := fun (k : Z) (r : R) => r = rsum 1 (k - 1)%Z (fun i => rsum 0 (i - 2)%Z (fun j => m i * m j / sqrt (dist2 x i j))%R)).
    match goal with |- ?e = _ => assert (HL : wp e (P (nb - 1 + 1))) end.
    { apply forM_ind; [lia| |].
      - unfold P. rewrite rsum_empty by lia. apply Rlit_0.
      - intros i r Hi HP. apply wp_rd; [lia|].
        set (Q := fun (k : Z) (q : R) => q = (r + rsum 0 (k - 1)%Z (fun j => m i * m j / sqrt (dist2 x i j)))%R).
        match goal with |- wp ?e _ => assert (HQ : wp e (Q (i - 2 + 1))) end.
        { apply forM_ind; [lia| |].
          - unfold Q. rewrite rsum_empty by lia. symmetry. apply Rplus_0_r.
          - intros j q Hj HQ. apply wp_rd; [lia|]. rewrite diff2_ok by lia. cbn [bind wp]. unfold Q in *. subst q.
            replace (j + 1 - 1) with j by lia. rewrite (rsum_hi 0 j) by lia. apply Rplus_assoc. }
        refine (wp_mono _ _ _ HQ _). intros q Hq. unfold P, Q in *. subst q r. replace (i + 1 - 1) with i by lia. rewrite (rsum_hi 1 i) by lia.
        f_equal. f_equal. lia. }
    apply wp_eq. refine (wp_mono _ _ _ HL _). intros r Hr. unfold P in Hr. replace (nb - 1 + 1 - 1) with (nb - 1) in Hr by lia. exact Hr. }
  refine (eq_trans (f_equal (fun o => bind o _) E2) _). cbn [bind]. f_equal. unfold outer_Hv. cbn. rewrite Rlit_0. reflexivity.
Qed.

Definition outer_F (x : Z -> R) (i : Z) : R := (- newton_field nb m G x i)%R.
Lemma outer_computes cap : 21 * nb <= cap -> computes (6 * nb) (outer_rhs (K := Rnum) nb m G cap) outer_F.
Proof. intros Hc y res. eapply wp_mono; [apply outer_run; [exact Hnb|exact Hc]|]. cbv beta. intros r (H & _). exact H. Qed.

(* the moving state *)
Definition along (x : Z -> R) (t : R) : Z -> R := fun i => if inb 0 (6 * nb - 1) i then (x i + t * outer_F x i)%R else x i.
Lemma along_pos x t l s : 0 <= l < nb -> 0 <= s <= 2 -> pos (along x t) l s = (pos x l s + t * - (mom nb x l s / m l))%R.
Proof.
  intros Hl Hs. unfold pos, along. rewrite inb_true by lia. unfold outer_F, newton_field. rewrite (proj2 (Z.ltb_lt _ _)) by lia.
  replace ((3 * l + s) / 3) with l by (rewrite (Z.mul_comm 3 l), Z.div_add_l, Z.div_small; lia). reflexivity.
Qed.
Lemma along_mom x t l s : 0 <= l < nb -> 0 <= s <= 2 -> mom nb (along x t) l s = (mom nb x l s + t * - force nb m G x l s)%R.
Proof.
  intros Hl Hs. unfold mom, along. rewrite inb_true by lia. unfold outer_F, newton_field. rewrite (proj2 (Z.ltb_ge _ _)) by lia.
  replace (3 * nb + (3 * l + s) - 3 * nb) with (l * 3 + s) by lia.
  rewrite Z.div_add_l by lia. rewrite (Z.div_small s 3) by lia. rewrite Z.add_0_r.
  rewrite (Z.add_comm (l * 3) s), Z_mod_plus_full, (Z.mod_small s 3) by lia. reflexivity.
Qed.
Lemma dist2_nonneg x i j : (0 <= dist2 x i j)%R.
Proof. unfold dist2. rewrite rsum02. assert (forall a, 0 <= a * a)%R by (intros; apply Rle_0_sqr). pose proof (H (pos x i 0 - pos x j 0)%R). pose proof (H (pos x i 1 - pos x j 1)%R). pose proof (H (pos x i 2 - pos x j 2)%R). lra. Qed.
Lemma rsum_scal_r lo hi f c : rsum lo hi (fun i => f i * c)%R = (rsum lo hi f * c)%R.
Proof. rewrite Rmult_comm, <- rsum_scal. apply rsum_ext. intros. ring. Qed.

Lemma kin_rate x : derivable_pt_lim (fun t => rsum 0 (nb - 1)%Z (fun i => rsum 0 2 (fun s => mom nb (along x t) i s * mom nb (along x t) i s) / m i) / 2)%R 0
   (rsum 0 (nb - 1)%Z (fun l => rsum 0 2 (fun s => mom nb x l s / m l * - force nb m G x l s)))%R.
Proof.
  apply (dpl_ext (fun t => rsum 0 (nb - 1)%Z (fun i => rsum 0 2 (fun s => / (2 * m i) * ((mom nb x i s + t * - force nb m G x i s) * (mom nb x i s + t * - force nb m G x i s)))))%R).
  { intros t. unfold Rdiv at 1. rewrite <- rsum_scal_r. apply rsum_ext. intros i Hi. rewrite rsum_scal. unfold Rdiv. rewrite Rmult_assoc, Rmult_comm.
    f_equal; [apply rsum_ext; intros s Hs; rewrite along_mom by lia; reflexivity|]. field. apply Hm. lia. }
  apply dpl_rsum. intros i Hi. apply dpl_rsum. intros s Hs.
  eapply dpl_val; [|apply (derivable_pt_lim_scal (fun t => (mom nb x i s + t * - force nb m G x i s) * (mom nb x i s + t * - force nb m G x i s))%R); apply (dpl_sq (fun t => mom nb x i s + t * - force nb m G x i s)%R), dpl_aff].
  cbv beta. field. apply Hm. lia.
Qed.
Lemma dist2_rate x i j : 0 <= i < nb -> 0 <= j < nb -> derivable_pt_lim (fun t => dist2 (along x t) i j) 0
  (- 2 * rsum 0 2 (fun s => (pos x i s - pos x j s) * (mom nb x i s / m i - mom nb x j s / m j)))%R.
Proof.
  intros Hi Hj. rewrite <- rsum_scal.
  apply (dpl_ext (fun t => rsum 0 2 (fun s => ((pos x i s - pos x j s) + t * - (mom nb x i s / m i - mom nb x j s / m j)) * ((pos x i s - pos x j s) + t * - (mom nb x i s / m i - mom nb x j s / m j))))%R).
  { intros t. unfold dist2. apply rsum_ext. intros s Hs. rewrite !along_pos by lia. ring. }
  apply dpl_rsum. intros s Hs.
  eapply dpl_val; [|apply (dpl_sq (fun t => (pos x i s - pos x j s) + t * - (mom nb x i s / m i - mom nb x j s / m j))%R), dpl_aff].
  cbv beta. ring.
Qed.
Lemma along_0 x i j : 0 <= i < nb -> 0 <= j < nb -> dist2 (along x 0) i j = dist2 x i j.
Proof. intros Hi Hj. unfold dist2. apply rsum_ext. intros s Hs. rewrite !along_pos by lia. ring. Qed.
Lemma pot_rate x : apart nb x -> derivable_pt_lim (fun t => G * rsum 1 (nb - 1)%Z (fun i => rsum 0 (i - 2)%Z (fun j => m i * m j / sqrt (dist2 (along x t) i j))))%R 0
  (rsum 1 (nb - 1)%Z (fun i => rsum 0 (i - 2)%Z (fun j => work nb m G x i j))).
Proof.
  intros HA.
  apply (dpl_ext (fun t => rsum 1 (nb - 1)%Z (fun i => rsum 0 (i - 2)%Z (fun j => G * m i * m j * (1 / sqrt (dist2 (along x t) i j)))))%R).
  { intros t. rewrite <- rsum_scal. apply rsum_ext. intros i Hi. rewrite <- rsum_scal. apply rsum_ext. intros j Hj. unfold Rdiv. ring. }
  apply dpl_rsum. intros i Hi. apply dpl_rsum. intros j Hj.
  assert (Hp : (0 < dist2 (along x 0) i j)%R).
  { rewrite along_0 by lia. pose proof (dist2_nonneg x i j). pose proof (HA i j ltac:(lia) ltac:(lia) ltac:(lia)). lra. }
  eapply dpl_val; [|apply (derivable_pt_lim_scal (fun t => 1 / sqrt (dist2 (along x t) i j))%R); apply (dpl_inv_sqrt (fun t => dist2 (along x t) i j)); [exact Hp|apply dist2_rate; lia]].
  cbv beta. rewrite along_0 in * by lia. unfold work. pose proof (sqrt_lt_R0 _ Hp). field. lra.
Qed.
(* the work of all the pairs *)
Lemma kin_pairs x : rsum 0 (nb - 1)%Z (fun l => rsum 0 2 (fun s => mom nb x l s / m l * - force nb m G x l s))%R
  = rsum 0 (nb - 1)%Z (fun l => rsum 0 (l - 1)%Z (fun j => work nb m G x l j)).
Proof.
  set (a := fun l j => (G * m l * m j * rsum 0 2 (fun s => (pos x l s - pos x j s) * (mom nb x l s / m l)) / (sqrt (dist2 x l j) * sqrt (dist2 x l j) * sqrt (dist2 x l j)))%R).
  transitivity (rsum 0 (nb - 1)%Z (fun l => rsum 0 (l - 1)%Z (a l) + rsum (l + 1)%Z (nb - 1)%Z (a l)))%R.
  { apply rsum_ext. intros l Hl.
    assert (Ha : forall lo hi, rsum lo hi (a l) = rsum 0 2 (fun s => mom nb x l s / m l * rsum lo hi (pull m G x l s))%R).
    { intros lo hi. rewrite rsum02. rewrite <- !rsum_scal, <- !rsum_add. apply rsum_ext. intros j Hj. unfold a, pull. rewrite rsum02. unfold Rdiv. ring. }
    rewrite !Ha, <- rsum_add. apply rsum_ext. intros s Hs. rewrite <- pull_force by lia. ring. }
  rewrite rsum_add, (tri_swap a (nb - 1)), <- rsum_add by lia. apply rsum_ext. intros l Hl. rewrite <- rsum_add. apply rsum_ext. intros j Hj.
  unfold a, work. rewrite (dist2_sym x j l), !rsum02. unfold Rdiv. ring.
Qed.
(* H does not vary by zero but by the work of the pairs of neighbours, which H omits *)
Lemma outer_H_rate x : apart nb x -> rate (6 * nb) outer_Hv outer_F x (rsum 1 (nb - 1)%Z (fun i => work nb m G x i (i - 1)%Z)).
Proof.
  intros HA. unfold rate. change (derivable_pt_lim (fun t => outer_Hv (along x t)) 0 (rsum 1 (nb - 1)%Z (fun i => work nb m G x i (i - 1)%Z))).
  unfold outer_Hv.
  eapply dpl_val; [|apply (derivable_pt_lim_minus (fun t => rsum 0 (nb - 1)%Z (fun i => rsum 0 2 (fun s => mom nb (along x t) i s * mom nb (along x t) i s) / m i) / 2)%R
     (fun t => G * rsum 1 (nb - 1)%Z (fun i => rsum 0 (i - 2)%Z (fun j => m i * m j / sqrt (dist2 (along x t) i j))))%R); [apply kin_rate|apply pot_rate, HA]].
  rewrite kin_pairs. rewrite (rsum_lo 0 (nb - 1)) by lia. rewrite (rsum_empty 0 (0 - 1)) by lia. rewrite Rplus_0_l, <- rsum_sub. change (0 + 1) with 1.
  apply rsum_ext. intros i Hi. rewrite (rsum_hi 0 (i - 1)) by lia. replace (i - 1 - 1) with (i - 2) by lia. ring.
Qed.
(* bodies on a line, only the first one moving *)
Definition line_state (i : Z) : R := if i =? 3 * nb then m 0 else if (i <? 3 * nb) && (i mod 3 =? 0) then IZR (i / 3) else 0%R.
Lemma line_pos l s : 0 <= l < nb -> 0 <= s <= 2 -> pos line_state l s = if s =? 0 then IZR l else 0%R.
Proof.
  intros Hl Hs. unfold pos, line_state. rewrite (proj2 (Z.eqb_neq _ _)) by lia. rewrite (proj2 (Z.ltb_lt _ _)) by lia. cbn [andb].
  replace (3 * l + s) with (s + l * 3) by lia. rewrite Z_mod_plus_full, Z.mod_small by lia.
  destruct (Z.eqb_spec s 0) as [->|]; [|reflexivity]. f_equal. rewrite Z.div_add by lia. reflexivity.
Qed.
Lemma line_mom l s : 0 <= l < nb -> 0 <= s <= 2 -> mom nb line_state l s = if (l =? 0) && (s =? 0) then m 0 else 0%R.
Proof.
  intros Hl Hs. unfold mom, line_state. rewrite (proj2 (Z.ltb_ge _ _)) by lia. cbn [andb].
  destruct (Z.eqb_spec (3 * nb + (3 * l + s)) (3 * nb)), (Z.eqb_spec l 0), (Z.eqb_spec s 0); try lia; reflexivity.
Qed.
Lemma line_dist2 i j : 0 <= i < nb -> 0 <= j < nb -> dist2 line_state i j = ((IZR i - IZR j) * (IZR i - IZR j))%R.
Proof. intros Hi Hj. unfold dist2. rewrite rsum02, !line_pos by lia. cbn. ring. Qed.
Lemma line_apart : apart nb line_state.
Proof. intros i j Hi Hj Hne. rewrite line_dist2 by lia. intros E. apply Rmult_integral in E. apply Hne, eq_IZR. lra. Qed.
Lemma line_work : rsum 1 (nb - 1)%Z (fun i => work nb m G line_state i (i - 1)) = (- (G * m 0%Z * m 1%Z))%R.
Proof.
  rewrite rsum_lo by lia. rewrite (rsum_zero (1 + 1)).
  - unfold work. rewrite line_dist2 by lia. rewrite rsum02, !line_pos, !line_mom by lia. cbn.
    replace ((1 - 0) * (1 - 0))%R with 1%R by ring. rewrite sqrt_1. pose proof (Hm 0 ltac:(lia)). pose proof (Hm 1 ltac:(lia)). field. split; assumption.
  - intros i Hi. unfold work. rewrite rsum02, !line_mom by lia. rewrite (proj2 (Z.eqb_neq i 0)), (proj2 (Z.eqb_neq (i - 1) 0)) by lia. cbn [andb]. unfold Rdiv. ring.
Qed.
End Outer.
