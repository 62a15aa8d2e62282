(* C45: quadratic invariants. *)
From Coq Require Import Reals Lra.
From Verif Require Import Base FieldLU HessModel Spec HessPathProofs SympModel SympSpec SympProofs SympTop.
Open Scope R_scope.

Lemma rsum_swap lo hi lo2 hi2 (g : Z -> Z -> R) : rsum lo hi (fun i => rsum lo2 hi2 (fun j => g i j)) = rsum lo2 hi2 (fun j => rsum lo hi (fun i => g i j)).
Proof. unfold rsum. apply (sum_swap R 0 1 Rplus Rmult Rminus Ropp). exact RTheory. Qed.
Lemma mul3' (c v w : R) : c * v * w = c * w * v.
Proof. ring. Qed.
Lemma mul3'' (c d v w : R) : d * (c * v) * w = c * (d * v * w).
Proof. ring. Qed.
Lemma distr (c v v' w : R) : c * (v + v') * w = c * v * w + c * v' * w.
Proof. ring. Qed.
Lemma add_sub (v w : R) : v - w + w = v.
Proof. ring. Qed.
Lemma mulsum m (c k : Z -> R) (d y : R) : rsum 0 m (fun i => c i * (d * k i * y)) = d * rsum 0 m (fun i => c i * k i) * y.
Proof.
  rewrite <- rsum_scal. rewrite Rmult_comm. rewrite <- rsum_scal. apply rsum_ext. intros. ring.
Qed.
Section Q.
Variables (n s : Z) (C : Z -> Z -> R).
Hypothesis Csym : forall p q, (0 <= p < n)%Z -> (0 <= q < n)%Z -> C p q = C q p.
Notation B := (bil n C).
Lemma bil_ext x x' y y' : (forall p, (0 <= p < n)%Z -> x p = x' p) -> (forall p, (0 <= p < n)%Z -> y p = y' p) -> B x y = B x' y'.
Proof. intros H1 H2. apply rsum_ext. intros p Hp. apply rsum_ext. intros q Hq. rewrite H1, H2 by lia. reflexivity. Qed.
Lemma bil_sym x y : B x y = B y x.
Proof.
  unfold bil. rewrite rsum_swap. apply rsum_ext. intros p Hp. apply rsum_ext. intros q Hq. rewrite (Csym q p) by lia.
  set (c := C p q). set (v := x q). set (w := y p). clearbody c v w. cbn [car Rnum] in *. apply mul3'.
Qed.
Lemma bil_add x x' y : B (fun p => x p + x' p) y = B x y + B x' y.
Proof.
  unfold bil. rewrite <- rsum_add. apply rsum_ext. intros p Hp. rewrite <- rsum_add. apply rsum_ext. intros q Hq. apply distr.
Qed.
Lemma bil_comb m (c : Z -> R) (k : Z -> vec Rnum) y : B (fun p => rsum 0 m (fun i => c i * k i p)) y = rsum 0 m (fun i => c i * B (k i) y).
Proof.
  unfold bil.
  transitivity (rsum 0 (n - 1) (fun p => rsum 0 m (fun i => c i * rsum 0 (n - 1) (fun q => C p q * k i p * y q)))).
  { apply rsum_ext. intros p Hp.
    transitivity (rsum 0 (n - 1) (fun q => rsum 0 m (fun i => c i * (C p q * k i p * y q)))).
    - apply rsum_ext. intros q Hq. rewrite <- (mulsum m c (fun i => k i p) (C p q) (y q)). reflexivity.
    - rewrite rsum_swap. apply rsum_ext. intros i Hi. apply rsum_scal. }
  rewrite rsum_swap. apply rsum_ext. intros i Hi. apply rsum_scal.
Qed.
Lemma bil_scal c x y : B (fun p => c * x p) y = c * B x y.
Proof. unfold bil. rewrite <- rsum_scal. apply rsum_ext. intros p Hp. rewrite <- rsum_scal. apply rsum_ext. intros q Hq. apply mul3''. Qed.
(* u + h sum c_i k_i *)
Lemma bil_lin u h m (c : Z -> R) (k : Z -> vec Rnum) y : B (fun p => u p + h * rsum 0 m (fun i => c i * k i p)) y = B u y + h * rsum 0 m (fun i => c i * B (k i) y).
Proof. rewrite bil_add. rewrite bil_scal, bil_comb. reflexivity. Qed.

Variables (a : Z -> Z -> R) (b : Z -> R) (h : R) (f : vec Rnum -> vec Rnum) (u : vec Rnum).
Hypothesis Hq : forall y, B y (f y) = 0.
Lemma drift Y : let k i := f (Y i) in let u' := advanced s b h f u Y in
  B u' u' - B u u = 2 * h * rsum 0 (s - 1) (fun i => b i * B (fun l => stage_eq s a h f u Y i l - Y i l) (k i))
    - h * h * rsum 0 (s - 1) (fun i => rsum 0 (s - 1) (fun j => cooper a b i j * B (k i) (k j))).
Proof.
  intros k u'. set (W := fun i j => B (k i) (k j)).
  assert (Wsym : forall i j, W i j = W j i) by (intros; apply bil_sym).
  set (U := fun i => B u (k i)). set (D := fun i => B (fun l => stage_eq s a h f u Y i l - Y i l) (k i)).
  (* the stages *)
  assert (HD : forall i, D i = U i + h * rsum 0 (s - 1) (fun j => a i j * W j i)).
  { intros i. unfold D, U, W. rewrite <- bil_lin. rewrite <- (Rplus_0_r (B (fun _ => _) _)). rewrite <- (Hq (Y i)) at 1.
    unfold k at 1 3. rewrite <- bil_add. apply bil_ext; [|reflexivity]. intros p Hp. unfold stage_eq. apply add_sub. }
  assert (H1 : B u' u' - B u u = 2 * h * rsum 0 (s - 1) (fun i => b i * U i) + h * h * rsum 0 (s - 1) (fun i => rsum 0 (s - 1) (fun j => b i * b j * W i j))).
  { assert (E1 : forall y, B u' y = B u y + h * rsum 0 (s - 1) (fun i => b i * B (k i) y)) by (intros y; apply bil_lin).
    rewrite (E1 u'). rewrite (bil_sym u u'). rewrite (E1 u).
    assert (E2 : rsum 0 (s - 1) (fun i => b i * B (k i) u') = rsum 0 (s - 1) (fun i => b i * U i) + h * rsum 0 (s - 1) (fun i => rsum 0 (s - 1) (fun j => b i * b j * W i j))).
    { rewrite <- rsum_scal. rewrite <- rsum_add. apply rsum_ext. intros i Hi. rewrite (bil_sym (k i) u'). rewrite E1. fold (U i).
      rewrite Rmult_plus_distr_l. f_equal. rewrite <- rsum_scal. rewrite <- rsum_scal. rewrite <- rsum_scal. apply rsum_ext. intros j Hj.
      change (B (k j) (k i)) with (W j i). rewrite (Wsym j i). ring. }
    rewrite E2. assert (E3 : rsum 0 (s - 1) (fun i => b i * B (k i) u) = rsum 0 (s - 1) (fun i => b i * U i)) by (apply rsum_ext; intros i Hi; rewrite bil_sym; reflexivity).
    rewrite E3. ring. }
  rewrite H1. change (rsum 0 (s - 1) (fun i => b i * B (fun l => stage_eq s a h f u Y i l - Y i l) (k i))) with (rsum 0 (s - 1) (fun i => b i * D i)).
  assert (H2 : rsum 0 (s - 1) (fun i => b i * D i) = rsum 0 (s - 1) (fun i => b i * U i) + h * rsum 0 (s - 1) (fun i => rsum 0 (s - 1) (fun j => b i * a i j * W i j))).
  { rewrite <- rsum_scal, <- rsum_add. apply rsum_ext. intros i Hi. rewrite HD. rewrite Rmult_plus_distr_l. f_equal. rewrite <- !rsum_scal. apply rsum_ext. intros j Hj.
    rewrite (Wsym j i). ring. }
  assert (H3 : rsum 0 (s - 1) (fun i => rsum 0 (s - 1) (fun j => b j * a j i * W i j)) = rsum 0 (s - 1) (fun i => rsum 0 (s - 1) (fun j => b i * a i j * W i j))).
  { rewrite rsum_swap. apply rsum_ext. intros i Hi. apply rsum_ext. intros j Hj. rewrite (Wsym j i). reflexivity. }
  assert (H4 : rsum 0 (s - 1) (fun i => rsum 0 (s - 1) (fun j => cooper a b i j * B (k i) (k j))) =
    2 * rsum 0 (s - 1) (fun i => rsum 0 (s - 1) (fun j => b i * a i j * W i j)) - rsum 0 (s - 1) (fun i => rsum 0 (s - 1) (fun j => b i * b j * W i j))).
  { rewrite <- H3 at 1. replace (2 * rsum 0 (s - 1) (fun i => rsum 0 (s - 1) (fun j => b j * a j i * W i j))) with
      (rsum 0 (s - 1) (fun i => rsum 0 (s - 1) (fun j => b i * a i j * W i j)) + rsum 0 (s - 1) (fun i => rsum 0 (s - 1) (fun j => b j * a j i * W i j))) by (rewrite H3; ring).
    rewrite <- rsum_add, <- rsum_sub. apply rsum_ext. intros i Hi. rewrite <- rsum_add, <- rsum_sub. apply rsum_ext. intros j Hj. fold (W i j). unfold cooper. ring. }
  rewrite H2, H4. ring.
Qed.
End Q.

Lemma rsum_nonneg lo hi g : (forall i, (lo <= i <= hi)%Z -> 0 <= g i) -> 0 <= rsum lo hi g.
Proof.
  intros H. unfold rsum, sum. assert (A : forall k i, (lo <= i)%Z -> (i + Z.of_nat k <= hi + 1)%Z -> 0 <= sumn R 0 Rplus k i g).
  { induction k as [|k IH]; intros i Hi Hk; cbn [sumn]; [lra|]. specialize (IH (i + 1)%Z ltac:(lia) ltac:(lia)). specialize (H i ltac:(lia)). lra. }
  destruct (Z_lt_dec hi lo); [replace (Z.to_nat (hi - lo + 1)) with O by lia; cbn; lra|]. apply A; lia.
Qed.
Lemma rsum_zero_inv lo hi g : (forall i, (lo <= i <= hi)%Z -> 0 <= g i) -> rsum lo hi g = 0 -> forall i, (lo <= i <= hi)%Z -> g i = 0.
Proof.
  intros H E i Hi. rewrite (rsum_split i) in E by lia. rewrite (rsum_hi lo i) in E by lia.
  pose proof (rsum_nonneg lo (i - 1) g ltac:(intros; apply H; lia)). pose proof (rsum_nonneg (i + 1) hi g ltac:(intros; apply H; lia)).
  specialize (H i Hi). lra.
Qed.
Lemma sq_zero x : x * x = 0 -> x = 0.
Proof. intros H. destruct (Rmult_integral _ _ H); assumption. Qed.
Lemma residual_zero n s a h f u Y : residual n s a h f u Y = 0 -> forall i l, (0 <= i < s)%Z -> (0 <= l < n)%Z -> Y i l = stage_eq s a h f u Y i l.
Proof.
  intros E i l Hi Hl. unfold residual in E.
  assert (P : forall i, (0 <= i <= s - 1)%Z -> 0 <= rsum 0 (n - 1) (fun l => (stage_eq s a h f u Y i l - Y i l) * (stage_eq s a h f u Y i l - Y i l)))
    by (intros; apply rsum_nonneg; intros; apply Rle_0_sqr).
  pose proof (rsum_zero_inv 0 (s - 1) _ P E i ltac:(lia)) as E1. cbn beta in E1.
  pose proof (rsum_zero_inv 0 (n - 1) (fun l => (stage_eq s a h f u Y i l - Y i l) * (stage_eq s a h f u Y i l - Y i l)) ltac:(intros; apply Rle_0_sqr) E1 l ltac:(lia)) as E2.
  cbn beta in E2. apply sq_zero in E2. symmetry. apply Rminus_diag_uniq, E2.
Qed.
Section Prog.
Variables (n s : Z) (long : bool) (f : vec Rnum -> vec Rnum) (ta tb tq : Z -> R) (C : Z -> Z -> R).
Notation id := (fun x : Rnum => x).
Lemma quad_step itermax h fs o u : (1 <= n)%Z -> (1 <= s)%Z -> quad_invariant n C f -> reachable (K := Rnum) n s long id f ta tb tq o -> can_start n s h fs o ->
  wp (step (K := Rnum) n s long id f ta tb tq itermax h fs o u) (fun x => let '(ok, _, u') := x in ok = true ->
    exists Y, residual n s (TA s ta) h f u Y <= thr (K := Rnum) long /\
      bil n C u' u' - bil n C u u = 2 * h * rsum 0 (s - 1) (fun i => tb i * bil n C (fun l => stage_eq s (TA s ta) h f u Y i l - Y i l) (f (Y i)))
        - h * h * rsum 0 (s - 1) (fun i => rsum 0 (s - 1) (fun j => cooper (TA s ta) tb i j * bil n C (f (Y i)) (f (Y j)))) /\
      (residual n s (TA s ta) h f u Y = 0 -> (forall i j, (0 <= i < s)%Z -> (0 <= j < s)%Z -> cooper (TA s ta) tb i j = 0) -> bil n C u' u' = bil n C u u)).
Proof.
  intros Hn Hs (Cs & Cq) Hr Hc. eapply wp_mono; [apply gauss; try assumption; lia|]. intros [[ok o'] u'] H E. subst ok. destruct H as (Y & H1 & H2).
  assert (D : bil n C u' u' - bil n C u u = 2 * h * rsum 0 (s - 1) (fun i => tb i * bil n C (fun l => stage_eq s (TA s ta) h f u Y i l - Y i l) (f (Y i)))
        - h * h * rsum 0 (s - 1) (fun i => rsum 0 (s - 1) (fun j => cooper (TA s ta) tb i j * bil n C (f (Y i)) (f (Y j))))).
  { rewrite (bil_ext n C u' (advanced s tb h f u Y) u' (advanced s tb h f u Y)) by (intros; apply H2; assumption).
    apply (drift n s C Cs (TA s ta) tb h f u Cq Y). }
  exists Y. split; [exact H1|]. split; [exact D|]. intros R0 Co.
  assert (Z1 : rsum 0 (s - 1) (fun i => tb i * bil n C (fun l => stage_eq s (TA s ta) h f u Y i l - Y i l) (f (Y i))) = 0).
  { apply rsum_zero. intros i Hi. assert (bil n C (fun l => stage_eq s (TA s ta) h f u Y i l - Y i l) (f (Y i)) = 0) as ->; [|apply Rmult_0_r].
    rewrite (bil_ext n C _ (fun l => 0 * u l) (f (Y i)) (f (Y i))); [rewrite bil_scal; apply Rmult_0_l| |reflexivity].
    intros p Hp. rewrite <- (residual_zero n s (TA s ta) h f u Y R0 i p) by lia. cbn [car Rnum]. rewrite Rmult_0_l. apply Rminus_diag_eq. reflexivity. }
  assert (Z2 : rsum 0 (s - 1) (fun i => rsum 0 (s - 1) (fun j => cooper (TA s ta) tb i j * bil n C (f (Y i)) (f (Y j)))) = 0).
  { apply rsum_zero. intros i Hi. apply rsum_zero. intros j Hj. rewrite Co by lia. apply Rmult_0_l. }
  rewrite Z1, Z2 in D. lra.
Qed.
End Prog.
