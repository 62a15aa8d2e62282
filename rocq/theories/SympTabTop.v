(* C45, C56, C57: what the 30 tables satisfy. *)
From Coq Require Import Reals Lra ZArith List Lia.
From Verif Require Import Base FieldLU HessModel Spec HessPathProofs CMacros SympModel SympTables SympSpec SympProofs SympTop SympTabProofs SympFixed SympTabChk.
Import ListNotations.
Open Scope Z_scope.
(* the matrix and the vector of a table *)
Definition tab_a (long : bool) (s : Z) : Z -> Z -> R := fun i j => tabv (K := Rnum) (tab_la long s) (i * s + j).
Definition tab_b (long : bool) (s : Z) : Z -> R := tabv (K := Rnum) (tab_lb long s).
Definition tab_q (long : bool) (s : Z) : Z -> Z -> R := fun i j => tabv (K := Rnum) (tab_lc long s) (i * s + j).
Lemma bnd long s : 2 <= s <= 16 -> bounded 70 (tab_la long s) (tab_lb long s) (zt_a long s) (zt_b long s) = true.
Proof.
  intros Hs. pose proof (range216 _ chk_bounded s Hs) as H. cbv beta in H. rewrite forallb_forall in H. apply H. destruct long; cbn; auto.
Qed.
Lemma scale_le D E m p : 0 <= D -> 0 <= p -> E = m * 2 ^ D / 10 ^ p -> (IZR E * dl D <= IZR m / IZR (10 ^ p))%R.
Proof.
  intros HD Hp ->. pose proof (PR_pos D HD) as HP. assert (HT : 0 < 10 ^ p) by (apply Z.pow_pos_nonneg; lia). assert (HTR : (0 < IZR (10 ^ p))%R) by (apply (IZR_lt 0), HT).
  pose proof (Z.mul_div_le (m * 2 ^ D) (10 ^ p) HT) as L. apply IZR_le in L. rewrite !mult_IZR in L. unfold dl.
  apply (Rmult_le_reg_r (IZR (2 ^ D))); [exact HP|]. rewrite Rmult_assoc, Rinv_l, Rmult_1_r by lra.
  apply (Rmult_le_reg_l (IZR (10 ^ p))); [exact HTR|]. eapply Rle_trans; [exact L|]. right. field. lra.
Qed.
Lemma scale_ge D E m p m' p' : 0 <= D -> 0 <= p -> 0 <= p' -> E = m * 2 ^ D / 10 ^ p -> m' * 2 ^ D <= E * 10 ^ p' -> (IZR m' / IZR (10 ^ p') <= IZR E * dl D)%R.
Proof.
  intros HD Hp Hp' _ L. pose proof (PR_pos D HD) as HP. assert (HT : 0 < 10 ^ p') by (apply Z.pow_pos_nonneg; lia). assert (HTR : (0 < IZR (10 ^ p'))%R) by (apply (IZR_lt 0), HT).
  apply IZR_le in L. rewrite !mult_IZR in L. unfold dl.
  apply (Rmult_le_reg_r (IZR (2 ^ D))); [exact HP|]. rewrite (Rmult_assoc (IZR E)), Rinv_l, Rmult_1_r by lra.
  apply (Rmult_le_reg_l (IZR (10 ^ p'))); [exact HTR|]. rewrite (Rmult_comm _ (IZR E)). eapply Rle_trans; [|exact L]. right. field. lra.
Qed.
Lemma cooper_double s : 2 <= s <= 16 -> forall i j, 0 <= i < s -> 0 <= j < s -> (Rabs (cooper (tab_a false s) (tab_b false s) i j) <= 3 / IZR (10 ^ 13))%R.
Proof.
  intros Hs i j Hi Hj. eapply Rle_trans; [|exact (scale_le 70 (E70 3 13) 3 13 ltac:(lia) ltac:(lia) eq_refl)].
  exact (max_cooper_ok 70 ltac:(lia) s _ _ _ _ (E70 3 13) (bnd false s Hs) (range216 _ chk_double s Hs) i j Hi Hj).
Qed.
Lemma cooper_long s : 2 <= s <= 16 -> forall i j, 0 <= i < s -> 0 <= j < s -> (Rabs (cooper (tab_a true s) (tab_b true s) i j) <= 3 / IZR (10 ^ 34))%R.
Proof.
  intros Hs i j Hi Hj. eapply Rle_trans; [|exact (scale_le 130 (E130 3 34) 3 34 ltac:(lia) ltac:(lia) eq_refl)].
  exact (max_cooper_ok 130 ltac:(lia) s _ _ _ _ (E130 3 34) (range216 _ chk_bounded_long s Hs) (range216 _ chk_long s Hs) i j Hi Hj).
Qed.
Lemma cooper_inexact s : 2 <= s <= 16 -> exists i j, 0 <= i < s /\ 0 <= j < s /\ (1 / IZR (10 ^ 14) <= Rabs (cooper (tab_a false s) (tab_b false s) i j))%R.
Proof.
  intros Hs. destruct (some_cooper_ok 70 ltac:(lia) s _ _ _ _ (E70 2 14) (bnd false s Hs) (range216 _ chk_some s Hs)) as (i & j & Hi & Hj & H).
  exists i, j. split; [exact Hi|]. split; [exact Hj|]. eapply Rle_trans; [|exact H]. apply (scale_ge 70 _ 2 14 1 14); try lia; try reflexivity. apply Z.leb_le. vm_compute. reflexivity.
Qed.
Lemma order_cond (long : bool) s : 2 <= s <= 16 -> let eps : R := (if long then 1 / IZR (10 ^ 16) else 2 / IZR (10 ^ 12))%R in
  (forall k, 1 <= k <= 2 * s -> (Rabs (defect_B s (tab_a long s) (tab_b long s) k) <= eps)%R) /\
  (forall i k, 0 <= i < s -> 1 <= k <= s -> (Rabs (defect_C s (tab_a long s) i k) <= eps)%R).
Proof.
  intros Hs eps.
  assert (G : exists m p E, E = E70 m p /\ 0 <= p /\ eps = (IZR m / IZR (10 ^ p))%R /\ order_ok 70 s (zt_a long s) (zt_b long s) E = true).
  { destruct long.
    - exists 1, 16, (E70 1 16). repeat split; try lia. exact (range216 _ chk_order_long s Hs).
    - exists 2, 12, (E70 2 12). repeat split; try lia. exact (range216 _ chk_order_double s Hs). }
  destruct G as (m & p & E & -> & Hp & -> & HO).
  destruct (order_ok_ok 70 ltac:(lia) s _ _ _ _ ltac:(lia) (E70 m p) (bnd long s Hs) HO) as [H1 H2].
  pose proof (scale_le 70 (E70 m p) m p ltac:(lia) Hp eq_refl) as L. split.
  - intros k Hk. eapply Rle_trans; [|exact L]. exact (H1 k Hk).
  - intros i k Hi Hk. eapply Rle_trans; [|exact L]. exact (H2 i k Hi Hk).
Qed.
Lemma extrap_rows (long : bool) s : 2 <= s <= 16 -> exists i, 0 <= i < s /\
  (4 / IZR (10 ^ 2) <= Rabs (row_sum s (tab_q long s) i - row_sum s (tab_a long s) i))%R /\
  (4 / IZR (10 ^ 2) <= Rabs (row_sum s (tab_q long s) i - (1 + row_sum s (tab_a long s) i)))%R.
Proof.
  intros Hs. pose proof (range216 _ chk_extrap s Hs) as H. cbv beta in H. rewrite forallb_forall in H. specialize (H long ltac:(destruct long; cbn; auto)).
  destruct (okQ_ok 70 ltac:(lia) s _ _ _ _ ltac:(lia) _ _ _ (bnd long s Hs) H) as (i & Hi & A & B). exists i. split; [exact Hi|].
  assert (L : (4 / IZR (10 ^ 2) <= IZR (E70 5 2) * dl 70)%R) by (apply (scale_ge 70 _ 5 2 4 2); try lia; try reflexivity; apply Z.leb_le; vm_compute; reflexivity).
  split; (eapply Rle_trans; [exact L|]); assumption.
Qed.
