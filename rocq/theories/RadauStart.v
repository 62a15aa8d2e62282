(* The starting values of the Newton iteration after an accepted step: k_save and k_start
   against the collocation polynomial of that step. *)
From Coq Require Import ZArith Reals Lra Lia List.
From Verif Require Import Base Spec JacModel CMacros VecFun HessModel FieldLU HessPathProofs RodasProofs RadauModel RadauAlg RadauSpec RadauConst RadauRun.
Open Scope R_scope.
Local Notation c := (@rd_const Rnum).

Section Start.
Context {Sg La : Type}.
Notation Rwrk := (@wrk Rnum Sg La).
Definition kappa (c1 c2 : R) : R := 1 / (c1 * c2 * (c1 - 1)).

Lemma start_error (w : Rwrk) (i : Z) (q : R) a b d :
  cubic a b d (C1 c) = k_Z1 w i -> cubic a b d (C2 c) = k_Z2 w i -> cubic a b d 1 = k_Z3 w i ->
  k_start c (k_save c w) q i = cubic a b d (1 + q) - cubic a b d 1 +
    kappa (C1 c) (C2 c) * k_Z1 w i * (q * (q - (C2 c - 1)) * (q - (C1 c - 1))).
Proof.
  intros H1 H2 H3. destruct (consts c eq_refl) as (K1 & K2 & K3 & Hc1 & Hc2).
  unfold k_start, k_save. cbn [k_s1 k_s2 k_s3 k_Z1 k_Z2 k_Z3]. cbn [nadd nsub nmul ndiv nlit Rnum car]. rewrite !Rlit_0.
  rewrite K1, K2, K3. rewrite <- H1, <- H2, <- H3.
  generalize dependent (C1 c : R). generalize dependent (C2 c : R). intros y x Hx Hy. intros. unfold kappa, cubic. field. lra.
Qed.
Lemma start_wrong (w : Rwrk) (i : Z) (q : R) a b d :
  cubic a b d (C1 c) = k_Z1 w i -> cubic a b d (C2 c) = k_Z2 w i -> cubic a b d 1 = k_Z3 w i ->
  k_Z1 w i <> 0 -> 0 < q -> k_start c (k_save c w) q i <> cubic a b d (1 + q) - cubic a b d 1.
Proof.
  intros H1 H2 H3 Hz Hq. rewrite (start_error w i q a b d H1 H2 H3). destruct (consts c eq_refl) as (_ & _ & _ & Hc1 & Hc2).
  generalize dependent (C1 c : R). generalize dependent (C2 c : R). intros y HA HC x HB HD. generalize dependent (k_Z1 w i : R). intros z Hz HE HF.
  assert (E0 : kappa x y * z * (q * (q - (y - 1)) * (q - (x - 1))) = 0) by lra. clear HF. revert E0. unfold kappa, Rdiv. rewrite Rmult_1_l.
  repeat apply Rmult_integral_contrapositive_currified; try (intros N; lra); try exact Hz.
  apply Rinv_neq_0_compat. repeat apply Rmult_integral_contrapositive_currified; intros N; lra.
Qed.
Lemma saved_save (w : Rwrk) : saved Sg La c (k_save c w) (three (k_Z1 w) (k_Z2 w) (k_Z3 w)).
Proof.
  intros i. unfold k_save. cbn [k_s1 k_s2 k_s3]. cbn [nadd nsub nmul ndiv nlit Rnum car]. rewrite !Rlit_0. repeat split; reflexivity.
Qed.
End Start.
