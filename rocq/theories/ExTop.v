(* The statements of Props_Ex.v, assembled. *)
From Coq Require Import Reals Lra.
From Verif Require Import Base Spec HessModel LayoutModel ExModel ExSpec ExGrid ExOreg ExBz ExOuter ExHam.
Open Scope Z_scope.

Lemma zero_der b u : derivable_pt_lim (fun _ : R => b) u 0%R.
Proof. apply derivable_pt_lim_const. Qed.
Section G.
Variables (n : Z) (eh2 : R) (g dg : Z -> R -> R).
Hypothesis Hn : 3 <= n.
Hypothesis Hg : forall i u, derivable_pt_lim (g i) u (dg i u).
Lemma top_wrong_n1 : eh2 <> 0%R -> exists F, computes n (grid_rhs (K := Rnum) n eh2 g) F /\
  forall y J0, wrong_at (lapack_gb 1 1) F (grid_jac (K := Rnum) n eh2 dg (n - 1) n) (n - 1) n y J0 /\
    (J0 (lapack_gb 1 1 n (n - 1)) <> (2 * eh2)%R -> wrong_at (lapack_gb 1 1) F (grid_jac (K := Rnum) n eh2 dg (n - 1) n) n (n - 1) y J0).
Proof.
  intros He. exists (grid_F n eh2 g). split; [apply grid_computes, Hn|]. intros y J0. split.
  - exact (grid_jac_wrong n eh2 Hn g dg Hg y J0 He).
  - apply (grid_left_wrong n eh2 Hn g dg Hg). { unfold in_band; lia. } { intros E; inversion E; lia. }
Qed.
Lemma top_wrong_nn : exists F, computes n (grid_rhs (K := Rnum) n eh2 g) F /\
  forall y J0, ((4 * eh2)%R <> dg (n - 1) (y (n - 1)) -> wrong_at (lapack_gb 1 1) F (grid_jac (K := Rnum) n eh2 dg n n) n n y J0) /\
    (J0 (lapack_gb 1 1 n (n - 1)) <> (2 * eh2)%R -> wrong_at (lapack_gb 1 1) F (grid_jac (K := Rnum) n eh2 dg n n) n (n - 1) y J0).
Proof.
  exists (grid_F n eh2 g). split; [apply grid_computes, Hn|]. intros y J0. split.
  - exact (grid_jac_wrong_nn n eh2 Hn g dg Hg y J0).
  - apply (grid_left_wrong n eh2 Hn g dg Hg). { unfold in_band; lia. } { intros E; inversion E; lia. }
Qed.
Lemma top_right li lj : in_band n 1 1 li lj -> forall F, computes n (grid_rhs (K := Rnum) n eh2 g) F ->
  banded n 1 1 F /\ jacobian_on (fun i j => in_band n 1 1 i j /\ (i, j) <> (li, lj) /\ (i, j) <> (n, n - 1)) (lapack_gb 1 1) F (grid_jac (K := Rnum) n eh2 dg li lj).
Proof.
  intros Hl F HF. split.
  - exact (banded_ext n 1 1 _ _ F (grid_computes n eh2 Hn g) HF (grid_banded n eh2 Hn g dg Hg)).
  - refine (on_ext n _ _ F _ _ _ (grid_computes n eh2 Hn g) HF _ (grid_jac_right n eh2 Hn g dg Hg li lj Hl)).
    intros i j [[Hb _] _]. lia.
Qed.
End G.
Lemma top_oreg F : computes 3 (oreg_rhs_radau (K := Rnum)) F -> jacobian_on (in_full 3) (lapack_ge 3) F (oreg_jac_radau (K := Rnum)).
Proof. intros H. refine (on_ext 3 _ _ F _ _ _ oreg_computes_radau H _ oreg_radau_right). intros i j [Hb _]. lia. Qed.
Lemma top_oreg_rodas F : computes 3 (oreg_rhs_rodas (K := Rnum)) F ->
  jacobian_on (fun i j => in_full 3 i j /\ (i = 3 \/ (i = 1 /\ j <> 1))) (lapack_ge 3) F (oreg_jac_rodas (K := Rnum)) /\
  (forall y J0 j, 1 <= j <= 3 -> wp (oreg_jac_rodas (K := Rnum) (fun k => y (k - 1)) J0) (fun J =>
     exists d, partial F y 1 (j - 1) d /\ (Rabs (J (lapack_ge 3 2 j) - d) <= 1/10000000000000000 * (1 + Rabs (y 0%Z) + Rabs (y 1%Z)))%R)).
Proof.
  intros H. split.
  - refine (on_ext 3 _ _ F _ _ _ oreg_computes_rodas H _ oreg_rodas_right). intros i j [[Hi _] _]. lia.
  - intros y J0 j Hj. eapply wp_mono; [apply oreg_rodas_near, Hj|]. cbv beta. intros J (d & Hd & He). exists d. split; [|exact He].
    exact (computes_ext 3 _ _ F y _ _ d oreg_computes_rodas H (conj (Z.le_0_1) (eq_refl : 1 < 3)) Hd).
Qed.
Lemma top_oreg_wrong : exists F, computes 3 (oreg_rhs_rodas (K := Rnum)) F /\
  forall y J0, y 0 <> 0%R -> wrong_at (lapack_ge 3) F (oreg_jac_rodas (K := Rnum)) 1 1 y J0.
Proof. exists oreg_F. split; [apply oreg_computes_rodas|]. intros. apply oreg_rodas_wrong. assumption. Qed.
Lemma top_bz e0 e1 e2 : e1 <> e2 -> exists F, computes 300 (bz_rhs (K := Rnum) 100 e0 e1 e2) F /\
  forall y J0, wrong_at (lapack_gb 2 2) F (bz_jac (K := Rnum) 100 e0 e1) 202 202 y J0.
Proof. intros H. exists (bz_F 100 e0 e1 e2). split; [apply (bz_computes 100); lia|]. intros. apply bz_wrong. exact H. Qed.

Lemma rate_ext n H H' F F' x d : (forall y, H y = H' y) -> (forall i, 0 <= i < n -> F x i = F' x i) -> rate n H F x d -> rate n H' F' x d.
Proof.
  intros E EF. unfold rate. apply dpl_ext. intros t. rewrite <- E.
  assert (EE : (fun i => if inb 0 (n - 1) i then x i + t * F x i else x i)%R = (fun i => if inb 0 (n - 1) i then x i + t * F' x i else x i)%R).
  { apply FunctionalExtensionality.functional_extensionality. intros i. destruct (inb 0 (n - 1) i) eqn:Ei; [|reflexivity]. apply inb_iff in Ei. rewrite EF by lia. reflexivity. }
  rewrite EE. reflexivity.
Qed.
Lemma computes_eq n rhs F F' x i : computes n rhs F -> computes n rhs F' -> 0 <= i < n -> F x i = F' x i.
Proof.
  intros H H' Hi. specialize (H x (fun _ => 0%R)). specialize (H' x (fun _ => 0%R)). destruct (rhs x _); try contradiction. cbn in H, H'. rewrite <- (H i Hi). apply H', Hi.
Qed.
Lemma top_kepler F H : computes 4 (kepler_rhs (K := Rnum)) F -> (forall x, kepler_H (K := Rnum) x = Ok (H x)) ->
  forall x, (x 0%Z <> 0 \/ x 1%Z <> 0)%R -> rate 4 H F x 0.
Proof.
  intros HF HH x Hx. apply (rate_ext 4 kepler_Hv H kepler_F F).
  - intros y. specialize (HH y). rewrite kepler_H_ok in HH. congruence.
  - intros i Hi. exact (computes_eq 4 _ _ _ x i kepler_computes HF Hi).
  - apply kepler_rate. intros E. pose proof (Rle_0_sqr (x 0)). pose proof (Rle_0_sqr (x 1)). unfold Rsqr in *.
    assert (x 0%Z * x 0%Z = 0)%R by lra. assert (x 1%Z * x 1%Z = 0)%R by lra. destruct Hx as [N|N]; apply N.
    + destruct (Rmult_integral _ _ H2); assumption.
    + destruct (Rmult_integral _ _ H3); assumption.
Qed.
Section O.
Variables (nb : Z) (m : Z -> R) (G : R).
Hypothesis Hnb : 2 <= nb.
Hypothesis Hm : forall i, 0 <= i < nb -> m i <> 0%R.
Lemma top_outer_rate cap F H : 21 * nb <= cap -> computes (6 * nb) (outer_rhs (K := Rnum) nb m G cap) F -> (forall x, outer_H (K := Rnum) nb m G x = Ok (H x)) ->
  forall x, apart nb x -> rate (6 * nb) H F x (rsum 1 (nb - 1) (fun i => work nb m G x i (i - 1))).
Proof.
  intros Hc HF HH x Hx. apply (rate_ext (6 * nb) (outer_Hv nb m G) H (outer_F nb m G) F).
  - intros y. specialize (HH y). rewrite (outer_H_ok nb m G Hnb) in HH. congruence.
  - intros i Hi. exact (computes_eq (6 * nb) _ _ _ x i (outer_computes nb m G Hnb cap Hc) HF Hi).
  - apply outer_H_rate; assumption.
Qed.
Lemma top_outer_refuted cap : 21 * nb <= cap -> G <> 0%R -> exists F H, computes (6 * nb) (outer_rhs (K := Rnum) nb m G cap) F /\
  (forall x, outer_H (K := Rnum) nb m G x = Ok (H x)) /\ exists x, apart nb x /\ ~ rate (6 * nb) H F x 0.
Proof.
  intros Hc HG. exists (outer_F nb m G), (outer_Hv nb m G). split; [apply outer_computes; assumption|]. split; [apply outer_H_ok, Hnb|].
  exists (line_state nb m). split; [apply line_apart; assumption|]. intros H0.
  pose proof (outer_H_rate nb m G Hnb Hm _ (line_apart nb m)) as H1.
  rewrite (line_work nb m G Hnb Hm) in H1. pose proof (uniqueness_limite _ _ _ _ H0 H1) as E.
  assert (N : (G * m 0%Z * m 1%Z)%R <> 0%R). { apply Rmult_integral_contrapositive_currified; [apply Rmult_integral_contrapositive_currified|]; [exact HG| |]; apply Hm; lia. }
  lra.
Qed.
End O.
