(* C45, C46: the last steps for the symplectic integrator. *)
From Coq Require Import Reals Lra Lia.
From Verif Require Import Base FieldLU HessModel Spec HessPathProofs SympModel SympTables SympSpec SympProofs SympTop SympQuad SympTabProofs SympTabTop.
Open Scope R_scope.
Definition idR (x : Rnum) : Rnum := x.

Lemma rsum_Rabs a b g : Rabs (rsum a b g) <= rsum a b (fun i => Rabs (g i)).
Proof.
  unfold rsum, sum. generalize (Z.to_nat (b - a + 1)). intros k. revert a. induction k as [|k IH]; intros a; cbn [sumn]; [rewrite Rabs_R0; lra|].
  eapply Rle_trans; [apply Rabs_triang|]. specialize (IH (a + 1)%Z). lra.
Qed.
Lemma rsum_le a b g g' : (forall i, (a <= i <= b)%Z -> g i <= g' i) -> rsum a b g <= rsum a b g'.
Proof.
  unfold rsum, sum. intros H. assert (A : forall k c, (a <= c)%Z -> (c + Z.of_nat k <= b + 1)%Z -> sumn R 0 Rplus k c g <= sumn R 0 Rplus k c g').
  { induction k as [|k IH]; intros c Hc Hk; cbn [sumn]; [lra|]. specialize (H c ltac:(lia)). specialize (IH (c + 1)%Z ltac:(lia) ltac:(lia)). lra. }
  destruct (Z_le_dec a b) as [L|L]; [apply A; lia|]. replace (Z.to_nat (b - a + 1)) with O by lia. cbn. lra.
Qed.
(* the size of the second part of the drift, for the tables of the code *)
Lemma table_drift long s n C h (F : Z -> vec Rnum) : (2 <= s <= 16)%Z ->
  Rabs (h * h * rsum 0 (s - 1) (fun i => rsum 0 (s - 1) (fun j => cooper (tab_a long s) (tab_b long s) i j * bil n C (F i) (F j))))
  <= h * h * (if long then 3 / IZR (10 ^ 34) else 3 / IZR (10 ^ 13)) * rsum 0 (s - 1) (fun i => rsum 0 (s - 1) (fun j => Rabs (bil n C (F i) (F j)))).
Proof.
  intros Hs. rewrite Rabs_mult, (Rabs_pos_eq (h * h)) by (apply Rle_0_sqr). rewrite (Rmult_assoc (h * h)). apply Rmult_le_compat_l; [apply Rle_0_sqr|].
  eapply Rle_trans; [apply rsum_Rabs|]. rewrite <- rsum_scal. apply rsum_le. intros i Hi. eapply Rle_trans; [apply rsum_Rabs|]. rewrite <- rsum_scal. apply rsum_le. intros j Hj.
  rewrite Rabs_mult. apply Rmult_le_compat_r; [apply Rabs_pos|]. destruct long; [apply cooper_long; lia|apply cooper_double; lia].
Qed.

(* what the extrapolated stage values should be *)
Definition extrapolated (n s : Z) (q F u Y' : vec Rnum) : Prop :=
  forall i l, (0 <= i < s)%Z -> (0 <= l < n)%Z -> Y' (i * n + l)%Z = u l + rsum 0 (s - 1) (fun j => q (i * s + j)%Z * F (j * n + l)%Z).
Lemma square n (q F Y u : vec Rnum) : (1 <= n)%Z -> wp (extrap n n idR q F Y u) (extrapolated n n q F u).
Proof.
  intros Hn. eapply wp_mono; [apply extrap_square; [reflexivity|exact Hn]|]. intros Y' H i l Hi Hl. rewrite H by assumption. rewrite acc_R by lia. f_equal.
  apply rsum_ext. intros j Hj. unfold idR. rewrite (Z.mul_comm n i). reflexivity.
Qed.
Lemma not_square n s : (2 <= s)%Z -> (1 <= n)%Z -> n <> s -> exists q F Y u : vec Rnum, ~ wp (extrap n s idR q F Y u) (extrapolated n s q F u).
Proof.
  intros Hs Hn Hne. destruct (Z_lt_dec n s) as [L|L].
  - exists (fun _ => 0), (fun _ => 0), (fun _ => 0), (fun _ => 0). destruct (extrap_ub n s idR (fun _ => 0) (fun _ => 0) (fun _ => 0) (fun _ => 0) ltac:(lia)) as [m E].
    rewrite E. intros W. exact W.
  - exists (fun _ => 0), (fun _ => 0), (fun _ => 0), (fun _ => 1). intros W.
    assert (NU := extrap_safe n s idR (fun _ => 0) (fun _ => 0) (fun _ => 0) (fun _ => 1) ltac:(lia)).
    destruct (extrap n s idR _ _ _ _) as [Y'| | |]; try exact W. cbn [wp] in W, NU.
    specialize (W (s - 1) (n - 1) ltac:(lia) ltac:(lia))%Z. specialize (NU ((s - 1) * n + (n - 1)) ltac:(nia))%Z. rewrite NU in W. cbv beta in W.
    rewrite (rsum_ext _ _ _ (fun _ => 0)) in W by (intros; ring). rewrite rsum_zero in W by reflexivity. lra.
Qed.
(* maxIter: the number of sweeps is one more after a success *)
Lemma off_by_one (K : num) n s long nar f ta tb tq : (0 <= n)%Z -> (1 <= s)%Z -> forall itermax (h : K) fs o u, can_start n s h fs o ->
  wp (step n s long nar f ta tb tq itermax h fs o u) (fun x => let '(ok, o', _) := x in if ok : bool then (onev o' - onev o <> oiter o' * s)%Z else (onev o' - onev o = oiter o' * s)%Z).
Proof.
  intros Hn Hs itermax h fs o u H. eapply wp_mono; [exact (step_bounded n s long nar f ta tb tq Hn Hs itermax h fs o u H)|].
  intros [[ok o'] u'] [H1 H2]. destruct ok; [lia|exact H2].
Qed.
