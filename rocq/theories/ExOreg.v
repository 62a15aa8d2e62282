(* Proofs about the Oregonator and BZ examples of ExModel.v. *)
From Coq Require Import Reals Lra.
From Verif Require Import Base Spec HessModel LayoutModel LayoutProofs CMacros ExModel ExSpec ExGrid.
Open Scope Z_scope.

Lemma rd_id {A} lo hi (v : Z -> A) i : inb lo hi i = true -> rd lo hi v i = Ok (v i).
Proof. intros H. unfold rd. rewrite H. reflexivity. Qed.
Lemma L_a : Rlit 7727 (-2) = (7727/100)%R. Proof. unfold Rlit. simpl. lra. Qed.
Lemma L_b : Rlit 8375 (-9) = (8375/1000000000)%R. Proof. unfold Rlit. simpl. lra. Qed.
Lemma L_c : Rlit 161 (-3) = (161/1000)%R. Proof. unfold Rlit. simpl. lra. Qed.
Lemma L_d : Rlit 129427250 (-11) = (129427250/100000000000)%R. Proof. unfold Rlit. simpl. lra. Qed.
Lemma L_e : Rlit 77270 (-3) = (7727/100)%R. Proof. unfold Rlit. simpl. lra. Qed.
Lemma L_f : Rlit 16100 (-5) = (161/1000)%R. Proof. unfold Rlit. simpl. lra. Qed.
Lemma L_g : Rlit 129416332341141 (-16) = (129416332341141/10000000000000000)%R. Proof. unfold Rlit. simpl. lra. Qed.

(* the three reactions, of u = y_a, v = y_b, w = y_c *)
Definition r1 (u v : R) : R := (7727/100 * (v + u * (1 - 8375/1000000000 * u - v)))%R.
Definition r2 (u v w : R) : R := ((w - (1 + u) * v) / (7727/100))%R.
Definition r3 (u w : R) : R := (161/1000 * (u - w))%R.
Lemma r1_der f h x u' v' : derivable_pt_lim f x u' -> derivable_pt_lim h x v' ->
  derivable_pt_lim (fun t => r1 (f t) (h t)) x (7727/100 * (v' + (u' * (1 - 8375/1000000000 * f x - h x) + f x * (0 - 8375/1000000000 * u' - v'))))%R.
Proof.
  intros Hf Hh. unfold r1. apply (derivable_pt_lim_scal (fun t => h t + f t * (1 - 8375/1000000000 * f t - h t))%R).
  apply (derivable_pt_lim_plus h (fun t => f t * (1 - 8375/1000000000 * f t - h t))%R); [exact Hh|].
  apply (derivable_pt_lim_mult f (fun t => (1 - 8375/1000000000 * f t - h t))%R); [exact Hf|].
  apply (derivable_pt_lim_minus (fun t => (1 - 8375/1000000000 * f t))%R h); [|exact Hh].
  apply (derivable_pt_lim_minus (fun t => 1)%R (fun t => (8375/1000000000 * f t))%R); [apply derivable_pt_lim_const|].
  apply (derivable_pt_lim_scal f); exact Hf.
Qed.
Lemma r2_der f h k x u' v' w' : derivable_pt_lim f x u' -> derivable_pt_lim h x v' -> derivable_pt_lim k x w' ->
  derivable_pt_lim (fun t => r2 (f t) (h t) (k t)) x (/ (7727/100) * (w' - ((0 + u') * h x + (1 + f x) * v')))%R.
Proof.
  intros Hf Hh Hk. unfold r2. apply (dpl_ext (fun t => / (7727/100) * (k t - (1 + f t) * h t))%R). { intros; unfold Rdiv; ring. }
  apply (derivable_pt_lim_scal (fun t => (k t - (1 + f t) * h t))%R).
  apply (derivable_pt_lim_minus k (fun t => ((1 + f t) * h t))%R); [exact Hk|].
  apply (derivable_pt_lim_mult (fun t => (1 + f t))%R h); [|exact Hh].
  apply (derivable_pt_lim_plus (fun t => 1)%R f); [apply derivable_pt_lim_const|exact Hf].
Qed.
Lemma r3_der f k x u' w' : derivable_pt_lim f x u' -> derivable_pt_lim k x w' ->
  derivable_pt_lim (fun t => r3 (f t) (k t)) x (161/1000 * (u' - w'))%R.
Proof.
  intros Hf Hk. unfold r3. apply (derivable_pt_lim_scal (fun t => f t - k t)%R). apply (derivable_pt_lim_minus f k); assumption.
Qed.

Definition oreg_F (y : Z -> R) (i : Z) : R := match i with 0 => r1 (y 0) (y 1) | 1 => r2 (y 0) (y 1) (y 2) | _ => r3 (y 0) (y 2) end.
Lemma oreg_computes slow : (forall x, slow x = (x / (7727/100))%R) -> computes 3 (oreg_rhs (K := Rnum) slow) oreg_F.
Proof.
  intros Hs y res. unfold oreg_rhs. rewrite !rd_id by reflexivity. cbn [bind].
  rewrite wr_ok by lia. cbn [bind]. rewrite wr_ok by lia. cbn [bind]. rewrite wr_ok by lia. cbn [wp]. intros i Hi.
  assert (C : i = 0 \/ i = 1 \/ i = 2) by lia.
  destruct C as [-> | [-> | ->]].
  - unfold oreg_F, r1. cbn. rewrite L_a, L_b, Rlit_0. reflexivity.
  - unfold oreg_F, r2. rewrite Hs. cbn. rewrite Rlit_0. reflexivity.
  - unfold oreg_F, r3. cbn. rewrite L_c. reflexivity.
Qed.
Lemma oreg_computes_radau : computes 3 (oreg_rhs_radau (K := Rnum)) oreg_F.
Proof. apply oreg_computes. intros x. unfold oreg_u7. cbn. rewrite L_a, Rlit_0. field. Qed.
Lemma oreg_computes_rodas : computes 3 (oreg_rhs_rodas (K := Rnum)) oreg_F.
Proof. apply oreg_computes. intros x. cbn. rewrite L_a. reflexivity. Qed.

Definition oreg_D (y : Z -> R) (i j : Z) : R := match i with
  | 0 => (7727/100 * (dl 1 j + (dl 0 j * (1 - 8375/1000000000 * y 0%Z - y 1%Z) + y 0%Z * (0 - 8375/1000000000 * dl 0 j - dl 1 j))))%R
  | 1 => (/ (7727/100) * (dl 2 j - ((0 + dl 0 j) * y 1%Z + (1 + y 0%Z) * dl 1 j)))%R
  | _ => (161/1000 * (dl 0 j - dl 2 j))%R end.
Lemma upd_self (y : Z -> R) j l : upd y j (y j) l = y l.
Proof. unfold upd. destruct (Z.eqb_spec l j); congruence. Qed.
Lemma oreg_partial y i j : 0 <= i < 3 -> partial oreg_F y i j (oreg_D y i j).
Proof.
  intros Hi. assert (C : i = 0 \/ i = 1 \/ i = 2) by lia. unfold partial. destruct C as [-> | [-> | ->]]; cbn [oreg_F oreg_D].
  - eapply dpl_val; [|exact (r1_der (fun x => upd y j x 0) (fun x => upd y j x 1) (y j) (dl 0 j) (dl 1 j) (dpl_coord y 0 j) (dpl_coord y 1 j))].
    cbv beta. rewrite !upd_self. reflexivity.
  - eapply dpl_val; [|exact (r2_der (fun x => upd y j x 0) (fun x => upd y j x 1) (fun x => upd y j x 2) (y j) _ _ _ (dpl_coord y 0 j) (dpl_coord y 1 j) (dpl_coord y 2 j))].
    cbv beta. rewrite !upd_self. reflexivity.
  - exact (r3_der (fun x => upd y j x 0) (fun x => upd y j x 2) (y j) _ _ (dpl_coord y 0 j) (dpl_coord y 2 j)).
Qed.
Lemma in3 i j : in_full 3 i j -> (i = 1 \/ i = 2 \/ i = 3) /\ (j = 1 \/ j = 2 \/ j = 3).
Proof. intros [H H']. lia. Qed.

(* the matrices stored *)
Lemma jac_radau_run (y J0 : Z -> R) : wp (oreg_jac_radau (K := Rnum) y J0) (fun J =>
  J 0 = (- (129427250/100000000000) * y 1%Z - 7727/100 * y 2%Z + 7727/100)%R /\ J 3 = (- (7727/100) * y 1%Z + 7727/100)%R /\ J 6 = 0%R /\
  J 1 = (- (1 / (7727/100)) * y 2%Z)%R /\ J 4 = (- (1/(7727/100)) * (y 1%Z + 1))%R /\ J 7 = (1 / (7727/100))%R /\
  J 2 = (161/1000)%R /\ J 5 = 0%R /\ J 8 = (- (161/1000))%R).
Proof.
  unfold oreg_jac_radau, oreg_u7. rewrite !rd_id by reflexivity. cbn [bind].
  cbn. rewrite L_a, L_c, L_d, L_e, L_f, !Rlit_0. repeat split; reflexivity.
Qed.
Lemma jac_rodas_run (y J0 : Z -> R) : wp (oreg_jac_rodas (K := Rnum) y J0) (fun J =>
  let c := (129416332341141/10000000000000000)%R in
  J 0 = (129427250/100000000000 * y 1%Z - 7727/100 * y 2%Z + 7727/100)%R /\ J 3 = (- (7727/100) * y 1%Z + 7727/100)%R /\ J 6 = 0%R /\
  J 1 = (- c * y 2%Z)%R /\ J 4 = (- c * y 1%Z - c)%R /\ J 7 = c /\
  J 2 = (161/1000)%R /\ J 5 = 0%R /\ J 8 = (- (161/1000))%R).
Proof.
  unfold oreg_jac_rodas. rewrite !rd_id by reflexivity. cbn [bind].
  cbn. rewrite L_c, L_d, L_e, L_f, L_g, !Rlit_0. repeat split; reflexivity.
Qed.
Lemma oreg_radau_right : jacobian_on (in_full 3) (lapack_ge 3) oreg_F (oreg_jac_radau (K := Rnum)).
Proof.
  intros y J0. eapply wp_mono; [apply jac_radau_run|]. cbv beta. intros J (H0 & H3 & H6 & H1 & H4 & H7 & H2 & H5 & H8) i j Hij.
  destruct (in3 i j Hij) as [[-> | [-> | ->]] [-> | [-> | ->]]]; unfold lapack_ge; simpl Z.add;
  (eapply dpl_val; [|apply oreg_partial; lia]); simpl; cbv [dl Z.eqb Pos.eqb];
  simpl in H0, H1, H2, H3, H4, H5, H6, H7, H8; rewrite ?H0, ?H1, ?H2, ?H3, ?H4, ?H5, ?H6, ?H7, ?H8; lra.
Qed.
Lemma oreg_rodas_right : jacobian_on (fun i j => in_full 3 i j /\ (i = 3 \/ (i = 1 /\ j <> 1))) (lapack_ge 3) oreg_F (oreg_jac_rodas (K := Rnum)).
Proof.
  intros y J0. eapply wp_mono; [apply jac_rodas_run|]. cbv beta zeta. intros J (H0 & H3 & H6 & H1 & H4 & H7 & H2 & H5 & H8) i j [Hij HN].
  destruct (in3 i j Hij) as [[-> | [-> | ->]] [-> | [-> | ->]]]; try lia; unfold lapack_ge; simpl Z.add;
  (eapply dpl_val; [|apply oreg_partial; lia]); simpl; cbv [dl Z.eqb Pos.eqb];
  simpl in H0, H1, H2, H3, H4, H5, H6, H7, H8; rewrite ?H0, ?H1, ?H2, ?H3, ?H4, ?H5, ?H6, ?H7, ?H8; lra.
Qed.
(* second row: within 10^-16 (1+|y|) *)
Lemma oreg_rodas_near y J0 j : 1 <= j <= 3 -> wp (oreg_jac_rodas (K := Rnum) (fun k => y (k - 1)) J0) (fun J =>
  exists d, partial oreg_F y 1 (j - 1) d /\ (Rabs (J (lapack_ge 3 2 j) - d) <= 1/10000000000000000 * (1 + Rabs (y 0%Z) + Rabs (y 1%Z)))%R).
Proof.
  intros Hj. eapply wp_mono; [apply jac_rodas_run|]. cbv beta zeta. intros J (H0 & H3 & H6 & H1 & H4 & H7 & H2 & H5 & H8).
  exists (oreg_D y 1 (j - 1)). split; [apply oreg_partial; lia|].
  simpl in H1, H4, H7. unfold lapack_ge.
  set (e := (129416332341141/10000000000000000 - / (7727/100))%R).
  assert (He : (- (1/10000000000000000) <= e <= 1/10000000000000000)%R) by (unfold e; lra).
  pose proof (Rabs_pos (y 0)). pose proof (Rabs_pos (y 1)).
  assert (C : j = 1 \/ j = 2 \/ j = 3) by lia. destruct C as [-> | [-> | ->]]; simpl; cbv [dl Z.eqb Pos.eqb].
  - rewrite H1. replace (_ - _)%R with (- e * y 1%Z)%R by (unfold e; ring). rewrite Rabs_mult, Rabs_Ropp.
    assert (Rabs e <= 1/10000000000000000)%R by (apply Rabs_le; lra). pose proof (Rmult_le_compat_r (Rabs (y 1)) _ _ H9 H10). lra.
  - rewrite H4. replace (_ - _)%R with (- e * y 0%Z - e)%R by (unfold e; ring).
    assert (Rabs e <= 1/10000000000000000)%R by (apply Rabs_le; lra).
    pose proof (Rmult_le_compat_r (Rabs (y 0)) _ _ H H10).
    pose proof (Rabs_triang (- e * y 0%Z) (- e)). rewrite Rabs_mult, !Rabs_Ropp in H12.
    change (- e * y 0%Z - e)%R with (- e * y 0%Z + - e)%R. lra.
  - rewrite H7. replace (_ - _)%R with e by (unfold e; ring). assert (Rabs e <= 1/10000000000000000)%R by (apply Rabs_le; lra). lra.
Qed.
Lemma oreg_rodas_wrong y J0 : y 0 <> 0%R -> wrong_at (lapack_ge 3) oreg_F (oreg_jac_rodas (K := Rnum)) 1 1 y J0.
Proof.
  intros Hy. unfold wrong_at. eapply wp_mono; [apply jac_rodas_run|]. cbv beta zeta. intros J (H0 & _) HP.
  change (lapack_ge 3 1 1) with 0 in HP. rewrite H0 in HP.
  pose proof (uniqueness_limite _ _ _ _ HP (oreg_partial y 0 0 ltac:(lia))) as E. simpl in E. cbv [dl Z.eqb Pos.eqb] in E. apply Hy. lra.
Qed.
