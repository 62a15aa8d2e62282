(* The kernel of Rock4 over the reals is the ROCK4 step of Rock4Spec. *)
From Coq Require Import Reals Lra FunctionalExtensionality Permutation.
From Verif Require Import Base HessModel FieldLU Spec VecFun CMacros Rock4Model Rock4Spec Rock4Proofs Rock4Drive.
Open Scope Z_scope.
Local Arguments Z.mul : simpl never.
Local Arguments Z.add : simpl never.
Local Arguments Z.sub : simpl never.

Lemma for_rsum n (v : Z -> R) : 0 <= n -> for_ 0 (n - 1) (fun i r => r + v i)%R 0%R = rsum 0 (n - 1) v.
Proof.
  intros Hn.
  enough (H : for_ 0 (n - 1) (fun i r => r + v i)%R 0%R = rsum 0 (n - 1 + 1 - 1) v) by (rewrite H; f_equal; lia).
  apply (for_ind (fun j r => r = rsum 0 (j - 1) v)); [lia| |].
  - unfold rsum. rewrite sum_empty by lia. reflexivity.
  - intros j t Hj ->. unfold rsum. replace (j + 1 - 1) with j by lia. rewrite (sum_hi _ _ _ _ _ _ _ RTheory 0 j) by lia. reflexivity.
Qed.

Section Step.
Variable f : vec Rnum -> vec Rnum.
Variables RECF FPA FPB FPBE : Z -> R.
Variable h : R.
(* the coefficients of the block (i,r) as named in the literature *)
Definition t_mu1 (r : Z) : R := RECF (r - 1).
Definition t_mu (r j : Z) : R := RECF (r - 1 + 2 * j - 3).
Definition t_kappa (r j : Z) : R := RECF (r - 1 + 2 * j - 2).
Definition tab (T : Z -> R) (i j : Z) : R := T (50 * (j - 1) + (i - 1)).
Notation st r y n := (stages f (t_mu1 r) (t_mu r) (t_kappa r) h y n).
Lemma gs_stages r y n : gs (K := Rnum) RECF f h r y n = st r y n.
Proof.
  assert (HI : forall n, gs (K := Rnum) RECF f h r y n = st r y n /\ gs (K := Rnum) RECF f h r y (S n) = st r y (S n)).
  { clear n. induction n as [|n [I1 I2]].
    - split; [reflexivity|]. cbn [gs stages]. f_equal.
    - split; [exact I2|]. remember (S n) as m. cbn [gs stages]. subst m. rewrite I2.
      destruct (st r y (S n)) as [g gp]. f_equal. apply functional_extensionality. intros k.
      set (j := Z.of_nat (S (S n))). unfold v_lc3, c_mu, c_ka, t_mu, t_kappa.
      replace (r + 2 * (j - 2) + 1 - 1) with (r - 1 + 2 * j - 3) by lia.
      replace (r + 2 * (j - 2) + 2 - 1) with (r - 1 + 2 * j - 2) by lia.
      cbn [nadd nsub nmul nopp nlit Rnum]. rewrite Rlit_0.
      change (h * RECF (r - 1 + 2 * j - 3) * f g k + (1 - - RECF (r - 1 + 2 * j - 2)) * g k + - RECF (r - 1 + 2 * j - 2) * gp k =
        h * RECF (r - 1 + 2 * j - 3) * f g k + (1 + RECF (r - 1 + 2 * j - 2)) * g k - RECF (r - 1 + 2 * j - 2) * gp k)%R. ring. }
  apply HI.
Qed.
Lemma G_stage r y d : G (K := Rnum) RECF f h r y d = stage f (t_mu1 r) (t_mu r) (t_kappa r) h y (Z.to_nat d).
Proof. unfold G, stage. rewrite gs_stages. reflexivity. Qed.
Variables (i : Z).
Notation a j := (tab FPA i j).
Notation b j := (tab FPB i j).
Notation e j := (tab FPBE i j).
Lemma tab_a j : c_a (K := Rnum) FPA i j = a j.
Proof. unfold c_a, tab. f_equal. lia. Qed.
Lemma tab_b j : c_b (K := Rnum) FPB i j = b j.
Proof. unfold c_b, tab. f_equal. lia. Qed.
Lemma tab_e j : c_e (K := Rnum) FPBE i j = e j.
Proof. unfold c_e, tab. f_equal. lia. Qed.
Variable g : vec Rnum.
Lemma x_k2_fin : x_k2 (K := Rnum) FPA f h i g = fin_k2 f (a 1) h g.
Proof.
  unfold x_k2, fin_k2. f_equal. apply functional_extensionality. intros k. unfold v_x_lc1. rewrite tab_a.
  change (g k + h * a 1 * f g k = g k + h * (a 1 * f g k))%R. ring.
Qed.
Lemma x_k3_fin : x_k3 (K := Rnum) FPA f h i g = fin_k3 f (a 1) (a 2) (a 3) h g.
Proof.
  unfold x_k3, fin_k3. f_equal. apply functional_extensionality. intros k. unfold v_x_lc2. rewrite !tab_a, x_k2_fin.
  set (q := fin_k2 f (a 1) h g). change (g k + h * a 2 * f g k + h * a 3 * q k = g k + h * (a 2 * f g k + a 3 * q k))%R. ring.
Qed.
Lemma x_k4_fin : x_k4 (K := Rnum) FPA f h i g = fin_k4 f (a 1) (a 2) (a 3) (a 4) (a 5) (a 6) h g.
Proof.
  unfold x_k4, fin_k4. f_equal. apply functional_extensionality. intros k. unfold v_x_lc3. rewrite !tab_a, x_k2_fin, x_k3_fin.
  set (q := fin_k2 f (a 1) h g). set (p := fin_k3 f (a 1) (a 2) (a 3) h g).
  change (g k + h * a 4 * f g k + h * a 5 * q k + h * a 6 * p k = g k + h * (a 4 * f g k + a 5 * q k + a 6 * p k))%R. ring.
Qed.
Definition new_y : vec Rnum := fin_y f (a 1) (a 2) (a 3) (a 4) (a 5) (a 6) (b 1) (b 2) (b 3) (b 4) h g.
Lemma x_y_fin : x_y (K := Rnum) FPA FPB f h i g = new_y.
Proof.
  unfold x_y, new_y, fin_y. apply functional_extensionality. intros k. unfold v_x_lc4. rewrite !tab_b, x_k2_fin, x_k3_fin, x_k4_fin.
  set (q := fin_k2 f (a 1) h g). set (p := fin_k3 f (a 1) (a 2) (a 3) h g). set (l := fin_k4 _ _ _ _ _ _ _ _ _).
  change (g k + h * b 1 * f g k + h * b 2 * q k + h * b 3 * p k + h * b 4 * l k = g k + h * (b 1 * f g k + b 2 * q k + b 3 * p k + b 4 * l k))%R. ring.
Qed.
Definition new_err (size : Z) (atol rtol : R) : R :=
  fin_err f (a 1) (a 2) (a 3) (a 4) (a 5) (a 6) (b 1) (b 2) (b 3) (b 4) (e 1) (e 2) (e 3) (e 4) (e 5) h size atol rtol g.
Lemma x_err_fin size atol rtol : 0 <= size -> x_err (K := Rnum) FPA FPB FPBE size atol rtol f h i g = new_err size atol rtol.
Proof.
  intros Hs. unfold x_err, new_err, fin_err. rewrite !tab_b, !tab_e, x_y_fin, x_k2_fin, x_k3_fin, x_k4_fin. fold new_y.
  cbn [nsqrt ndiv nlit Rnum]. rewrite Rlit_0. f_equal. unfold Rdiv. rewrite Rmult_comm. f_equal.
  unfold rpp2. cbn [nlit Rnum]. rewrite ?Rlit_0.
  rewrite <- for_rsum by exact Hs. f_equal. apply functional_extensionality. intros k. apply functional_extensionality. intros s.
  unfold v_lc5. rewrite mABS_R. unfold fin_yhat. fold new_y.
  set (k2 := fin_k2 f (a 1) h g). set (k3 := fin_k3 f (a 1) (a 2) (a 3) h g). set (k4 := fin_k4 _ _ _ _ _ _ _ _ _).
  replace (new_y k) with (g k + h * (b 1 * f g k + b 2 * k2 k + b 3 * k3 k + b 4 * k4 k))%R at 3 by reflexivity.
  cbn [nadd nsub nmul ndiv nlit Rnum]. rewrite ?Rlit_0.
  set (u := f new_y k). set (yk := new_y k).
  change (x_k1 (K := Rnum) f g k) with (f g k). change (fin_k1 f g k) with (f g k).
  set (f1 := f g k). set (f2 := k2 k). set (f3 := k3 k). set (f4 := k4 k).
  replace (Rabs yk * rtol + atol)%R with (atol + rtol * Rabs yk)%R by (cbn [car Rnum] in *; ring).
  unfold Rdiv. set (iv := (/ (atol + rtol * Rabs yk))%R). clearbody f1 f2 f3 f4 u iv. cbn [car Rnum] in *.
  generalize (a 1) (b 1) (b 2) (b 3) (b 4) (e 1) (e 2) (e 3) (e 4) (e 5). intros. set (gk := g k). clearbody gk. cbn [car Rnum] in *.
  change Rnum.(car) with R in *. ring.
Qed.
End Step.

(* C28: one attempted step *)
Lemma kernel_step Sg userF (RECF FPA FPB FPBE : Z -> R) size atol rtol (f : vec Rnum -> vec Rnum) d i r (e : est (K := Rnum) Sg) h :
  (forall s v, snd (userF s v) = f v) -> 0 <= size -> right_block d i r -> NoDup (ptrs Sg e) -> e_H e (e_fn e) = f (e_H e (e_y e)) ->
  wp (kernel (K := Rnum) userF RECF FPA FPB FPBE size atol rtol d i r e h) (fun x => let '(e', err) := x in
    let g := stage f (t_mu1 RECF r) (t_mu RECF r) (t_kappa RECF r) h (e_H e (e_y e)) (Z.to_nat d) in
    e_H e' (e_temp e') = new_y f FPA FPB h i g /\ e_H e' (e_g0 e') = f (new_y f FPA FPB h i g) /\
    err = new_err f FPA FPB FPBE h i g size atol rtol /\
    e_y e' = e_y e /\ e_H e' (e_y e) = e_H e (e_y e) /\ NoDup (ptrs Sg e') /\ Permutation (ptrs Sg e) (ptrs Sg e')).
Proof.
  intros HF Hs Hb HN Hf.
  pose proof (kernel_spec Sg userF RECF FPA FPB FPBE size atol rtol f HF h r (e_H e (e_y e)) d i e Hb HN eq_refl Hf) as X.
  eapply wp_mono; [exact X|]. intros [e' err] (Y1 & Y2 & Y3 & Y4 & Y5 & Y6 & _ & Y7 & Y8 & Y9 & Y10 & Y11 & _). cbn [fst snd] in *.
  rewrite <- G_stage. rewrite <- x_y_fin, <- x_err_fin by exact Hs.
  assert (HP : Permutation (ptrs Sg e) (ptrs Sg e')).
  { unfold ptrs. rewrite Y4, Y6, Y7, Y8, Y9, Y10. destruct Y11 as [[-> ->]|[-> ->]]; [apply Permutation_refl|].
    do 6 apply perm_skip. apply perm_swap. }
  repeat split; auto.
  - rewrite Y4 in Y5. exact Y5.
  - eapply Permutation_NoDup; eassumption.
Qed.
