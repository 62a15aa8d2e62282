(* The test programs. *)
From Coq Require Import ZArith Bool List Reals Lra Lia Ranalysis.
From Verif Require Import Base FieldLU HessModel Spec HessPathProofs SdirkSpec LaplModel LaplSpec LaplTop CMacros TestModel.
Open Scope R_scope.

Ltac arr := unfold at2; repeat (first [rewrite rd_ok by lia | rewrite wr_ok by lia]; cbn [bind wp]).
Ltac rlit := cbn [nlit nadd nsub nmul ndiv nopp nltb nsqrt Rnum]; rewrite ?Rlit_0.

(* ---- F.hpp ---- *)
Section F.
Variable n : Z.
Hypothesis Hn : (2 <= n)%Z.
Lemma n_pos : 1 <= IZR n - 1.
Proof. assert (2 <= IZR n) by now apply IZR_le. lra. Qed.
Lemma h_eq : f_h (K := Rnum) n = 1 / IZR (n - 1).
Proof. unfold f_h. rlit. now rewrite minus_IZR. Qed.
Lemma nm1 : 1 <= IZR (n - 1).
Proof. apply IZR_le. lia. Qed.
Lemma lap_0 x : laplace n x 0 = (- 2 * x 0%Z + 2 * x 1%Z) / (1 / IZR (n - 1)) ^ 2.
Proof.
  pose proof nm1. unfold laplace, mirror. cbn [Z.ltb Z.sub Z.opp Z.add Z.compare Pos.add]. destruct (Z.leb_spec n 1); [lia|]. field. lra.
Qed.
Lemma lap_mid x i : (1 <= i <= n - 2)%Z -> laplace n x i = (x (i - 1)%Z - 2 * x i + x (i + 1)%Z) / (1 / IZR (n - 1)) ^ 2.
Proof.
  intros Hi. unfold laplace, mirror. destruct (Z.ltb_spec (i - 1) 0); [lia|]. destruct (Z.leb_spec n (i - 1)); [lia|].
  destruct (Z.ltb_spec (i + 1) 0); [lia|]. destruct (Z.leb_spec n (i + 1)); [lia|]. reflexivity.
Qed.
Lemma lap_n x : laplace n x (n - 1) = (2 * x (n - 2)%Z - 2 * x (n - 1)%Z) / (1 / IZR (n - 1)) ^ 2.
Proof.
  pose proof nm1. unfold laplace, mirror. destruct (Z.ltb_spec (n - 1 - 1) 0); [lia|]. destruct (Z.leb_spec n (n - 1 - 1)); [lia|].
  destruct (Z.ltb_spec (n - 1 + 1) 0); [lia|]. destruct (Z.leb_spec n (n - 1 + 1)); [|lia].
  replace (2 * (n - 1) - (n - 1 + 1))%Z with (n - 2)%Z by lia. replace (n - 1 - 1)%Z with (n - 2)%Z by lia. field. lra.
Qed.
(* a loop over the inner points, when the first element is there *)
Lemma inner_loop (f : Z -> (Z -> car Rnum) -> out (Z -> car Rnum)) (t : Z -> R) o : o 0%Z = t 0%Z ->
  (forall i o, (1 <= i <= n - 2)%Z -> exists o', f i o = Ok o' /\ o' i = t i /\ forall j, j <> i -> o' j = o j) ->
  exists o', forM 1 (n - 2) f o = Ok o' /\ (forall j, (0 <= j <= n - 2)%Z -> o' j = t j) /\ forall j, (j < 0 \/ n - 1 <= j)%Z -> o' j = o j.
Proof.
  intros H0 H. assert (W : wp (forM 1 (n - 2) f o) (fun o' => (forall j, (0 <= j < n - 2 + 1)%Z -> o' j = t j) /\ forall j, (j < 0 \/ n - 1 <= j)%Z -> o' j = o j)).
  { apply (forM_ind (fun i (o' : Z -> car Rnum) => (forall j, (0 <= j < i)%Z -> o' j = t j) /\ forall j, (j < 0 \/ n - 1 <= j)%Z -> o' j = o j)); [lia| |].
    - split; [|reflexivity]. intros j Hj. replace j with 0%Z by lia. exact H0.
    - intros i o' Hi [G1 G2]. destruct (H i o' Hi) as (o'' & E & E1 & E2). rewrite E. cbn [wp]. split.
      + intros j Hj. destruct (Z.eq_dec j i) as [->|]; [exact E1|]. rewrite E2 by assumption. apply G1. lia.
      + intros j Hj. rewrite E2 by lia. now apply G2. }
  apply wp_ok in W. destruct W as (o' & E & G1 & G2). exists o'. split; [exact E|]. split; [|exact G2]. intros j Hj. apply G1. lia.
Qed.
Lemma fin (o o' : vec Rnum) (t : Z -> R) v : (forall j, (0 <= j <= n - 2)%Z -> o' j = t j) -> (forall j, (j < 0 \/ n - 1 <= j)%Z -> o' j = o j) -> v = t (n - 1)%Z ->
  (forall i, (0 <= i < n)%Z -> upd o' (n - 1) v i = t i) /\ forall i, (i < 0 \/ n <= i)%Z -> upd o' (n - 1) v i = o i.
Proof.
  intros H1 H2 Hv. split; intros i Hi.
  - destruct (Z.eq_dec i (n - 1)) as [->|]; [now rewrite upd_same|]. rewrite upd_other by assumption. apply H1. lia.
  - rewrite upd_other by lia. apply H2. lia.
Qed.
Lemma sq1 x : x / (1 / IZR (n - 1)) ^ 2 = x / (1 / IZR (n - 1) * (1 / IZR (n - 1))).
Proof. f_equal. ring. Qed.
Ltac stencil t o' Qe Qa Qb := arr; rlit; rewrite !h_eq;
  match goal with |- context [forM 1 (n - 2) ?f ?o] => destruct (inner_loop f t o) as (o' & Qe & Qa & Qb) end;
  [rewrite upd_same, lap_0, sq1; pose proof nm1; unfold vec in *; cbn [car Rnum] in *; field; lra
  |let i := fresh "i" in let o := fresh "o" in let Hi := fresh "Hi" in intros i o Hi; arr; rewrite ?upd_same; eexists; split; [reflexivity|];
    split; [rewrite upd_same, lap_mid, sq1 by exact Hi; rlit; rewrite ?h_eq; pose proof nm1; unfold vec in *; cbn [car Rnum] in *; field; lra|intros j Hj; rewrite !upd_other by exact Hj; reflexivity]
  |rewrite Qe; cbn [bind]; arr].
Lemma fL_ok x s a b o : exists r, f_L (K := Rnum) n x s a b o = Ok r /\ (forall i, (0 <= i < n)%Z -> r i = a * laplace n x i + b * s i) /\ forall i, (i < 0 \/ n <= i)%Z -> r i = o i.
Proof.
  unfold f_L. stencil (fun i => a * laplace n x i + b * s i) o' Qe Qa Qb.
  eexists. split; [reflexivity|]. apply (fin _ _ (fun i => a * laplace n x i + b * s i) _ Qa).
  - intros j Hj. rewrite Qb by exact Hj. rewrite upd_other by lia. reflexivity.
  - rewrite lap_n, sq1. rlit. pose proof nm1. unfold vec in *; cbn [car Rnum] in *. field. lra.
Qed.
Lemma fA_ok x s a b g o : exists r, f_A (K := Rnum) n x s a b g o = Ok r /\ (forall i, (0 <= i < n)%Z -> r i = a * (laplace n x i + g i) + b * s i) /\ forall i, (i < 0 \/ n <= i)%Z -> r i = o i.
Proof.
  unfold f_A. stencil (fun i => a * (laplace n x i + g i) + b * s i) o' Qe Qa Qb.
  eexists. split; [reflexivity|]. apply (fin _ _ (fun i => a * (laplace n x i + g i) + b * s i) _ Qa).
  - intros j Hj. rewrite Qb by exact Hj. rewrite upd_other by lia. reflexivity.
  - rewrite lap_n, sq1. rlit. pose proof nm1. unfold vec in *; cbn [car Rnum] in *. field. lra.
Qed.
Lemma fAc_ok x s a b c g o : exists r, f_Ac (K := Rnum) n x s a b c g o = Ok r /\ (forall i, (0 <= i < n)%Z -> r i = a * (laplace n x i + g i) + b * x i + c * s i) /\ forall i, (i < 0 \/ n <= i)%Z -> r i = o i.
Proof.
  unfold f_Ac. stencil (fun i => a * (laplace n x i + g i) + b * x i + c * s i) o' Qe Qa Qb.
  eexists. split; [reflexivity|]. apply (fin _ _ (fun i => a * (laplace n x i + g i) + b * x i + c * s i) _ Qa).
  - intros j Hj. rewrite Qb by exact Hj. rewrite upd_other by lia. reflexivity.
  - rewrite lap_n, sq1. rlit. pose proof nm1. unfold vec in *; cbn [car Rnum] in *. field. lra.
Qed.
Lemma fLc_ok x s a b c o : exists r, f_Lc (K := Rnum) n x s a b c o = Ok r /\ (forall i, (0 <= i < n)%Z -> r i = a * laplace n x i + b * x i + c * s i) /\ forall i, (i < 0 \/ n <= i)%Z -> r i = o i.
Proof.
  unfold f_Lc. stencil (fun i => a * laplace n x i) o' Qe Qa Qb.
  match goal with |- context [upd o' (n - 1) ?v] => destruct (fin o o' (fun i => a * laplace n x i) v Qa) as [F1 F2] end.
  { intros j Hj. rewrite Qb by exact Hj. rewrite upd_other by lia. reflexivity. }
  { rewrite lap_n, sq1. rlit. pose proof nm1. unfold vec in *; cbn [car Rnum] in *. field. lra. }
  match goal with |- context [forM 0 (n - 1) ?f ?o2] => set (o3 := o2) in *;
    assert (W : wp (forM 0 (n - 1) f o3) (fun r => (forall i, (0 <= i < n - 1 + 1)%Z -> r i = a * laplace n x i + b * x i + c * s i) /\ forall i, (i < 0 \/ n - 1 + 1 <= i)%Z -> r i = o3 i)) end.
  { apply (forM_ind (fun k (r : vec Rnum) => (forall i, (0 <= i < k)%Z -> r i = a * laplace n x i + b * x i + c * s i) /\ forall i, (i < 0 \/ k <= i)%Z -> r i = o3 i)); [lia|split; [intros; lia|reflexivity]|].
    intros i r Hi [G1 G2]. arr. split.
    - intros j Hj. destruct (Z.eq_dec j i) as [->|]; [rewrite upd_same, G2, F1 by lia; rlit; unfold vec in *; cbn [car Rnum] in *; ring|]. rewrite upd_other by assumption. apply G1. lia.
    - intros j Hj. rewrite upd_other by lia. apply G2. lia. }
  apply wp_ok in W. destruct W as (r & R1 & R2 & R3). exists r. split; [exact R1|]. split; [intros i Hi; apply R2; lia|].
  intros i Hi. rewrite R3 by lia. apply F2. lia.
Qed.
End F.

(* ---- the exact solution of the heat equation ---- *)
Section Exact.
Variable n : Z.
Hypothesis Hn : (2 <= n)%Z.
Let th := PI * 25 / IZR (n - 1).
Let lam := -2 * (1 - cos th) / (1 / IZR (n - 1)) ^ 2.
Lemma pi_eq : ex_pi (K := Rnum) atan = PI.
Proof. unfold ex_pi. rlit. rewrite atan_1. lra. Qed.
Lemma th_n : th * IZR (n - 1) = PI * 25.
Proof. pose proof (nm1 n Hn). unfold th. field. lra. Qed.
Lemma sin_k k : sin (PI * IZR k) = 0.
Proof. apply sin_eq_0_1. exists k. ring. Qed.
Lemma th_ne : cos th <> 1.
Proof.
  intros H. assert (E : sin (th / 2) = 0).
  { pose proof (cos_2a_sin (th / 2)) as Q. replace (2 * (th / 2)) with th in Q by field. rewrite H in Q. nra. }
  apply sin_eq_0_0 in E. destruct E as (k & Hk). pose proof th_n as T. pose proof PI_RGT_0.
  assert (Q : PI * 25 = PI * (2 * IZR k * IZR (n - 1))) by (rewrite <- T; replace th with (2 * (th / 2)) by field; rewrite Hk; ring).
  apply Rmult_eq_reg_l in Q; [|lra]. rewrite <- !mult_IZR in Q. apply eq_IZR in Q. lia.
Qed.
Lemma lam_ne : lam <> 0.
Proof.
  pose proof th_ne as H. pose proof (nm1 n Hn). unfold lam. replace (-2 * (1 - cos th) / (1 / IZR (n - 1)) ^ 2) with (-2 * (1 - cos th) * (IZR (n - 1) * IZR (n - 1))) by (field; lra).
  assert (0 < IZR (n - 1) * IZR (n - 1)) by nra. intros Q. apply Rmult_integral in Q. destruct Q; [lra|lra].
Qed.
Lemma eig_eq : ex_eigenvalue (K := Rnum) cos atan n = lam.
Proof. unfold ex_eigenvalue. rewrite pi_eq. unfold ex_h, ex_l. rlit. fold th. unfold lam. rewrite (sq1 n). reflexivity. Qed.
Lemma cinit_ok x : exists r, ex_cinit (K := Rnum) cos atan n x = Ok r /\ veq n r (fun i => cos (th * IZR i)).
Proof.
  unfold ex_cinit. rewrite pi_eq. unfold ex_l. rlit. fold th.
  match goal with |- context [forM 0 (n - 1) ?f x] => assert (W : wp (forM 0 (n - 1) f x) (fun r => forall j, (0 <= j < n - 1 + 1)%Z -> r j = cos (th * IZR j))) end.
  { apply (forM_ind (fun k (r : Z -> car Rnum) => forall j, (0 <= j < k)%Z -> r j = cos (th * IZR j))); [lia|intros; lia|].
    intros i r Hi H. arr. intros j Hj. destruct (Z.eq_dec j i) as [->|]; [rewrite upd_same, Rlit_0; reflexivity|]. rewrite upd_other by assumption. apply H. lia. }
  apply wp_ok in W. destruct W as (r & E & H). exists r. split; [exact E|]. intros j Hj. apply H. lia.
Qed.
Definition amp (beta t : R) : R := exp (lam * t) * (1 + beta / lam) - beta / lam.
Lemma sol_ok t beta x : exists r, ex_sol (K := Rnum) cos exp atan n t beta x = Ok r /\ veq n r (fun i => amp beta t * cos (th * IZR i)).
Proof.
  unfold ex_sol. destruct (cinit_ok x) as (r0 & E0 & H0). rewrite E0. cbn [bind]. rewrite eig_eq. rlit. fold (amp beta t).
  match goal with |- context [forM 0 (n - 1) ?f r0] => assert (W : wp (forM 0 (n - 1) f r0) (fun r => (forall j, (0 <= j < n - 1 + 1)%Z -> r j = amp beta t * cos (th * IZR j)) /\ forall j, (n - 1 + 1 <= j < n)%Z -> r j = cos (th * IZR j))) end.
  { apply (forM_ind (fun k (r : Z -> car Rnum) => (forall j, (0 <= j < k)%Z -> r j = amp beta t * cos (th * IZR j)) /\ forall j, (k <= j < n)%Z -> r j = cos (th * IZR j))); [lia|split; [intros; lia|intros j Hj; apply H0; lia]|].
    intros i r Hi [H1 H2]. arr. split.
    - intros j Hj. destruct (Z.eq_dec j i) as [->|]; [rewrite upd_same, H2 by lia; cbn [nmul Rnum]; apply Rmult_comm|]. rewrite upd_other by assumption. apply H1. lia.
    - intros j Hj. rewrite upd_other by lia. apply H2. lia. }
  apply wp_ok in W. destruct W as (r & E & H & _). exists r. split; [exact E|]. intros j Hj. apply H. lia.
Qed.
Lemma mirror_cos i : (-1 <= i <= n)%Z -> mirror n (fun i => cos (th * IZR i)) i = cos (th * IZR i).
Proof.
  intros Hi. unfold mirror. destruct (Z.ltb_spec i 0).
  - rewrite opp_IZR. rewrite <- cos_neg. f_equal. ring.
  - destruct (Z.leb_spec n i); [|reflexivity]. assert (i = n) by lia. subst i. pose proof th_n as T.
    replace (2 * (n - 1) - n)%Z with (n - 1 - 1)%Z by lia. replace (IZR n) with (IZR (n - 1) + 1) by (rewrite minus_IZR; ring).
    rewrite (minus_IZR (n - 1) 1). rewrite Rmult_minus_distr_l, Rmult_plus_distr_l, T, cos_minus, cos_plus, sin_k. ring.
Qed.
Lemma eigenvector c i : (0 <= i < n)%Z -> laplace n (fun i => c * cos (th * IZR i)) i = lam * (c * cos (th * IZR i)).
Proof.
  intros Hi. assert (M : forall k, mirror n (fun i => c * cos (th * IZR i)) k = c * mirror n (fun i => cos (th * IZR i)) k) by (intros k; unfold mirror; destruct (k <? 0)%Z, (n <=? k)%Z; reflexivity).
  unfold laplace. rewrite !M, !mirror_cos by lia. rewrite plus_IZR, minus_IZR, Rmult_minus_distr_l, Rmult_plus_distr_l, cos_minus, cos_plus, Rmult_1_r.
  pose proof (nm1 n Hn). unfold lam. field. lra.
Qed.
Lemma amp_0 beta : amp beta 0 = 1.
Proof. unfold amp. rewrite Rmult_0_r, exp_0. ring. Qed.
Lemma amp_der beta t : derivable_pt_lim (amp beta) t (lam * amp beta t + beta).
Proof.
  replace (lam * amp beta t + beta) with (exp (lam * t) * (lam * 1) * (1 + beta / lam)) by (unfold amp; field; apply lam_ne).
  unfold amp. replace (exp (lam * t) * (lam * 1) * (1 + beta / lam)) with (exp (lam * t) * (lam * 1) * (1 + beta / lam) - 0) by ring.
  apply (derivable_pt_lim_minus (fun t => exp (lam * t) * (1 + beta / lam)) (fun _ => beta / lam)); [|apply derivable_pt_lim_const].
  replace (exp (lam * t) * (lam * 1) * (1 + beta / lam)) with ((1 + beta / lam) * (exp (lam * t) * (lam * 1))) by ring.
  apply (derivable_pt_lim_ext (fun t => (1 + beta / lam) * exp (lam * t))); [intros; ring|].
  apply (derivable_pt_lim_scal (fun t => exp (lam * t)) (1 + beta / lam)).
  apply (derivable_pt_lim_comp (fun t => lam * t) exp); [|apply derivable_pt_lim_exp].
  apply (derivable_pt_lim_scal (fun t => t) lam). apply derivable_pt_lim_id.
Qed.
Lemma exact_solution beta : exists u : R -> Z -> R,
  (forall t e, exists r, ex_sol (K := Rnum) cos exp atan n t beta e = Ok r /\ veq n r (u t)) /\
  (forall e, exists r, ex_cinit (K := Rnum) cos atan n e = Ok r /\ veq n r (u 0)) /\
  forall t i, (0 <= i < n)%Z -> derivable_pt_lim (fun t => u t i) t (laplace n (u t) i + beta * u 0 i).
Proof.
  exists (fun t i => amp beta t * cos (th * IZR i)). split; [intros t e; apply sol_ok|]. split.
  - intros e. destruct (cinit_ok e) as (r & E & H). exists r. split; [exact E|]. intros i Hi. rewrite (H i Hi), amp_0. ring.
  - intros t i Hi. rewrite eigenvector, amp_0 by exact Hi.
    replace (lam * (amp beta t * cos (th * IZR i)) + beta * (1 * cos (th * IZR i))) with (cos (th * IZR i) * (lam * amp beta t + beta)) by ring.
    apply (derivable_pt_lim_ext (fun t => cos (th * IZR i) * amp beta t)); [intros; ring|]. apply (derivable_pt_lim_scal (amp beta)). apply amp_der.
Qed.
End Exact.

(* ---- the spectral radius of F.hpp ---- *)
Lemma pi_lower : 314159265358979 / 10 ^ 14 <= PI.
Proof.
  destruct (PI_2_3_7_ineq 7) as [H _]. unfold tg_alt, PI_2_3_7_tg, Ratan_seq in H. cbn [sum_f_R0 Nat.mul Nat.add INR pow] in H. lra.
Qed.
Lemma pi_upper : PI <= 314159265358980 / 10 ^ 14.
Proof.
  destruct (PI_2_3_7_ineq 7) as [_ H]. unfold tg_alt, PI_2_3_7_tg, Ratan_seq in H. cbn [sum_f_R0 Nat.mul Nat.add INR pow] in H. lra.
Qed.
Lemma cos_quad d : 1 - cos d <= d * d / 2.
Proof.
  assert (H : forall x, 0 <= x -> sin x * sin x <= x * x).
  { intros x Hx. pose proof (SIN_bound x). destruct (Rle_dec 1 x); [nra|]. destruct (Req_dec x 0) as [->|]; [rewrite sin_0; lra|].
    assert (0 < sin x) by (apply sin_gt_0; pose proof pi_lower; lra). assert (sin x < x) by (apply sin_lt_x; lra). nra. }
  assert (Q : 1 - cos d = 2 * (sin (d / 2) * sin (d / 2))).
  { pose proof (cos_2a_sin (d / 2)) as Q. replace (2 * (d / 2)) with d in Q by field. lra. }
  rewrite Q. destruct (Rle_dec 0 d).
  - specialize (H (d / 2) ltac:(lra)). lra.
  - specialize (H (- (d / 2)) ltac:(lra)). rewrite sin_neg in H. lra.
Qed.
Lemma for_ext {St} (f g : Z -> St -> St) lo hi s : (forall i r, f i r = g i r) -> for_ lo hi f s = for_ lo hi g s.
Proof. intros H. unfold for_. generalize (Z.to_nat (hi - lo + 1)). intros k. revert lo s. induction k as [|k IH]; intros lo s; cbn [iter]; [reflexivity|]. now rewrite H, IH. Qed.
Section Rho.
Variable n : Z.
Hypothesis Hn : (2 <= n)%Z.
Let p := 314159265359 / 10 ^ 11.
Let h2 := (1 / IZR (n - 1)) ^ 2.
Let term (i : Z) := 2 / h2 * (1 - cos (IZR i * p / IZR n)).
Lemma h2_inv : / h2 = IZR (n - 1) * IZR (n - 1) /\ 0 < / h2.
Proof. pose proof (nm1 n Hn). assert (E : / h2 = IZR (n - 1) * IZR (n - 1)) by (unfold h2; field; lra). split; [exact E|]. rewrite E. nra. Qed.
Lemma term_pos i : 0 <= term i.
Proof. unfold term. pose proof (COS_bound (IZR i * p / IZR n)) as Q. destruct h2_inv as [_ H]. unfold Rdiv in *. apply Rmult_le_pos; [lra|lra]. Qed.
Lemma max_R a b : std_max (K := Rnum) a b = Rmax a b.
Proof. unfold std_max. rlit. unfold Rmax. destruct (Rltb_spec a b), (Rle_dec a b); lra. Qed.
Lemma abs_R a : std_abs (K := Rnum) a = Rabs a.
Proof. unfold std_abs. rlit. unfold Rabs. destruct (Rltb_spec a 0), (Rcase_abs a); lra. Qed.
Lemma rho_eq : f_rho (K := Rnum) n cos = for_ 0 (n - 1) (fun i r => Rmax (term i) r) 0.
Proof.
  unfold f_rho. rlit. rewrite Rlit_neg, (h_eq n). change (10 ^ 11)%Z with 100000000000%Z.
  apply for_ext. intros i r. rewrite max_R, abs_R. f_equal. rewrite Rlit_0.
  replace (314159265359 / 100000000000) with p by (unfold p; lra).
  replace (2 / (1 / IZR (n - 1) * (1 / IZR (n - 1))) * (cos (IZR i * p / IZR n) - 1)) with (- term i).
  - rewrite Rabs_Ropp. apply Rabs_pos_eq, term_pos.
  - unfold term, h2. replace ((1 / IZR (n - 1)) ^ 2) with (1 / IZR (n - 1) * (1 / IZR (n - 1))) by ring. ring.
Qed.
Lemma rho_upper : (n < 2 ^ 31)%Z -> f_rho (K := Rnum) n cos < 4 / h2.
Proof.
  intros Hb. rewrite rho_eq. destruct h2_inv as [_ H0].
  apply (for_ind (fun _ r => r < 4 / h2)); [lia|unfold Rdiv; lra|]. intros i r Hi Hr. apply Rmax_lub_lt; [|exact Hr].
  unfold term. unfold Rdiv. set (a := IZR i * p * / IZR n).
  assert (Ha : 0 <= a < PI).
  { assert (2 <= IZR n) by now apply IZR_le. assert (IZR n <= 2147483647) by (apply IZR_le; lia). assert (0 <= IZR i) by (apply IZR_le; lia).
    assert (IZR i <= IZR n - 1) by (rewrite <- minus_IZR; apply IZR_le; lia).
    unfold a. pose proof pi_lower as L. assert (p > 0) by (unfold p; lra). split.
    - apply Rmult_le_pos; [apply Rmult_le_pos; lra|]. left. apply Rinv_0_lt_compat. lra.
    - apply (Rmult_lt_reg_r (IZR n)); [lra|]. rewrite Rmult_assoc, Rinv_l by lra. rewrite Rmult_1_r. unfold p in *. nra. }
  assert (C : -1 < cos a). { rewrite <- cos_PI. apply cos_decreasing_1; lra. }
  nra.
Qed.
Lemma rho_lower : (n < 2 ^ 31)%Z -> 4 / h2 <= f_rho (K := Rnum) n cos + 10.
Proof.
  intros Hb. assert (T : term (n - 1) <= f_rho (K := Rnum) n cos).
  { rewrite rho_eq. assert (W : forall j, (0 <= j < n - 1 + 1)%Z -> term j <= for_ 0 (n - 1) (fun i r => Rmax (term i) r) 0).
    { apply (for_ind (fun k r => forall j, (0 <= j < k)%Z -> term j <= r)); [lia|intros; lia|]. intros i r Hi H j Hj.
      destruct (Z.eq_dec j i) as [->|]; [apply Rmax_l|]. eapply Rle_trans; [apply H; lia|apply Rmax_r]. }
    apply W. lia. }
  apply (Rle_trans _ (term (n - 1) + 10)); [|lra]. unfold term. destruct h2_inv as [E E0]. unfold Rdiv. rewrite E. pose proof (nm1 n Hn) as N1.
  set (a := IZR (n - 1) * p * / IZR n). set (d := PI - a).
  assert (N : IZR n = IZR (n - 1) + 1) by (rewrite minus_IZR; ring). assert (NB : IZR (n - 1) <= 2147483646) by (apply IZR_le; lia). set (m := IZR (n - 1)) in *.
  assert (C : cos a = - cos d). { unfold d. rewrite cos_minus, cos_PI, sin_PI. ring. }
  assert (D : -1 <= m * d <= 3142 / 1000).
  { assert (X : m * d = m * p / (m + 1) - m * (p - PI)). { unfold d, a. rewrite N. field. lra. }
    pose proof pi_lower. pose proof pi_upper.
    assert (G1 : 0 <= m * (p - PI) <= 1) by (unfold p; nra).
    assert (G2 : 0 <= m * p / (m + 1) <= 3142 / 1000).
    { split; [apply Rmult_le_pos; [unfold p; nra|left; apply Rinv_0_lt_compat; lra]|]. apply (Rmult_le_reg_r (m + 1)); [lra|].
      unfold Rdiv at 1. rewrite Rmult_assoc, Rinv_l by lra. unfold p; nra. }
    lra. }
  pose proof (cos_quad d) as Q. assert (m * d * (m * d) <= 10) by nra. rewrite C. nra.
Qed.
End Rho.
(* the operator: bounded by 4/h^2 in the maximum norm, and this value is taken *)
Lemma laplace_bound n x m : (2 <= n)%Z -> (forall i, (0 <= i < n)%Z -> Rabs (x i) <= m) -> forall i, (0 <= i < n)%Z -> Rabs (laplace n x i) <= 4 / (1 / IZR (n - 1)) ^ 2 * m.
Proof.
  intros Hn H i Hi. unfold laplace. destruct (h2_inv n Hn) as [E E0]. unfold Rdiv at 1 3. rewrite Rabs_mult, (Rabs_pos_eq (/ _)) by lra.
  pose proof (mirror_bound n Hn x (i - 1) m ltac:(lia) H) as B1. pose proof (mirror_bound n Hn x (i + 1) m ltac:(lia) H) as B2. specialize (H i Hi).
  assert (B : Rabs (mirror n x (i - 1) - 2 * x i + mirror n x (i + 1)) <= 4 * m).
  { apply abs_between in B1, B2, H. apply Rabs_le. lra. }
  nra.
Qed.
Definition zigzag (i : Z) : R := if Z.even i then 1 else -1.
Lemma laplace_zigzag n i : (2 <= n)%Z -> (0 <= i < n)%Z -> laplace n zigzag i = - (4 / (1 / IZR (n - 1)) ^ 2) * zigzag i.
Proof.
  intros Hn Hi. assert (M : forall k, (k = i - 1 \/ k = i + 1)%Z -> mirror n zigzag k = - zigzag i).
  { intros k Hk. unfold mirror, zigzag.
    assert (P : forall q, Z.even q = negb (Z.even i) -> (if Z.even q then 1 else -1) = - (if Z.even i then 1 else -1)) by (intros q ->; destruct (Z.even i); cbn; lra).
    assert (O : forall q, (exists r, q = i + 2 * r + 1)%Z -> Z.even q = negb (Z.even i)).
    { intros q (r & ->). replace (i + 2 * r + 1)%Z with (i + (2 * r + 1))%Z by lia. rewrite Z.even_add. replace (Z.even (2 * r + 1)) with false; [now destruct (Z.even i)|].
      rewrite Z.add_1_r, Z.even_succ, Z.odd_mul. reflexivity. }
    destruct (Z.ltb_spec k 0); [|destruct (Z.leb_spec n k)]; apply P, O.
    - exists 0%Z. lia.
    - exists (-1)%Z. lia.
    - destruct Hk as [-> | ->]; [exists (-1)%Z|exists 0%Z]; lia. }
  unfold laplace. rewrite !M by tauto. pose proof (nm1 n Hn). field. lra.
Qed.

(* ---- Fisher-KPP ---- *)
Lemma fk_f_eq u : fk_f (K := Rnum) u = Rmax 0 (u * (1 - u) / 2).
Proof.
  unfold fk_f. assert (E : std_max (K := Rnum) (nlit 0 0) (nlit 5 (-1) * u * (nlit 1 0 - u))%num = Rmax 0 (u * (1 - u) / 2)).
  { rewrite max_R. rlit. rewrite Rlit_neg. f_equal. change (10 ^ 1)%Z with 10%Z. lra. }
  rewrite E. unfold std_min. rlit. destruct (Rltb_spec (Rmax 0 (u * (1 - u) / 2)) 1) as [H|H]; [reflexivity|]. exfalso. apply H.
  apply Rmax_lub_lt; [lra|]. nra.
Qed.
Lemma fk_f_lip u v : Rabs (fk_f (K := Rnum) u - fk_f (K := Rnum) v) <= Rabs (u - v) / 2.
Proof.
  rewrite !fk_f_eq. assert (H : forall a b, a <= b -> Rabs (Rmax 0 (a * (1 - a) / 2) - Rmax 0 (b * (1 - b) / 2)) <= (b - a) / 2).
  { intros a b Hab. unfold Rmax. destruct (Rle_dec 0 (a * (1 - a) / 2)) as [A|A], (Rle_dec 0 (b * (1 - b) / 2)) as [B|B]; apply Rabs_le.
    - assert (0 <= a <= 1) by nra. assert (0 <= b <= 1) by nra. nra.
    - assert (0 <= a <= 1) by nra. assert (1 < b) by nra. nra.
    - assert (0 <= b <= 1) by nra. assert (a < 0) by nra. nra.
    - lra. }
  destruct (Rle_dec u v).
  - rewrite (Rabs_left1 (u - v)) by lra. specialize (H u v ltac:(lra)). lra.
  - rewrite Rabs_minus_sym, (Rabs_pos_eq (u - v)) by lra. specialize (H v u ltac:(lra)). lra.
Qed.
Section KPP.
Variable n : Z.
Hypothesis Hn : (2 <= n)%Z.
Let c := 2 / 1000 / (1 / IZR (n - 1)) ^ 2.
Lemma uh2_eq : fk_uh2 (K := Rnum) n = c.
Proof. unfold fk_uh2, c. rlit. rewrite Rlit_neg. change (10 ^ 3)%Z with 1000%Z. rewrite <- minus_IZR. f_equal. ring. Qed.
Lemma c_pos : 0 < c.
Proof. unfold c. destruct (h2_inv n Hn) as [_ H]. unfold Rdiv at 1. lra. Qed.
Lemma fk_ok x y : exists r, fk_rhs (K := Rnum) n x y = Ok r /\ (forall i, (0 <= i < n)%Z -> r i = c * diffusion n x i + fk_f (K := Rnum) (x i)) /\ forall i, (i < 0 \/ n <= i)%Z -> r i = y i.
Proof.
  unfold fk_rhs. arr. rlit. rewrite uh2_eq.
  match goal with |- context [forM 1 (n - 2) ?f ?o] => destruct (inner_loop n Hn f (fun i => c * diffusion n x i + fk_f (K := Rnum) (x i)) o) as (o' & Qe & Qa & Qb) end.
  - rewrite upd_same. unfold diffusion. rewrite Z.eqb_refl. destruct (Z.eqb_spec 0 (n - 1)); [lia|]. rewrite Rplus_0_l. reflexivity.
  - intros i o Hi. arr. eexists. split; [reflexivity|]. split; [|intros j Hj; rewrite !upd_other by exact Hj; reflexivity].
    rewrite upd_same. rlit. unfold diffusion. destruct (Z.eqb_spec i 0); [lia|]. destruct (Z.eqb_spec i (n - 1)); [lia|]. f_equal. f_equal. ring.
  - rewrite Qe. cbn [bind]. arr. eexists. split; [reflexivity|]. apply (fin n Hn _ _ (fun i => c * diffusion n x i + fk_f (K := Rnum) (x i)) _ Qa).
    + intros j Hj. rewrite Qb by exact Hj. rewrite upd_other by lia. reflexivity.
    + rlit. unfold diffusion. destruct (Z.eqb_spec (n - 1) 0); [lia|]. rewrite Z.eqb_refl, Rplus_0_r. replace (n - 1 - 1)%Z with (n - 2)%Z by lia. reflexivity.
Qed.
Lemma fk_lipschitz x1 x2 y1 y2 r1 r2 m : fk_rhs (K := Rnum) n x1 y1 = Ok r1 -> fk_rhs (K := Rnum) n x2 y2 = Ok r2 ->
  (forall i, (0 <= i < n)%Z -> Rabs (x1 i - x2 i) <= m) -> forall i, (0 <= i < n)%Z -> Rabs (r1 i - r2 i) <= fk_rho (K := Rnum) n * m.
Proof.
  intros E1 E2 Hm i Hi. destruct (fk_ok x1 y1) as (s1 & G1 & F1 & _). destruct (fk_ok x2 y2) as (s2 & G2 & F2 & _).
  rewrite E1 in G1. rewrite E2 in G2. injection G1 as <-. injection G2 as <-. rewrite F1, F2 by exact Hi.
  pose proof (fk_f_lip (x1 i) (x2 i)) as L. pose proof c_pos as Hc. unfold fk_rho. rewrite uh2_eq. rlit.
  assert (D : Rabs (diffusion n x1 i - diffusion n x2 i) <= 4 * m).
  { pose proof (abs_between _ _ (Hm i Hi)) as M0. unfold diffusion. apply Rabs_le.
    destruct (Z.eqb_spec i 0); destruct (Z.eqb_spec i (n - 1)); try (pose proof (abs_between _ _ (Hm (i - 1)%Z ltac:(lia)))); try (pose proof (abs_between _ _ (Hm (i + 1)%Z ltac:(lia)))); lra. }
  specialize (Hm i Hi). apply abs_between in D, L. apply Rabs_le. pose proof (Rabs_pos (x1 i - x2 i)). nra.
Qed.
Lemma fk_invariant x y r : fk_rhs (K := Rnum) n x y = Ok r -> (forall i, (0 <= i < n)%Z -> 0 <= x i <= 1) ->
  forall i, (0 <= i < n)%Z -> (x i = 0 -> 0 <= r i) /\ (x i = 1 -> r i <= 0).
Proof.
  intros E H i Hi. destruct (fk_ok x y) as (s & G & F & _). rewrite E in G. injection G as <-. rewrite F by exact Hi.
  pose proof c_pos as Hc. rewrite fk_f_eq.
  assert (D : (x i = 0 -> 0 <= diffusion n x i) /\ (x i = 1 -> diffusion n x i <= 0)).
  { unfold diffusion. destruct (Z.eqb_spec i 0); destruct (Z.eqb_spec i (n - 1)); try (pose proof (H (i - 1)%Z ltac:(lia))); try (pose proof (H (i + 1)%Z ltac:(lia))); lra. }
  split; intros X; rewrite X.
  - pose proof (proj1 D X). replace (0 * (1 - 0) / 2) with 0 by lra. rewrite Rmax_left by lra. nra.
  - pose proof (proj2 D X). replace (1 * (1 - 1) / 2) with 0 by lra. rewrite Rmax_left by lra. nra.
Qed.
End KPP.

(* ---- the distance ---- *)
Lemma normdiff_last n x y : (1 <= n)%Z -> l_normdiff (K := Rnum) n x y = Ok (Rabs (x (n - 1)%Z - y (n - 1)%Z)).
Proof.
  intros Hn. unfold l_normdiff.
  match goal with |- context [forM 0 (n - 1) ?f ?z] => assert (W : wp (forM 0 (n - 1) f z) (fun r => (n - 1 + 1 = 0)%Z \/ r = (x (n - 1 + 1 - 1)%Z - y (n - 1 + 1 - 1)%Z) * (x (n - 1 + 1 - 1)%Z - y (n - 1 + 1 - 1)%Z))) end.
  { apply (forM_ind (fun k (r : car Rnum) => k = 0%Z \/ r = (x (k - 1)%Z - y (k - 1)%Z) * (x (k - 1)%Z - y (k - 1)%Z))); [lia|now left|].
    intros i r Hi _. arr. right. replace (i + 1 - 1)%Z with i by lia. reflexivity. }
  apply wp_ok in W. destruct W as (r & E & [H|H]); [lia|]. rewrite E. cbn [bind]. rewrite H. replace (n - 1 + 1 - 1)%Z with (n - 1)%Z by lia.
  cbn [nsqrt Rnum]. f_equal. apply sqrt_Rsqr_abs.
Qed.
Lemma normdiff_refuted : exists n x y, (1 <= n)%Z /\ l_normdiff (K := Rnum) n x y = Ok 0 /\ sqrt (rsum 0 (n - 1) (fun i => (x i - y i) ^ 2)) = 1.
Proof.
  exists 2%Z, (fun i => if (i =? 0)%Z then 1 else 0), (fun _ => 0). split; [lia|]. split.
  - rewrite normdiff_last by lia. cbn. f_equal. rewrite Rminus_0_r. apply Rabs_R0.
  - rewrite (rsum_lo 0 (2 - 1)), (rsum_lo (0 + 1) (2 - 1)), rsum_empty by lia. cbn. replace ((1 - 0) * ((1 - 0) * 1) + ((0 - 0) * ((0 - 0) * 1) + 0)) with 1 by ring. apply sqrt_1.
Qed.
Lemma rho_refuted n : (2 <= n < 2 ^ 31)%Z -> exists lam u, (forall i, (0 <= i < n)%Z -> laplace n u i = lam * u i) /\ u 0%Z = 1 /\ f_rho (K := Rnum) n cos < Rabs lam.
Proof.
  intros [Hn Hb]. exists (- (4 / (1 / IZR (n - 1)) ^ 2)), zigzag. split; [intros i Hi; apply laplace_zigzag; assumption|]. split; [reflexivity|].
  rewrite Rabs_Ropp, Rabs_pos_eq; [now apply rho_upper|]. destruct (h2_inv n Hn) as [_ H]. unfold Rdiv at 1. lra.
Qed.
Lemma rho_partial n : (2 <= n < 2 ^ 31)%Z -> forall x m, (forall i, (0 <= i < n)%Z -> Rabs (x i) <= m) ->
  forall i, (0 <= i < n)%Z -> Rabs (laplace n x i) <= (f_rho (K := Rnum) n cos + 10) * m.
Proof.
  intros [Hn Hb] x m H i Hi. eapply Rle_trans; [apply (laplace_bound n x m Hn H i Hi)|]. apply Rmult_le_compat_r; [|now apply rho_lower].
  specialize (H i Hi). pose proof (Rabs_pos (x i)). lra.
Qed.
Lemma fk_rhs_spec n : (2 <= n)%Z -> forall x y, exists r, fk_rhs (K := Rnum) n x y = Ok r /\
  (forall i, (0 <= i < n)%Z -> r i = 2 / 1000 / (1 / IZR (n - 1)) ^ 2 * diffusion n x i + Rmax 0 (x i * (1 - x i) / 2)) /\ forall i, (i < 0 \/ n <= i)%Z -> r i = y i.
Proof.
  intros Hn x y. destruct (fk_ok n Hn x y) as (r & E & F & G). exists r. split; [exact E|]. split; [|exact G]. intros i Hi. rewrite F by exact Hi. now rewrite fk_f_eq.
Qed.
