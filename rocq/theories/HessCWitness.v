(* Witnesses and instances for the complex Hessenberg path and the memory safety theorems. *)
From Coq Require Import Reals Lra QArith.
From Verif Require Import Base Spec PivotSpec HessModel HessPathModel FieldLU HessProofs HessCProofs HessPathProofs HessSafe HessCPath HessWitness.
Open Scope Z_scope.

(* ---- pivots in the words of the specification ------------------------------ *)
Lemma sign_of_count ip k : sign_of ip k =
  (-1) ^ Z.of_nat (List.length (filter (fun q => negb (ip (q - 1) =? q)) (map Z.of_nat (seq 1 k)))).
Proof.
  induction k as [|k IH]; [reflexivity|]. cbn [sign_of]. rewrite IH, seq_S, map_app, filter_app, app_length.
  replace (1 + k)%nat with (S k) by lia. cbn [map filter].
  replace (Z.of_nat (S k) - 1) with (Z.of_nat k) by lia.
  destruct (Z.eqb_spec (ip (Z.of_nat k)) (Z.of_nat (S k))); cbn [negb List.length].
  - rewrite Nat.add_0_r. lia.
  - rewrite Nat2Z.inj_add, Z.pow_add_r by lia. lia.
Qed.
Lemma piv_inv_spec n ip : piv_inv n n ip -> decsol_pivots n ip.
Proof. intros [H1 H2]. split; [exact H1|]. rewrite H2. apply sign_of_count. Qed.
Lemma piv_inv_spec_r n ip : decsol_pivots n ip -> piv_inv n n ip.
Proof. intros [H1 H2]. split; [exact H1|]. rewrite H2. symmetry. apply sign_of_count. Qed.

Lemma real_safe_lemma (K : num) n (A : mat K) ip : 1 <= n ->
  exists A' ip' ret, dech n A ip = Ok (A', ip', ret) /\ 0 <= ret <= n /\
    (ret = 0 -> decsol_pivots n ip' /\ forall B, exists x, solh n A' ip' B = Ok x).
Proof.
  intros Hn. pose proof (dech_safe_lemma n A ip Hn) as H. apply wp_ok in H.
  destruct H as [[[A' ip'] ret] [E [Hr Hp]]]. exists A', ip', ret. split; [exact E|]. split; [exact Hr|].
  intros H0. specialize (Hp H0). split; [apply piv_inv_spec, Hp|]. intros B.
  pose proof (solh_safe_lemma n A' ip' B Hn Hp) as G. apply wp_ok in G. destruct G as [x [E' _]]. eauto.
Qed.
Lemma complex_safe_lemma (K : num) n (Ar Ai : mat K) ip : 1 <= n ->
  exists Ar' Ai' ip' ret, dechc n Ar Ai ip = Ok (Ar', Ai', ip', ret) /\ 0 <= ret <= n /\
    (ret = 0 -> decsol_pivots n ip' /\ forall Br Bi, exists x, solhc n Ar' Ai' ip' (Br, Bi) = Ok x).
Proof.
  intros Hn. pose proof (dechc_safe_lemma n Ar Ai ip Hn) as H. apply wp_ok in H.
  destruct H as [[[[Ar' Ai'] ip'] ret] [E [Hr Hp]]]. exists Ar', Ai', ip', ret. split; [exact E|]. split; [exact Hr|].
  intros H0. specialize (Hp H0). split; [apply piv_inv_spec, Hp|]. intros Br Bi.
  pose proof (solhc_safe_lemma n Ar' Ai' ip' (Br, Bi) Hn Hp) as G. apply wp_ok in G. destruct G as [x [E' _]]. eauto.
Qed.
Lemma path_safe_lemma (K : num) (dgehrd : mat K -> mat K * vec K * Z) n fac s (J : mat K) : 2 <= n ->
  (exists msg, h_decomr dgehrd n fac s J = Throw msg) \/
  exists s' A, h_decomr dgehrd n fac s J = Ok (s', A) /\ calhes s' = false /\ decsol_pivots n (ipr s') /\
    forall b, exists x, h_solvereal n s' A b = Ok x.
Proof.
  intros Hn. unfold h_decomr.
  assert (Hd : forall A tau,
    let r := ('(A1, ip, info) <- dech n (add_diag (equal_minus A) fac) (ipr s) ;;
      if negb (info =? 0) then Throw "decomr (dech)"
      else Ok (mkHst A1 (E2R s) (E2I s) tau ip (ipi s) false, A)) in
    (exists msg, r = Throw msg) \/ exists s' B, r = Ok (s', B) /\ calhes s' = false /\ decsol_pivots n (ipr s') /\
      forall b, exists x, h_solvereal n s' B b = Ok x).
  { intros A tau r. unfold r. destruct (real_safe_lemma K n (add_diag (equal_minus A) fac) (ipr s) ltac:(lia)) as (A1 & ip & ret & E & Hr & H0).
    rewrite E. cbn [bind]. destruct (Z.eqb_spec ret 0) as [E0|]; cbn [negb]; [|left; eauto].
    right. eexists _, _. split; [reflexivity|]. split; [reflexivity|]. destruct (H0 E0) as [Hp Hs]. split; [exact Hp|].
    intros b. unfold h_solvereal. cbn [htau hE1 ipr].
    pose proof (householder_safe_lemma n A tau b (S (Z.to_nat n)) true Hn ltac:(lia)) as G1. apply wp_ok in G1.
    destruct G1 as [c [-> _]]. cbn [bind]. destruct (Hs c) as [y ->]. cbn [bind].
    pose proof (householder_safe_lemma n A tau y (S (Z.to_nat n)) false Hn ltac:(lia)) as G2. apply wp_ok in G2.
    destruct G2 as [x [-> _]]. eauto. }
  destruct (calhes s).
  - destruct (dgehrd J) as [[A1 t1] info]. destruct (negb (info =? 0)); cbn [bind]; [left; eauto|]. apply Hd.
  - cbn [bind]. apply Hd.
Qed.
Lemma path_safec_lemma (K : num) n alpha beta s (A : mat K) : 2 <= n ->
  exists s', h_decomc n alpha beta s A = Ok s' /\
    (decsol_pivots n (ipi s') -> forall br bi, exists x, h_solvecomplex n s' A br bi = Ok x).
Proof.
  intros Hn. pose proof (decomc_safe n alpha beta s A ltac:(lia)) as H. apply wp_ok in H.
  destruct H as [s' [E _]]. exists s'. split; [exact E|]. intros Hp br bi. apply piv_inv_spec_r in Hp. unfold h_solvecomplex.
  pose proof (householder_safe_lemma n A (htau s') br (S (Z.to_nat n)) true Hn ltac:(lia)) as G1. apply wp_ok in G1.
  destruct G1 as [cr [-> _]]. cbn [bind].
  pose proof (householder_safe_lemma n A (htau s') bi (S (Z.to_nat n)) true Hn ltac:(lia)) as G2. apply wp_ok in G2.
  destruct G2 as [ci [-> _]]. cbn [bind].
  pose proof (solhc_safe_lemma n (E2R s') (E2I s') (ipi s') (cr, ci) ltac:(lia) Hp) as G3. apply wp_ok in G3.
  destruct G3 as [[yr yi] [-> _]]. cbn [bind].
  pose proof (householder_safe_lemma n A (htau s') yr (S (Z.to_nat n)) false Hn ltac:(lia)) as G4. apply wp_ok in G4.
  destruct G4 as [xr [-> _]]. cbn [bind].
  pose proof (householder_safe_lemma n A (htau s') yi (S (Z.to_nat n)) false Hn ltac:(lia)) as G5. apply wp_ok in G5.
  destruct G5 as [xi [-> _]]. eexists. reflexivity.
Qed.
(* an instance: a row exchange and a sign change *)
Example pivots_run : exists A' ip', @dech QNum 3 qH (fun _ => 0) = Ok (A', ip', 0) /\ ip' 0 = 2 /\ ip' 1 = 3 /\ ip' 2 = 1.
Proof. eexists _, _. split; [vm_compute; reflexivity|]. vm_compute. auto. Qed.

(* ---- complex path after a singular matrix: pivots read that were never written --- *)
Definition sgJ : Z -> Z -> Q := fun i j =>
  match i, j with 1, 1 => 1%Q | 1, 2 => (-1)%Q | 2, 1 => 1%Q | 2, 2 => 1%Q | _, _ => 0%Q end.
Definition sg_state (junk : Z) : @hst QNum :=
  @mkHst QNum (fun _ _ => 0%Q) (fun _ _ => 0%Q) (fun _ _ => 0%Q) (fun _ => 0%Q) (fun _ => junk) (fun _ => junk) false.
Lemma decomc_total (K : num) n alpha beta s (A : mat K) : 1 <= n -> exists s', h_decomc n alpha beta s A = Ok s'.
Proof.
  intros Hn. pose proof (decomc_safe n alpha beta s A Hn) as H. apply wp_ok in H. destruct H as [s' [E _]]. eauto.
Qed.
Lemma stale_pivot_lemma : exists (K : num) (n : Z) alpha beta (s s' : @hst K) (A : mat K) br bi msg,
  2 <= n /\ h_decomc n alpha beta s A = Ok s' /\ h_solvecomplex n s' A br bi = UB msg.
Proof.
  set (r := @h_decomc QNum 4 1%Q 1%Q (sg_state 100) sgJ).
  assert (H : exists s', r = Ok s') by exact (decomc_total QNum 4 1%Q 1%Q (sg_state 100) sgJ ltac:(lia)).
  destruct H as [s' E].
  assert (G : exists msg, (s <- r ;; @h_solvecomplex QNum 4 s sgJ (fun _ => 1%Q) (fun _ => 0%Q)) = UB msg).
  { unfold r. eexists. vm_compute. reflexivity. }
  destruct G as [msg G]. rewrite E in G. cbn [bind] in G.
  exists QNum, 4, 1%Q, 1%Q, (sg_state 100), s', sgJ, (fun _ => 1%Q), (fun _ => 0%Q), msg.
  split; [lia|]. split; [exact E|exact G].
Qed.

(* ---- complex path: singular matrices are not reported ---------------------- *)
Lemma sing_lemma :
  ~ cnonsingular 2 (newton_matrix 1 (m22 1 (-1) 1 1)%R) (newton_matrix 1 (fun _ _ => 0%R)).
Proof.
  intros H. destruct (H (v2 1 0)%R (v2 0 (-1))%R) with (i := 1) as [H1 _]; [|lia|unfold v2 in H1; cbn in H1; lra].
  intros i Hi. assert (C : i = 1 \/ i = 2) by lia.
  unfold rsum, sum. change (Z.to_nat (2 - 1 + 1)) with 2%nat. cbn [sumn]. change (1 + 1) with 2.
  unfold newton_matrix, m22, v2. destruct C as [->| ->]; cbn; split; lra.
Qed.
Lemma hess22 (A : Rmat) : upper_hessenberg 2 A.
Proof. intros i j Hi Hj Hij. lia. Qed.
Lemma singular_not_reported_lemma :
  exists (n : Z) alpha beta (J A : Rmat) (s s' : @hst Rnum),
    2 <= n /\ reduction n J A (htau s) /\
    ~ cnonsingular n (newton_matrix alpha J) (newton_matrix beta (fun _ _ => 0%R)) /\
    @h_decomc Rnum n alpha beta s A = Ok s'.
Proof.
  set (A := (m22 1 (-1) 1 1)%R).
  set (s := @mkHst Rnum (fun _ _ => 0%R) (fun _ _ => 0%R) (fun _ _ => 0%R) (fun _ => 0%R) (fun _ => 0) (fun _ => 0) false).
  destruct (decomc_total Rnum 2 1%R 1%R s A ltac:(lia)) as [s' E].
  exists 2, 1%R, 1%R, A, A, s, s'. split; [lia|]. split; [apply reduction_instance; [lia|apply hess22]|].
  split; [exact sing_lemma|exact E].
Qed.

(* ---- complex path: wrong solution of a nonsingular system ------------------- *)
Lemma dechc_witness_gen (Ar0 Ai0 : Rmat) ip :
  (forall i j, 1 <= i <= 2 -> 1 <= j <= 2 -> Ar0 i j = wAr i j /\ Ai0 i j = wAi i j) ->
  wp (@dechc Rnum 2 Ar0 Ai0 ip) (fun '(Ar, Ai, ip', ret) =>
    ret = 0 /\ ip' 0 = 2 /\
    Ar 1 1 = 3%R /\ Ai 1 1 = 0%R /\ Ar 1 2 = 0%R /\ Ai 1 2 = 1%R /\
    Ar 2 1 = (-1 / 3)%R /\ Ai 2 1 = (-1 / 3)%R /\ Ar 2 2 = (4 / 3)%R /\ Ai 2 2 = 0%R).
Proof.
  intros H0.
  destruct (H0 1 1 ltac:(lia) ltac:(lia)) as [R11 I11]. destruct (H0 1 2 ltac:(lia) ltac:(lia)) as [R12 I12].
  destruct (H0 2 1 ltac:(lia) ltac:(lia)) as [R21 I21]. destruct (H0 2 2 ltac:(lia) ltac:(lia)) as [R22 I22].
  unfold wAr, wAi, m22 in *; cbn in R11, I11, R12, I12, R21, I21, R22, I22.
  unfold dechc. step. apply wp_bind. change (negb (2 =? 1)) with true. cbv iota.
  change (2 - 1) with 1. rewrite forM_single. unfold dechc_step. cbv zeta.
  change (Z.min 2 (1 + 1)) with 2.
  change (@dechc_pivot Rnum 2 1 2 Ar0 Ai0) with (@dechc_pivot Rnum 2 1 (1 + 1) Ar0 Ai0).
  rewrite dechc_pivot_spec by lia.
  assert (P : pivC 1 Ar0 Ai0 = 2).
  { unfold pivC. change (1 + 1) with 2. rewrite R11, I11, R21, I21. rewrite !Rabs_pos_eq by lra. destruct (Rlt_dec _ _); [reflexivity|lra]. }
  rewrite P. cbn [bind]. repeat step. change (negb (2 =? 1)) with true. cbv iota.
  repeat step. cbn [bind]. tests. cbn [car Rnum] in *. rewrite ?R11, ?I11, ?R21, ?I21.
  destruct (Reqb_spec (Rabs 3 + Rabs 0) 0) as [E|_]; [rewrite !Rabs_pos_eq in E by lra; lra|].
  change (1 + 1) with 2. rewrite forM_single. repeat step. cbn [bind]. rewrite forM_single.
  cbv beta iota. unfold dechc_col. repeat step. u2. tests. cbn [car Rnum] in *. rewrite ?R12, ?I12, ?R22, ?I22.
  destruct (Reqb_spec (Rabs 0 + Rabs 1) 0) as [E|_]; [rewrite !Rabs_pos_eq in E by lra; lra|]. cbn [negb].
  change (1 + 1) with 2. rewrite forM_single. cbv beta iota. repeat step.
  destruct (Reqb_spec 1 0) as [E|_]; [lra|]. destruct (Reqb_spec 0 0) as [_|E]; [|lra].
  repeat step. cbn [wp bind]. repeat step. u2. tests.
  match goal with |- context [Reqb ?a ?b] => destruct (Reqb_spec a b) as [E|_] end.
  - exfalso. match type of E with (Rabs ?x + Rabs ?y = 0)%R => pose proof (Rabs2_zero x y E) as [X Y] end. lra.
  - cbn [wp]. split; [reflexivity|]. split; [reflexivity|]. u2. repeat split; field.
Qed.
Lemma wJ_nonsingular : cnonsingular 2 (newton_matrix 1 wJ) (newton_matrix 1 (fun _ _ => 0%R)).
Proof.
  intros xr xi H i Hi. pose proof (H 1 ltac:(lia)) as [H1 H2]. pose proof (H 2 ltac:(lia)) as [H3 H4].
  unfold rsum, sum in H1, H2, H3, H4. change (Z.to_nat (2 - 1 + 1)) with 2%nat in *. cbn [sumn] in *. change (1 + 1) with 2 in *.
  unfold newton_matrix, wJ, m22 in *. cbn in H1, H2, H3, H4.
  assert (C : i = 1 \/ i = 2) by lia. destruct C as [->| ->]; split; lra.
Qed.
Definition w_state : @hst Rnum :=
  @mkHst Rnum (fun _ _ => 0%R) (fun _ _ => 0%R) (fun _ _ => 0%R) (fun _ => 0%R) (fun _ => 0) (fun _ => 0) false.
Lemma householder2 (A : Rmat) tau X dir : @householder Rnum 3 2 A tau X dir = Ok X.
Proof. destruct dir; reflexivity. Qed.
Lemma complex_path_refuted_lemma :
  exists (n : Z) alpha beta (J A : Rmat) (s s' : @hst Rnum) br bi xr xi,
    2 <= n /\ reduction n J A (htau s) /\
    cnonsingular n (newton_matrix alpha J) (newton_matrix beta (fun _ _ => 0%R)) /\
    @h_decomc Rnum n alpha beta s A = Ok s' /\
    @h_solvecomplex Rnum n s' A br bi = Ok (xr, xi) /\
    ~ csolution n (newton_matrix alpha J) (newton_matrix beta (fun _ _ => 0%R)) xr xi br bi.
Proof.
  pose proof (@assemble_spec Rnum 2 1%R 1%R w_state wJ ltac:(lia)) as Ha. apply wp_ok in Ha.
  destruct Ha as [[R1 I1] [Ea HA]].
  assert (Hw : forall i j, 1 <= i <= 2 -> 1 <= j <= 2 -> R1 i j = wAr i j /\ I1 i j = wAi i j).
  { intros i j Hi Hj. destruct (HA i j Hi Hj ltac:(lia)) as [-> ->].
    assert (Ci : i = 1 \/ i = 2) by lia. assert (Cj : j = 1 \/ j = 2) by lia.
    unfold wAr, wAi, wJ, m22, n0. cbn [nadd nopp nlit Rnum]. rewrite Rlit_0.
    destruct Ci as [->| ->], Cj as [->| ->]; cbn; split; lra. }
  pose proof (dechc_witness_gen R1 I1 (fun _ => 0) Hw) as H. apply wp_ok in H.
  destruct H as [[[[Ar Ai] ip'] ret] [E (-> & Hip & H11 & G11 & H12 & G12 & H21 & G21 & H22 & G22)]].
  pose proof (solhc_witness Ar Ai ip' Hip H11 G11 H12 G12 H21 G21 H22 G22) as H. apply wp_ok in H.
  destruct H as [[xr xi] [Ex (X1 & Y1 & X2 & Y2)]].
  exists 2, 1%R, 1%R, wJ, wJ, w_state, (@mkHst Rnum (fun _ _ => 0%R) Ar Ai (fun _ => 0%R) (fun _ => 0) ip' false), (v2 4 0)%R, (v2 0 0)%R, xr, xi.
  split; [lia|]. split; [apply reduction_instance; [lia|apply hess22]|]. split; [exact wJ_nonsingular|].
  split.
  { rewrite decomc_split. refine (eq_trans (f_equal (fun o => bind o _) Ea) _). cbn [bind].
    refine (eq_trans (f_equal (fun o => bind o _) E) _). reflexivity. }
  split.
  { unfold h_solvecomplex. cbn [htau E2R E2I ipi]. change (S (Z.to_nat 2)) with 3%nat.
    refine (eq_trans (f_equal (fun o => bind o _) (householder2 _ _ _ _)) _). cbn [bind].
    refine (eq_trans (f_equal (fun o => bind o _) (householder2 _ _ _ _)) _). cbn [bind].
    refine (eq_trans (f_equal (fun o => bind o _) Ex) _). cbn [bind].
    refine (eq_trans (f_equal (fun o => bind o _) (householder2 _ _ _ _)) _). cbn [bind].
    refine (eq_trans (f_equal (fun o => bind o _) (householder2 _ _ _ _)) _). reflexivity. }
  intros Hs. apply (witness_not_solution xr xi X1 Y1 X2 Y2).
  intros i Hi. destruct (Hs i Hi) as [S1 S2]. rewrite <- S1, <- S2.
  split; apply rsum_ext; intros j Hj; destruct (witness_newton i j Hi Hj) as [-> ->]; reflexivity.
Qed.
(* the hypotheses of C59_complex_path_partial are met by J = [[0,-1],[-3,0]], alpha = beta = 1 *)
Definition cJ : Rmat := (m22 0 (-1) (-3) 0)%R.
Example path_clean_instance ip : path_clean 2 1 1 cJ ip.
Proof.
  intros R1 I1 HA k Ar' Ai' ip' ret Hk E. assert (k = 1) by lia. subst k.
  rewrite forM_empty in E by lia. injection E as <- <- _ _.
  destruct (HA 1 1 ltac:(lia) ltac:(lia) ltac:(lia)) as [R11 I11]. destruct (HA 2 2 ltac:(lia) ltac:(lia) ltac:(lia)) as [R22 _].
  destruct (HA 2 1 ltac:(lia) ltac:(lia) ltac:(lia)) as [R21 I21].
  unfold cJ, m22, n0 in *. cbn in R11, I11, R21, I21, R22. cbn [nlit Rnum] in *. rewrite ?Rlit_0 in *.
  intros j Hj. assert (j = 2) by lia. subst j. unfold pivC.
  destruct (Rlt_dec _ _) as [H|H].
  - change (1 + 1) with 2. rewrite R22. intros X. lra.
  - exfalso. apply H. change (1 + 1) with 2. rewrite R11, I11, R21, I21. rewrite !Rabs_pos_eq by lra. lra.
Qed.
Example cJ_nonsingular : cnonsingular 2 (newton_matrix 1 cJ) (newton_matrix 1 (fun _ _ => 0%R)).
Proof.
  intros xr xi H i Hi. pose proof (H 1 ltac:(lia)) as [H1 H2]. pose proof (H 2 ltac:(lia)) as [H3 H4].
  unfold rsum, sum in H1, H2, H3, H4. change (Z.to_nat (2 - 1 + 1)) with 2%nat in *. cbn [sumn] in *. change (1 + 1) with 2 in *.
  unfold newton_matrix, cJ, m22 in *. cbn in H1, H2, H3, H4.
  assert (C : i = 1 \/ i = 2) by lia. destruct C as [->| ->]; split; lra.
Qed.
