(* Concrete runs: the refuting witness for the complex factorisation (C06) and the
   instances showing that the hypotheses of the theorems of Props_Hess.v can be met. *)
From Verif Require Import Base Spec HessModel HessPathModel FieldLU HessProofs HessCProofs HessPathProofs.
From Coq Require Import Reals Lra QArith.
Open Scope Z_scope.

(* 2x2 matrix given by its entries *)
Definition m22 {T} (a b c d : T) : Z -> Z -> T :=
  fun i j => if i =? 1 then (if j =? 1 then a else b) else (if j =? 1 then c else d).
Definition v2 {T} (a b : T) : Z -> T := fun i => if i =? 1 then a else b.

(* first a test by execution over the rationals: factor and solve (1+i)I - J for
   J = [[0,-1],[-3,1]] and b = (4,0); the result is x = (-i, 3) *)
Definition qrun :=
  '(Ar, Ai, ip, ret) <- @dechc QNum 2 (m22 1 1 3 0)%Q (m22 1 0 0 1)%Q (fun _ => 0) ;;
  '(xr, xi) <- @solhc QNum 2 Ar Ai ip (v2 4 0, v2 0 0)%Q ;;
  Ok (ret, (xr 1, xi 1), (xr 2, xi 2)).
Example qrun_value : qrun = Ok (0, (0, -1)%Q, (3, 0)%Q).
Proof. vm_compute. reflexivity. Qed.


Definition wAr : Rmat := (m22 1 1 3 0)%R.
Definition wAi : Rmat := (m22 1 0 0 1)%R.

Ltac tests :=
  repeat (rewrite ?nabs_R; cbn [neqb nltb nadd nmul nsub nopp ndiv Rnum]; unfold n0; cbn [nlit Rnum]; rewrite ?Rlit_0).
Lemma dechc_witness ip :
  wp (@dechc Rnum 2 wAr wAi ip) (fun '(Ar, Ai, ip', ret) =>
    ret = 0 /\ ip' 0 = 2 /\
    Ar 1 1 = 3%R /\ Ai 1 1 = 0%R /\ Ar 1 2 = 0%R /\ Ai 1 2 = 1%R /\
    Ar 2 1 = (-1 / 3)%R /\ Ai 2 1 = (-1 / 3)%R /\ Ar 2 2 = (4 / 3)%R /\ Ai 2 2 = 0%R).
Proof.
  unfold dechc. step. apply wp_bind. change (negb (2 =? 1)) with true. cbv iota.
  change (2 - 1) with 1. rewrite forM_single. unfold dechc_step. cbv zeta.
  change (Z.min 2 (1 + 1)) with 2.
  change (@dechc_pivot Rnum 2 1 2 wAr wAi) with (@dechc_pivot Rnum 2 1 (1 + 1) wAr wAi).
  rewrite dechc_pivot_spec by lia.
  assert (P : pivC 1 wAr wAi = 2).
  { unfold pivC, wAr, wAi, m22; cbn. rewrite !Rabs_pos_eq by lra. destruct (Rlt_dec _ _); [reflexivity|lra]. }
  rewrite P. cbn [bind]. repeat step. change (negb (2 =? 1)) with true. cbv iota.
  repeat step. cbn [bind]. tests.
  change (wAr 2 1) with 3%R. change (wAi 2 1) with 0%R. change (wAr 1 1) with 1%R. change (wAi 1 1) with 1%R.
  destruct (Reqb_spec (Rabs 3 + Rabs 0) 0) as [E|_]; [rewrite !Rabs_pos_eq in E by lra; lra|].
  change (1 + 1) with 2. rewrite forM_single. repeat step. cbn [bind]. rewrite forM_single.
  cbv beta iota. unfold dechc_col. repeat step. u2. tests.
  change (wAr 2 2) with 0%R. change (wAi 2 2) with 1%R. change (wAr 1 2) with 1%R. change (wAi 1 2) with 0%R.
  destruct (Reqb_spec (Rabs 0 + Rabs 1) 0) as [E|_]; [rewrite !Rabs_pos_eq in E by lra; lra|]. cbn [negb].
  change (1 + 1) with 2. rewrite forM_single. cbv beta iota. repeat step.
  destruct (Reqb_spec 1 0) as [E|_]; [lra|]. destruct (Reqb_spec 0 0) as [_|E]; [|lra].
  repeat step. cbn [wp bind]. repeat step. u2. tests.
  match goal with |- context [Reqb ?a ?b] => destruct (Reqb_spec a b) as [E|_] end.
  - exfalso. match type of E with (Rabs ?x + Rabs ?y = 0)%R => pose proof (Rabs2_zero x y E) as [X Y] end. lra.
  - cbn [wp]. split; [reflexivity|]. split; [reflexivity|]. u2.
    unfold wAr, wAi, m22; cbn. repeat split; field.
Qed.

(* the solve with these factors, for b = (4,0) *)
Lemma solhc_witness (Ar Ai : Rmat) ip :
  ip 0 = 2 ->
  Ar 1 1 = 3%R -> Ai 1 1 = 0%R -> Ar 1 2 = 0%R -> Ai 1 2 = 1%R ->
  Ar 2 1 = (-1 / 3)%R -> Ai 2 1 = (-1 / 3)%R -> Ar 2 2 = (4 / 3)%R -> Ai 2 2 = 0%R ->
  wp (@solhc Rnum 2 Ar Ai ip (v2 4 0, v2 0 0)%R) (fun '(xr, xi) =>
    xr 1 = 0%R /\ xi 1 = (-1)%R /\ xr 2 = 3%R /\ xi 2 = 0%R).
Proof.
  intros Hip A11 B11 A12 B12 A21 B21 A22 B22.
  unfold solhc. change (negb (2 =? 1)) with true. cbv iota. change (2 - 1) with 1.
  rewrite !forM_single. unfold solhc_fwd. cbv beta iota.
  assert (Hip' : ip (1 - 1) = 2) by exact Hip.
  repeat step. change (Z.min 2 (1 + 1)) with (1 + 1). rewrite forM_single. cbv beta iota.
  repeat step. rewrite forM_single. unfold solhc_bwd. cbv beta iota zeta. change (2 - 1 + 1) with 2.
  unfold solhc_div. cbv beta iota zeta. repeat step. change (2 - 1) with 1. rewrite forM_single. cbv beta iota. repeat step.
  cbv beta iota. repeat step. cbn [wp nadd nsub nmul ndiv nopp Rnum]. change (Z.min 2 (1 + 1)) with 2. change (1 + 1) with 2. rewrite Hip'. uv.
  cbn. rewrite !A11, !B11, !A12, !B12, !A21, !B21, !A22, !B22.
  repeat split; field.
Qed.

Lemma witness_not_solution (xr xi : Rvec) :
  xr 1 = 0%R -> xi 1 = (-1)%R -> xr 2 = 3%R -> xi 2 = 0%R ->
  ~ csolution 2 wAr wAi xr xi (v2 4 0)%R (v2 0 0)%R.
Proof.
  intros X1 Y1 X2 Y2 H. destruct (H 1 ltac:(lia)) as [_ H2].
  unfold rsum, sum in H2. change (Z.to_nat (2 - 1 + 1)) with 2%nat in H2. cbn [sumn] in H2.
  change (1 + 1) with 2 in H2. unfold wAr, wAi, m22, v2 in H2. cbn in H2. rewrite X1, Y1, X2, Y2 in H2. lra.
Qed.

(* the witness is of the form (alpha + i beta) I - J *)
Definition wJ : Rmat := (m22 0 (-1) (-3) 1)%R.
Lemma witness_newton i j : 1 <= i <= 2 -> 1 <= j <= 2 ->
  wAr i j = newton_matrix 1 wJ i j /\ wAi i j = newton_matrix 1 (fun _ _ => 0%R) i j.
Proof.
  intros Hi Hj. assert (Ci : i = 1 \/ i = 2) by lia. assert (Cj : j = 1 \/ j = 2) by lia.
  unfold wAr, wAi, wJ, newton_matrix, m22.
  destruct Ci as [->| ->], Cj as [->| ->]; cbn; split; lra.
Qed.

Lemma dechc_refuted_lemma :
  exists (n : Z) (J : Rmat) (alpha beta : R) (Mr Mi : Rmat) ip Ar Ai ip' (br bi xr xi : Rvec),
    1 <= n /\
    (forall i j, 1 <= i <= n -> 1 <= j <= n ->
        Mr i j = newton_matrix alpha J i j /\ Mi i j = newton_matrix beta (fun _ _ => 0%R) i j) /\
    upper_hessenberg n Mr /\ upper_hessenberg n Mi /\
    @dechc Rnum n Mr Mi ip = Ok (Ar, Ai, ip', 0) /\
    @solhc Rnum n Ar Ai ip' (br, bi) = Ok (xr, xi) /\
    ~ csolution n Mr Mi xr xi br bi.
Proof.
  pose proof (dechc_witness (fun _ => 0)) as H. apply wp_ok in H.
  destruct H as [[[[Ar Ai] ip'] ret] [E (-> & Hip & H11 & G11 & H12 & G12 & H21 & G21 & H22 & G22)]].
  pose proof (solhc_witness Ar Ai ip' Hip H11 G11 H12 G12 H21 G21 H22 G22) as H. apply wp_ok in H.
  destruct H as [[xr xi] [Ex (X1 & Y1 & X2 & Y2)]].
  exists 2, wJ, 1%R, 1%R, wAr, wAi, (fun _ => 0), Ar, Ai, ip', (v2 4 0)%R, (v2 0 0)%R, xr, xi.
  split; [lia|]. split; [exact witness_newton|].
  split; [intros i j Hi Hj Hij; lia|]. split; [intros i j Hi Hj Hij; lia|].
  split; [exact E|]. split; [exact Ex|]. apply witness_not_solution; assumption.
Qed.

(* ---- instances of the hypotheses ------------------------------------------ *)
(* C04/C05: a non singular 3x3 Hessenberg matrix that needs a row exchange, run over Q *)
Definition qH : Z -> Z -> Q := fun i j =>
  match i, j with
  | 1, 1 => 1%Q | 1, 2 => 2%Q | 1, 3 => 3%Q
  | 2, 1 => 4%Q | 2, 2 => 5%Q | 2, 3 => 6%Q
  | 3, 2 => 7%Q | 3, 3 => 9%Q | _, _ => 0%Q
  end.
Definition qrun_real :=
  '(A, ip, ret) <- @dech QNum 3 qH (fun _ => 0) ;;
  x <- @solh QNum 3 A ip (fun i => inject_Z (6 + 3 * i * i)) ;;
  Ok (ret, ip 0, [x 1; x 2; x 3],
      forallb (fun i => Qeq_bool (Qplus (Qplus (Qmult (qH i 1) (x 1)) (Qmult (qH i 2) (x 2))) (Qmult (qH i 3) (x 3))) (inject_Z (6 + 3 * i * i))) [1; 2; 3]).
Example qrun_real_value : exists x, qrun_real = Ok (0, 2, x, true).
Proof. eexists. vm_compute. reflexivity. Qed.
Example hessenberg_instance : upper_hessenberg 3 (fun i j => if j + 1 <? i then 0%R else 1%R).
Proof. intros i j Hi Hj H. destruct (Z.ltb_spec (j + 1) i); [reflexivity|lia]. Qed.
(* the identity is upper Hessenberg and non singular for every size, and is factored *)
Lemma identity_nonsingular n : nonsingular n (fun i j => if i =? j then 1%R else 0%R).
Proof.
  intros x H i Hi. rewrite <- (H i Hi).
  rewrite (rsum_split (i - 1)) by lia. rewrite (rsum_zero 1 (i - 1)).
  2:{ intros j Hj. destruct (Z.eqb_spec i j); [lia|ring]. }
  replace (i - 1 + 1) with i by lia. rewrite rsum_lo by lia. rewrite Z.eqb_refl.
  rewrite (rsum_zero (i + 1) n). { ring. } intros j Hj. destruct (Z.eqb_spec i j); [lia|ring].
Qed.
(* C06: every matrix with zero imaginary part is clean *)
Lemma upd2_idem {A} (v : Z -> Z -> A) i j k l : upd2 v i j (v i j) k l = v k l.
Proof. unfold upd2. destruct (Z.eqb_spec k i), (Z.eqb_spec l j); subst; reflexivity. Qed.
Example clean_n1 Ar Ai ip : dechc_clean 1 Ar Ai ip.
Proof. intros k. lia. Qed.
(* a 2x2 matrix with non zero imaginary part which is clean: M22 = 1 + i *)
Example clean_22 ip : dechc_clean 2 (m22 2 1 4 1)%R (m22 1 0 0 1)%R ip.
Proof.
  intros k Ar' Ai' ip' ret Hk E. assert (k = 1) by lia. subst k.
  rewrite forM_empty in E by lia. injection E as <- <- _ _.
  intros j Hj. assert (j = 2) by lia. subst j. unfold pivC.
  destruct (Rlt_dec _ _) as [H|H].
  - intros X. unfold m22 in X; cbn in X. lra.
  - exfalso. apply H. unfold m22; cbn. rewrite !Rabs_pos_eq by lra. lra.
Qed.
(* C07: a reflector for n = 3, j = 1: v = (0,1,1), t = 1 *)
Example reflector_instance : is_reflector 3 1 (fun i => if i =? 3 then 1%R else 0%R) 1.
Proof. right. change (1 + 2) with 3. rewrite rsum_lo by lia. rewrite rsum_empty by lia. cbn [Z.eqb Pos.eqb]. lra. Qed.
(* C48: the reduction contract is met, for every n, by an upper Hessenberg matrix with tau = 0 *)
Lemma reduction_instance n A : 2 <= n -> upper_hessenberg n A -> reduction n A A (fun _ => 0%R).
Proof.
  intros Hn HA. split; [left; reflexivity|]. intros x i Hi.
  assert (HQ : forall k y q, apply_Q n A (fun _ => 0%R) k y q = y q).
  { induction k as [|k IH]; intros y q; [reflexivity|]. cbn [apply_Q]. rewrite IH, reflector_hw. ring. }
  rewrite HQ. unfold matvec. apply rsum_ext. intros j Hj. rewrite HQ. f_equal.
  unfold hess_part. destruct (Z.ltb_spec (j + 1) i); [apply HA; lia|reflexivity].
Qed.
