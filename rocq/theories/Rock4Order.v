(* The ROCK4 step as an explicit Runge-Kutta method, and its order conditions. *)
From Coq Require Import ZArith Reals Lra Lia List Bool FunctionalExtensionality.
From Verif Require Import Base HessModel VecFun Spec HessPathProofs Dec DecBall RKSpec Rock4Model Rock4Spec Rock4Step Rock4TabSpec.
Open Scope R_scope.

Definition ind (j k : Z) : R := if (j =? k)%Z then 1 else 0.
Lemma rsum_ind lo hi k (u : Z -> R) : (lo <= k <= hi)%Z -> rsum lo hi (fun j => ind j k * u j) = u k.
Proof.
  intros H. rewrite (rsum_split k) by lia. rewrite (rsum_hi lo k) by lia. rewrite rsum_zero.
  2:{ intros j Hj. unfold ind. destruct (Z.eqb_spec j k); [lia|ring]. }
  rewrite rsum_zero. { unfold ind. rewrite Z.eqb_refl. ring. }
  intros j Hj. unfold ind. destruct (Z.eqb_spec j k); [lia|ring].
Qed.
Lemma rsum_ind0 lo hi k (u : Z -> R) : (hi < k)%Z -> rsum lo hi (fun j => ind j k * u j) = 0.
Proof. intros H. apply rsum_zero. intros j Hj. unfold ind. destruct (Z.eqb_spec j k); [lia|ring]. Qed.

Section Rows.
Variables (mu1 : R) (mu kappa : Z -> R).
Definition mus (m : nat) : R := match m with 1%nat => mu1 | _ => mu (Z.of_nat m) end.
(* stage m is y + h sum_j W m j f(stage (j-1)); the second component belongs to the difference
   of the stages m and m-1 *)
Fixpoint wd (m : nat) : (Z -> R) * (Z -> R) :=
  match m with
  | O => (fun _ => 0, fun _ => 0)
  | S p => let '(w, dl) := wd p in
           let dl' := fun j => mus m * ind j (Z.of_nat m) + kappa (Z.of_nat m) * dl j in
           (fun j => w j + dl' j, dl')
  end.
Definition Wt (m : nat) := fst (wd m).
Definition Dt (m : nat) := snd (wd m).
Lemma Dt_S m j : Dt (S m) j = mus (S m) * ind j (Z.of_nat (S m)) + kappa (Z.of_nat (S m)) * Dt m j.
Proof. unfold Dt. cbn [wd]. destruct (wd m). reflexivity. Qed.
Lemma Wt_S m j : Wt (S m) j = Wt m j + Dt (S m) j.
Proof. unfold Wt, Dt. cbn [wd]. destruct (wd m). reflexivity. Qed.
Lemma Dt_out m j : (Z.of_nat m < j)%Z -> Dt m j = 0.
Proof.
  revert j. induction m as [|m IH]; intros j Hj; [reflexivity|]. rewrite Dt_S, IH by lia. unfold ind.
  destruct (Z.eqb_spec j (Z.of_nat (S m))); [lia|ring].
Qed.
Lemma Wt_out m j : (Z.of_nat m < j)%Z -> Wt m j = 0.
Proof. revert j. induction m as [|m IH]; intros j Hj; [reflexivity|]. rewrite Wt_S, IH, Dt_out by lia. ring. Qed.

(* sums with these weights *)
Definition Ws (m : nat) (u : Z -> R) : R := rsum 1 (Z.of_nat m) (fun j => Wt m j * u j).
Definition Ds (m : nat) (u : Z -> R) : R := rsum 1 (Z.of_nat m) (fun j => Dt m j * u j).
Lemma Ds_S m u : Ds (S m) u = mus (S m) * u (Z.of_nat (S m)) + kappa (Z.of_nat (S m)) * Ds m u.
Proof.
  unfold Ds. rewrite (rsum_ext _ _ _ (fun j => mus (S m) * (ind j (Z.of_nat (S m)) * u j) + kappa (Z.of_nat (S m)) * (Dt m j * u j))).
  2:{ intros j _. rewrite Dt_S. ring. }
  rewrite rsum_add, !rsum_scal, rsum_ind by lia. f_equal. f_equal. rewrite (rsum_hi 1 (Z.of_nat (S m))) by lia.
  rewrite (Dt_out m (Z.of_nat (S m))) by lia. replace (Z.of_nat (S m) - 1)%Z with (Z.of_nat m) by lia. ring.
Qed.
Lemma Ws_S m u : Ws (S m) u = Ws m u + Ds (S m) u.
Proof.
  unfold Ws, Ds. rewrite (rsum_ext _ _ (fun j => Wt (S m) j * u j) (fun j => Wt m j * u j + Dt (S m) j * u j)).
  2:{ intros j _. rewrite Wt_S. ring. }
  rewrite rsum_add. f_equal. rewrite (rsum_hi 1 (Z.of_nat (S m))) by lia.
  rewrite (Wt_out m (Z.of_nat (S m))) by lia. replace (Z.of_nat (S m) - 1)%Z with (Z.of_nat m) by lia. ring.
Qed.
Lemma Ws_0 u : Ws 0 u = 0. Proof. apply rsum_empty. cbn. lia. Qed.
Lemma Ds_0 u : Ds 0 u = 0. Proof. apply rsum_empty. cbn. lia. Qed.
Lemma Ws_ext m u v : (forall j, (1 <= j <= Z.of_nat m)%Z -> u j = v j) -> Ws m u = Ws m v.
Proof. intros H. apply rsum_ext. intros j Hj. rewrite H by lia. reflexivity. Qed.

(* the stages of the recurrence *)
Section Stages.
Variables (f : vec Rnum -> vec Rnum) (h : R) (y : vec Rnum).
Notation stg := (stage f mu1 mu kappa h y).
Notation fs := (fun p (j : Z) => f (stg (Z.to_nat (j - 1))) p : R).
Lemma stages_fst n : fst (stages f mu1 mu kappa h y n) = stg n. Proof. reflexivity. Qed.
Lemma stages_snd n : snd (stages f mu1 mu kappa h y (S n)) = stg n.
Proof.
  destruct n as [|n]; [reflexivity|]. unfold stage. change (stages f mu1 mu kappa h y (S (S n))) with
    (let '(g, gp) := stages f mu1 mu kappa h y (S n) in
           ((fun i => h * mu (Z.of_nat (S (S n))) * f g i + (1 + kappa (Z.of_nat (S (S n)))) * g i - kappa (Z.of_nat (S (S n))) * gp i) : vec Rnum, g)).
  destruct (stages f mu1 mu kappa h y (S n)). reflexivity.
Qed.
Lemma stg_S n p : stg (S (S n)) p = h * mu (Z.of_nat (S (S n))) * f (stg (S n)) p + (1 + kappa (Z.of_nat (S (S n)))) * stg (S n) p - kappa (Z.of_nat (S (S n))) * stg n p.
Proof.
  rewrite <- (stages_snd n). unfold stage at 1. change (stages f mu1 mu kappa h y (S (S n))) with
    (let '(g, gp) := stages f mu1 mu kappa h y (S n) in
           ((fun i => h * mu (Z.of_nat (S (S n))) * f g i + (1 + kappa (Z.of_nat (S (S n)))) * g i - kappa (Z.of_nat (S (S n))) * gp i) : vec Rnum, g)).
  unfold stage. destruct (stages f mu1 mu kappa h y (S n)). reflexivity.
Qed.
Lemma stage_rows n p : (stg n p : R) = y p + h * Ws n (fs p) /\ (stg (S n) p : R) - stg n p = h * Ds (S n) (fs p).
Proof.
  induction n as [|n [I1 I2]].
  - rewrite Ws_0, Ds_S, Ds_0. cbn [Z.to_nat Z.of_nat Pos.of_succ_nat]. unfold mus. replace (Z.to_nat (1 - 1)) with 0%nat by reflexivity. split.
    + change (stg 0) with y. change (car Rnum) with R. generalize (y p : R). intros. ring.
    + change (stg 1 p) with (y p + h * mu1 * f y p). change (stg 0) with y. generalize (f y p : R) (y p : R). change (car Rnum) with R. intros. ring.
  - assert (J : (stg (S n) p : R) = y p + h * Ws (S n) (fs p)).
    { rewrite Ws_S. revert I1 I2. change (car Rnum) with R. generalize (stg n p : R) (stg (S n) p : R) (y p : R). change (car Rnum) with R. intros. lra. }
    split; [exact J|]. rewrite (Ds_S (S n)). replace (Z.to_nat (Z.of_nat (S (S n)) - 1)) with (S n) by lia.
    change (mus (S (S n))) with (mu (Z.of_nat (S (S n)))).
    transitivity (h * mu (Z.of_nat (S (S n))) * f (stg (S n)) p + kappa (Z.of_nat (S (S n))) * ((stg (S n) p : R) - stg n p)).
    + rewrite stg_S. generalize (f (stg (S n)) p : R) (stg (S n) p : R) (stg n p : R). change (car Rnum) with R. intros. ring.
    + rewrite I2. generalize (f (stg (S n)) p : R). change (car Rnum) with R. intros. ring.
Qed.
End Stages.
End Rows.

(* ---- the method ---- *)
Section Method.
Variables (mu1 : R) (mu kappa : Z -> R) (d : nat).
Variables (a21 a31 a32 a41 a42 a43 b1 b2 b3 b4 e1 e2 e3 e4 e5 : R).
Notation W := (Wt mu1 mu kappa).
Notation dz := (Z.of_nat d).
Definition frow (c1 c2 c3 c4 c5 : R) (j : Z) : R :=
  W d j + c1 * ind j (dz + 1) + c2 * ind j (dz + 2) + c3 * ind j (dz + 3) + c4 * ind j (dz + 4) + c5 * ind j (dz + 5).
Definition r4a (i j : Z) : R :=
  if (i <=? dz + 1)%Z then W (Z.to_nat (i - 1)) j
  else if (i =? dz + 2)%Z then frow a21 0 0 0 0 j
  else if (i =? dz + 3)%Z then frow a31 a32 0 0 0 j
  else if (i =? dz + 4)%Z then frow a41 a42 a43 0 0 j
  else frow b1 b2 b3 b4 0 j.
Definition r4M : erk := mkERK (dz + 5) r4a.
Definition r4b : Z -> R := frow b1 b2 b3 b4 0.
Definition r4e : Z -> R := frow e1 e2 e3 e4 e5.
Definition tm (c : R) (hi k : Z) (u : Z -> R) : R := if (k <=? hi)%Z then c * u k else 0.
Lemma rsum_frow hi c1 c2 c3 c4 c5 u : (dz <= hi)%Z ->
  rsum 1 hi (fun j => frow c1 c2 c3 c4 c5 j * u j) = Ws mu1 mu kappa d u + tm c1 hi (dz + 1) u + tm c2 hi (dz + 2) u + tm c3 hi (dz + 3) u + tm c4 hi (dz + 4) u + tm c5 hi (dz + 5) u.
Proof.
  intros H.
  rewrite (rsum_ext _ _ _ (fun j => W d j * u j + c1 * (ind j (dz + 1) * u j) + c2 * (ind j (dz + 2) * u j) + c3 * (ind j (dz + 3) * u j) + c4 * (ind j (dz + 4) * u j) + c5 * (ind j (dz + 5) * u j))).
  2:{ intros j _. unfold frow. ring. }
  rewrite !rsum_add, !rsum_scal.
  assert (T : forall c k, (1 <= k)%Z -> c * rsum 1 hi (fun j => ind j k * u j) = tm c hi k u).
  { intros c k Hk. unfold tm. destruct (Z.leb_spec k hi). - rewrite rsum_ind by lia. reflexivity. - rewrite rsum_ind0 by lia. ring. }
  rewrite !T by lia. do 5 f_equal. unfold Ws. rewrite (rsum_split dz 1 hi) by lia.
  rewrite (rsum_zero (dz + 1) hi). { ring. } intros j Hj. rewrite (Wt_out mu1 mu kappa d j) by lia. ring.
Qed.
Lemma r4A_early u i : (1 <= i <= dz + 1)%Z -> rk_A r4M u i = Ws mu1 mu kappa (Z.to_nat (i - 1)) u.
Proof.
  intros H. unfold rk_A, Ws. cbn [rk_a r4M]. rewrite Z2Nat.id by lia. apply rsum_ext. intros j Hj. unfold r4a.
  destruct (Z.leb_spec i (dz + 1)); [reflexivity|lia].
Qed.
Ltac tms := unfold tm; repeat match goal with |- context [(?a <=? ?b)%Z] => destruct (Z.leb_spec a b); try lia end; ring.
Lemma r4A_2 u : rk_A r4M u (dz + 2) = Ws mu1 mu kappa d u + a21 * u (dz + 1)%Z.
Proof.
  unfold rk_A. cbn [rk_a r4M]. rewrite (rsum_ext _ _ _ (fun j => frow a21 0 0 0 0 j * u j)).
  - rewrite rsum_frow by lia. tms.
  - intros j _. unfold r4a. destruct (Z.leb_spec (dz + 2) (dz + 1)); [lia|]. rewrite Z.eqb_refl. reflexivity.
Qed.
Lemma r4A_3 u : rk_A r4M u (dz + 3) = Ws mu1 mu kappa d u + a31 * u (dz + 1)%Z + a32 * u (dz + 2)%Z.
Proof.
  unfold rk_A. cbn [rk_a r4M]. rewrite (rsum_ext _ _ _ (fun j => frow a31 a32 0 0 0 j * u j)).
  - rewrite rsum_frow by lia. tms.
  - intros j _. unfold r4a. destruct (Z.leb_spec (dz + 3) (dz + 1)); [lia|].
    destruct (Z.eqb_spec (dz + 3) (dz + 2)); [lia|]. rewrite Z.eqb_refl. reflexivity.
Qed.
Lemma r4A_4 u : rk_A r4M u (dz + 4) = Ws mu1 mu kappa d u + a41 * u (dz + 1)%Z + a42 * u (dz + 2)%Z + a43 * u (dz + 3)%Z.
Proof.
  unfold rk_A. cbn [rk_a r4M]. rewrite (rsum_ext _ _ _ (fun j => frow a41 a42 a43 0 0 j * u j)).
  - rewrite rsum_frow by lia. tms.
  - intros j _. unfold r4a. destruct (Z.leb_spec (dz + 4) (dz + 1)); [lia|].
    destruct (Z.eqb_spec (dz + 4) (dz + 2)); [lia|]. destruct (Z.eqb_spec (dz + 4) (dz + 3)); [lia|]. rewrite Z.eqb_refl. reflexivity.
Qed.
Definition bsum (u : Z -> R) : R := Ws mu1 mu kappa d u + b1 * u (dz + 1)%Z + b2 * u (dz + 2)%Z + b3 * u (dz + 3)%Z + b4 * u (dz + 4)%Z.
Lemma r4A_5 u : rk_A r4M u (dz + 5) = bsum u.
Proof.
  unfold rk_A. cbn [rk_a r4M]. rewrite (rsum_ext _ _ _ (fun j => frow b1 b2 b3 b4 0 j * u j)).
  - rewrite rsum_frow by lia. unfold bsum. tms.
  - intros j _. unfold r4a. destruct (Z.leb_spec (dz + 5) (dz + 1)); [lia|].
    destruct (Z.eqb_spec (dz + 5) (dz + 2)); [lia|]. destruct (Z.eqb_spec (dz + 5) (dz + 3)); [lia|]. destruct (Z.eqb_spec (dz + 5) (dz + 4)); [lia|]. reflexivity.
Qed.
Lemma r4b_sum u : rk_b r4M r4b u = bsum u.
Proof. unfold rk_b, r4b. cbn [rk_s r4M]. rewrite rsum_frow by lia. unfold bsum. tms. Qed.
Lemma r4e_sum u : rk_b r4M r4e u = Ws mu1 mu kappa d u + e1 * u (dz + 1)%Z + e2 * u (dz + 2)%Z + e3 * u (dz + 3)%Z + e4 * u (dz + 4)%Z + e5 * u (dz + 5)%Z.
Proof. unfold rk_b, r4e. cbn [rk_s r4M]. rewrite rsum_frow by lia. tms. Qed.

(* the step is a step of this method *)
Section Step.
Variables (f : vec Rnum -> vec Rnum) (h : R) (y : vec Rnum).
Let g0 := stage f mu1 mu kappa h y d.
Definition r4g (i : Z) : vec Rnum :=
  if (i <=? dz + 1)%Z then stage f mu1 mu kappa h y (Z.to_nat (i - 1))
  else if (i =? dz + 2)%Z then fun p => g0 p + h * (a21 * fin_k1 f g0 p)
  else if (i =? dz + 3)%Z then fun p => g0 p + h * (a31 * fin_k1 f g0 p + a32 * fin_k2 f a21 h g0 p)
  else if (i =? dz + 4)%Z then fun p => g0 p + h * (a41 * fin_k1 f g0 p + a42 * fin_k2 f a21 h g0 p + a43 * fin_k3 f a21 a31 a32 h g0 p)
  else fin_y f a21 a31 a32 a41 a42 a43 b1 b2 b3 b4 h g0.
Lemma r4g_early i : (i <= dz + 1)%Z -> r4g i = stage f mu1 mu kappa h y (Z.to_nat (i - 1)).
Proof. intros H. unfold r4g. destruct (Z.leb_spec i (dz + 1)); [reflexivity|lia]. Qed.
Lemma r4g_1 : r4g (dz + 1) = g0.
Proof. rewrite r4g_early by lia. unfold g0. f_equal. lia. Qed.
Ltac late := unfold r4g; repeat match goal with
  | |- context [(?a <=? ?b)%Z] => destruct (Z.leb_spec a b); try lia
  | |- context [(?a =? ?b)%Z] => destruct (Z.eqb_spec a b); try lia end.
Lemma r4g_2 : f (r4g (dz + 2)) = fin_k2 f a21 h g0. Proof. late. reflexivity. Qed.
Lemma r4g_3 : f (r4g (dz + 3)) = fin_k3 f a21 a31 a32 h g0. Proof. late. reflexivity. Qed.
Lemma r4g_4 : f (r4g (dz + 4)) = fin_k4 f a21 a31 a32 a41 a42 a43 h g0. Proof. late. reflexivity. Qed.
Lemma r4g_5 : r4g (dz + 5) = fin_y f a21 a31 a32 a41 a42 a43 b1 b2 b3 b4 h g0. Proof. late. reflexivity. Qed.
Lemma g0_row p : (g0 p : R) = y p + h * Ws mu1 mu kappa d (fun j => f (r4g j) p).
Proof.
  unfold g0. rewrite (proj1 (stage_rows mu1 mu kappa f h y d p)). do 2 f_equal. apply Ws_ext. intros j Hj. rewrite r4g_early by lia. reflexivity.
Qed.
Lemma pullh (y0 h0 w x : R) : y0 + h0 * w + h0 * x = y0 + h0 * (w + x). Proof. ring. Qed.
Lemma bsum_row p : (fin_y f a21 a31 a32 a41 a42 a43 b1 b2 b3 b4 h g0 p : R) = y p + h * bsum (fun j => f (r4g j) p).
Proof.
  unfold fin_y, bsum. rewrite g0_row, r4g_1, r4g_2, r4g_3, r4g_4. unfold fin_k1.
  generalize (f g0 p : R) (fin_k2 f a21 h g0 p : R) (fin_k3 f a21 a31 a32 h g0 p : R) (fin_k4 f a21 a31 a32 a41 a42 a43 h g0 p : R) (y p : R)
   (Ws mu1 mu kappa d (fun j => f (r4g j) p)). change (car Rnum) with R. intros. ring.
Qed.
Lemma r4_stages : rk_stages r4M f h y r4g.
Proof.
  intros i Hi. cbn [rk_s r4M] in Hi. apply functional_extensionality. intros p.
  change (rsum 1 (i - 1) (fun j => rk_a r4M i j * f (r4g j) p)) with (rk_A r4M (fun j => f (r4g j) p) i).
  destruct (Z.le_gt_cases i (dz + 1)).
  - rewrite r4A_early by lia. rewrite (r4g_early i) by lia.
    rewrite (proj1 (stage_rows mu1 mu kappa f h y (Z.to_nat (i - 1)) p)). do 2 f_equal. apply Ws_ext. intros j Hj. rewrite r4g_early by lia. reflexivity.
  - assert (i = dz + 2 \/ i = dz + 3 \/ i = dz + 4 \/ i = dz + 5)%Z as [ -> | [ -> | [ -> | -> ] ] ] by lia.
    + rewrite r4A_2. rewrite r4g_1. transitivity ((g0 p : R) + h * (a21 * f g0 p)). { late. reflexivity. }
      rewrite g0_row, pullh. reflexivity.
    + rewrite r4A_3. rewrite r4g_1, r4g_2. transitivity ((g0 p : R) + h * (a31 * f g0 p + a32 * fin_k2 f a21 h g0 p)). { late. reflexivity. }
      rewrite g0_row, pullh. do 2 f_equal. change (car Rnum) with R. symmetry. apply Rplus_assoc.
    + rewrite r4A_4. rewrite r4g_1, r4g_2, r4g_3. transitivity ((g0 p : R) + h * (a41 * f g0 p + a42 * fin_k2 f a21 h g0 p + a43 * fin_k3 f a21 a31 a32 h g0 p)). { late. reflexivity. }
      rewrite g0_row, pullh. do 2 f_equal. change (car Rnum) with R. rewrite !Rplus_assoc. reflexivity.
    + rewrite r4A_5. rewrite r4g_5. apply bsum_row.
Qed.
Lemma r4_result : fin_y f a21 a31 a32 a41 a42 a43 b1 b2 b3 b4 h g0 = rk_result r4M r4b f h y r4g.
Proof.
  apply functional_extensionality. intros p. unfold rk_result.
  change (rsum 1 (rk_s r4M) (fun j => r4b j * f (r4g j) p)) with (rk_b r4M r4b (fun j => f (r4g j) p)). rewrite r4b_sum. apply bsum_row.
Qed.
Lemma r4_hat : fin_yhat f a21 a31 a32 a41 a42 a43 b1 b2 b3 b4 e1 e2 e3 e4 e5 h g0 = rk_result r4M r4e f h y r4g.
Proof.
  apply functional_extensionality. intros p. unfold rk_result.
  change (rsum 1 (rk_s r4M) (fun j => r4e j * f (r4g j) p)) with (rk_b r4M r4e (fun j => f (r4g j) p)). rewrite r4e_sum.
  unfold fin_yhat. rewrite g0_row, r4g_1, r4g_2, r4g_3, r4g_4, r4g_5. unfold fin_k1.
  set (ny := fin_y f a21 a31 a32 a41 a42 a43 b1 b2 b3 b4 h g0).
  generalize (f ny p : R) (f g0 p : R) (fin_k2 f a21 h g0 p : R) (fin_k3 f a21 a31 a32 h g0 p : R) (fin_k4 f a21 a31 a32 a41 a42 a43 h g0 p : R) (y p : R)
   (Ws mu1 mu kappa d (fun j => f (r4g j) p)). change (car Rnum) with R. intros. ring.
Qed.
End Step.
End Method.

(* ---- the eight sums of the order conditions, by recurrence ---- *)
Section Gen.
Context {T : Type}.
Variables (one zero : T) (add mul : T -> T -> T).
Definition psi (E : list T) : list T :=
  match E with
  | c :: ac :: ac2 :: aac :: _ => let c2 := mul c c in one :: c :: c2 :: ac :: mul c c2 :: mul c ac :: ac2 :: aac :: nil
  | _ => nil
  end.
Fixpoint vadd (E F : list T) : list T := match E, F with x :: E, y :: F => add x y :: vadd E F | _, _ => nil end.
Definition vscal (k : T) (E : list T) : list T := map (mul k) E.
Definition zeros : list T := zero :: zero :: zero :: zero :: zero :: zero :: zero :: zero :: nil.
Variables (mu1 : T) (mu kappa : Z -> T).
Definition gmus (m : nat) : T := match m with 1%nat => mu1 | _ => mu (Z.of_nat m) end.
Fixpoint rec8 (m : nat) : list T * list T :=
  match m with
  | O => (zeros, zeros)
  | S p => let '(E, D) := rec8 p in
           let D' := if (p =? 0)%nat then vscal (gmus m) (psi E) else vadd (vscal (gmus m) (psi E)) (vscal (kappa (Z.of_nat m)) D) in
           (vadd E D', D')
  end.
Variables (a21 a31 a32 a41 a42 a43 b1 b2 b3 b4 e1 e2 e3 e4 e5 : T).
Definition sums (d : nat) : list T * list T :=
  let E := fst (rec8 d) in
  let P1 := psi E in
  let P2 := psi (vadd E (vscal a21 P1)) in
  let P3 := psi (vadd (vadd E (vscal a31 P1)) (vscal a32 P2)) in
  let P4 := psi (vadd (vadd (vadd E (vscal a41 P1)) (vscal a42 P2)) (vscal a43 P3)) in
  let B := vadd (vadd (vadd (vadd E (vscal b1 P1)) (vscal b2 P2)) (vscal b3 P3)) (vscal b4 P4) in
  let P5 := psi B in
  (B, vadd (vadd (vadd (vadd (vadd E (vscal e1 P1)) (vscal e2 P2)) (vscal e3 P3)) (vscal e4 P4)) (vscal e5 P5)).
End Gen.

Section Eval.
Variables (mu1 : R) (mu kappa : Z -> R) (d : nat).
Variables (a21 a31 a32 a41 a42 a43 b1 b2 b3 b4 e1 e2 e3 e4 e5 : R).
Let M := r4M mu1 mu kappa d a21 a31 a32 a41 a42 a43 b1 b2 b3 b4.
Let u1 : Z -> R := fun _ => 1.
Let u2 := rk_c M.
Let u3 : Z -> R := fun i => rk_c M i ^ 2.
Let u4 := rk_A M (rk_c M).
Let u5 : Z -> R := fun i => rk_c M i ^ 3.
Let u6 : Z -> R := fun i => rk_c M i * rk_A M (rk_c M) i.
Let u7 := rk_A M (fun i => rk_c M i ^ 2).
Let u8 := rk_A M (rk_A M (rk_c M)).
Definition at8 (Phi : (Z -> R) -> R) : list R := Phi u1 :: Phi u2 :: Phi u3 :: Phi u4 :: Phi u5 :: Phi u6 :: Phi u7 :: Phi u8 :: nil.
Lemma psi_at i : psi 1 Rmult (at8 (fun u => rk_A M u i)) = at8 (fun u => u i).
Proof. unfold at8, psi. repeat f_equal; unfold u1, u2, u3, u4, u5, u6, u7, u8, rk_c; try reflexivity; fold u1; ring. Qed.
Lemma vadd_at Phi Psi : vadd Rplus (at8 Phi) (at8 Psi) = at8 (fun u => Phi u + Psi u). Proof. reflexivity. Qed.
Lemma vscal_at k Phi : vscal Rmult k (at8 Phi) = at8 (fun u => k * Phi u). Proof. reflexivity. Qed.
Lemma at8_ext Phi Psi : (forall u, Phi u = Psi u) -> at8 Phi = at8 Psi.
Proof. intros H. unfold at8. rewrite !H. reflexivity. Qed.
Lemma zeros_at Phi : (forall u, Phi u = 0) -> zeros 0 = at8 Phi.
Proof. intros H. unfold at8. rewrite !H. reflexivity. Qed.
Lemma rec8_at m : (m <= d)%nat -> rec8 1 0 Rplus Rmult mu1 mu kappa m = (at8 (Ws mu1 mu kappa m), at8 (Ds mu1 mu kappa m)).
Proof.
  induction m as [|m IH]; intros Hm.
  - cbn [rec8]. rewrite <- (zeros_at _ (Ws_0 mu1 mu kappa)), <- (zeros_at _ (Ds_0 mu1 mu kappa)). reflexivity.
  - cbn [rec8]. rewrite IH by lia.
    assert (EP : psi 1 Rmult (at8 (Ws mu1 mu kappa m)) = at8 (fun u => u (Z.of_nat (S m)))).
    { rewrite <- psi_at. f_equal. apply at8_ext. intros u. symmetry. unfold M. rewrite r4A_early by lia. f_equal. lia. }
    rewrite EP.
    assert (ED : (if (m =? 0)%nat then vscal Rmult (gmus mu1 mu (S m)) (at8 (fun u => u (Z.of_nat (S m)))) else
       vadd Rplus (vscal Rmult (gmus mu1 mu (S m)) (at8 (fun u => u (Z.of_nat (S m))))) (vscal Rmult (kappa (Z.of_nat (S m))) (at8 (Ds mu1 mu kappa m)))) = at8 (Ds mu1 mu kappa (S m))).
    { destruct (Nat.eqb_spec m 0) as [->|].
      - rewrite vscal_at. apply at8_ext. intros u. rewrite Ds_S, Ds_0. change (gmus mu1 mu 1) with mu1. change (mus mu1 mu 1) with mu1. ring.
      - rewrite !vscal_at, vadd_at. apply at8_ext. intros u. rewrite Ds_S. reflexivity. }
    rewrite ED. f_equal. rewrite vadd_at. apply at8_ext. intros u. rewrite Ws_S. reflexivity.
Qed.
Lemma sums_at : sums 1 0 Rplus Rmult mu1 mu kappa a21 a31 a32 a41 a42 a43 b1 b2 b3 b4 e1 e2 e3 e4 e5 d =
  (at8 (rk_b M (r4b mu1 mu kappa d b1 b2 b3 b4)), at8 (rk_b M (r4e mu1 mu kappa d e1 e2 e3 e4 e5))).
Proof.
  unfold sums. rewrite rec8_at by lia. cbn [fst].
  assert (P1 : psi 1 Rmult (at8 (Ws mu1 mu kappa d)) = at8 (fun u => u (Z.of_nat d + 1)%Z)).
  { rewrite <- psi_at. f_equal. apply at8_ext. intros u. symmetry. unfold M. rewrite r4A_early by lia. f_equal. lia. }
  rewrite P1. rewrite !vscal_at, !vadd_at.
  assert (P2 : psi 1 Rmult (at8 (fun u => Ws mu1 mu kappa d u + a21 * u (Z.of_nat d + 1)%Z)) = at8 (fun u => u (Z.of_nat d + 2)%Z)).
  { rewrite <- psi_at. f_equal. apply at8_ext. intros u. symmetry. apply r4A_2. }
  rewrite P2. rewrite !vscal_at, !vadd_at.
  assert (P3 : psi 1 Rmult (at8 (fun u => Ws mu1 mu kappa d u + a31 * u (Z.of_nat d + 1)%Z + a32 * u (Z.of_nat d + 2)%Z)) = at8 (fun u => u (Z.of_nat d + 3)%Z)).
  { rewrite <- psi_at. f_equal. apply at8_ext. intros u. symmetry. apply r4A_3. }
  rewrite P3. rewrite !vscal_at, !vadd_at.
  assert (P4 : psi 1 Rmult (at8 (fun u => Ws mu1 mu kappa d u + a41 * u (Z.of_nat d + 1)%Z + a42 * u (Z.of_nat d + 2)%Z + a43 * u (Z.of_nat d + 3)%Z)) = at8 (fun u => u (Z.of_nat d + 4)%Z)).
  { rewrite <- psi_at. f_equal. apply at8_ext. intros u. symmetry. apply r4A_4. }
  rewrite P4. rewrite !vscal_at, !vadd_at.
  assert (P5 : psi 1 Rmult (at8 (fun u => Ws mu1 mu kappa d u + b1 * u (Z.of_nat d + 1)%Z + b2 * u (Z.of_nat d + 2)%Z + b3 * u (Z.of_nat d + 3)%Z + b4 * u (Z.of_nat d + 4)%Z)) = at8 (fun u => u (Z.of_nat d + 5)%Z)).
  { rewrite <- psi_at. f_equal. apply at8_ext. intros u. symmetry. apply r4A_5. }
  rewrite P5. rewrite !vscal_at, !vadd_at.
  f_equal; [apply at8_ext; intros u; symmetry; apply r4b_sum|apply at8_ext; intros u; symmetry; apply r4e_sum].
Qed.
End Eval.
