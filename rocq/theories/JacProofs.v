(* Proofs about JacModel.v. *)
From Coq Require Import Reals Lra.
From Verif Require Import Base Spec FieldLU HessModel LayoutModel LayoutProofs HessProofs HessPathProofs CMacros JacModel.
Open Scope Z_scope.

Definition shape_ok (sh : shape) : Prop := match sh with Full => True | Band kl ku => 0 <= kl /\ 0 <= ku end.
Definition in_shape (n : Z) (sh : shape) (i j : Z) : Prop :=
  match sh with Full => in_full n i j | Band kl ku => in_band n kl ku i j end.
Definition sh_off (n : Z) (sh : shape) (i j : Z) : Z :=
  match sh with Full => lapack_ge n i j | Band kl ku => lapack_gb kl ku i j end.
(* the matrix held in the Jacobian's buffer *)
Definition sh_mat (n : Z) (sh : shape) (J : Z -> R) : Z -> Z -> R :=
  match sh with Full => mat_ge n J | Band kl ku => mat_gb kl ku J end.

Lemma sh_set_ok (K : num) n sh (J : Z -> K) i j v : 1 <= n -> shape_ok sh -> in_shape n sh i j ->
  sh_set n sh J i j v = Ok (upd J (sh_off n sh i j) v).
Proof.
  intros Hn Hs Hij. destruct sh; cbn in *.
  - apply (fa_access K n J v i j Hn Hij).
  - apply (fb_access K n kl ku J v i j Hn (proj1 Hs) (proj2 Hs) Hij).
Qed.
Lemma sh_off_inj n sh i j i' j' : 1 <= n -> shape_ok sh -> in_shape n sh i j -> in_shape n sh i' j' ->
  sh_off n sh i j = sh_off n sh i' j' -> i = i' /\ j = j'.
Proof.
  intros Hn Hs H H' E. destruct sh; cbn in *.
  - destruct (fa_layout n Hn i' j' H') as (E' & _ & I). apply I; [exact H|].
    rewrite E'. rewrite (proj1 (fa_layout n Hn i j H)). exact E.
  - destruct Hs as [Hl Hu]. destruct (fb_layout n kl ku Hn Hl Hu i' j' H') as (E' & _ & I). apply I; [exact H|].
    rewrite E'. rewrite (proj1 (fb_layout n kl ku Hn Hl Hu i j H)). exact E.
Qed.
Lemma in_shape_range n sh i j : 1 <= j <= n -> sh_begin sh j <= i <= sh_end n sh j -> in_shape n sh i j.
Proof. destruct sh; cbn; unfold in_full, in_band; lia. Qed.
Lemma range_in_shape n sh i j : in_shape n sh i j -> 1 <= j <= n /\ sh_begin sh j <= i <= sh_end n sh j /\ 1 <= i <= n.
Proof. destruct sh; cbn; unfold in_full, in_band; lia. Qed.
Lemma sh_range n sh j : shape_ok sh -> 1 <= j <= n -> sh_begin sh j <= sh_end n sh j + 1.
Proof. destruct sh; cbn; lia. Qed.

Section J.
Context {K : num}.
Variable Sg : Type.
Variable F : Sg -> K -> (Z -> K) -> Sg * (Z -> K).
Variables (n : Z) (sh : shape) (uround : K).
Hypothesis Hn : 1 <= n.
Hypothesis Hs : shape_ok sh.

(* For every arithmetic and every right-hand side: the state vector is the one given,
   the right-hand side was called exactly once per column, on the vector perturbed in
   that component only, and column j holds the difference quotients. *)
(* the right-hand side's state after k columns *)
Fixpoint calls (y : Z -> K) (t : K) (k : nat) (s : Sg) : Sg :=
  match k with
  | O => s
  | S k' => fst (F (calls y t k' s) t (upd y (Z.of_nat k) (y (Z.of_nat k) + fd_delta uround (y (Z.of_nat k)))%num))
  end.
Definition column (y : Z -> K) (t : K) (s : Sg) (j : Z) : Z -> K :=
  snd (F (calls y t (Z.to_nat (j - 1)) s) t (upd y j (y j + fd_delta uround (y j))%num)).
Hypothesis Fext : forall s t y y', (forall i, y i = y' i) -> F s t y = F s t y'.

Lemma jacobian_spec s t y Fy J :
  wp (jacobian F n sh uround s t y Fy J) (fun r => let '(s', y', J') := r in
    (forall i, y' i = y i) /\ s' = calls y t (Z.to_nat n) s /\
    (forall i j, in_shape n sh i j ->
       J' (sh_off n sh i j) = ((column y t s j i - Fy i) * (nlit 1 0 / fd_delta uround (y j)))%num)).
Proof.
  unfold jacobian.
  refine (wp_mono _ _ _ (forM_ind (fun m st => let '(s', y', J') := st in
    (forall i, y' i = y i) /\ s' = calls y t (Z.to_nat (m - 1)) s /\
    (forall i j, in_shape n sh i j -> j < m ->
       J' (sh_off n sh i j) = ((column y t s j i - Fy i) * (nlit 1 0 / fd_delta uround (y j)))%num)) _ _ _ _ _ _ _) _).
  - lia.
  - split; [reflexivity|]. split; [reflexivity|]. intros i j H Hj. apply range_in_shape in H. lia.
  - intros m [[s1 y1] J1] Hm (Hy & Hs1 & HJ). apply wp_rd; [lia|]. cbv zeta. apply wp_wr; [lia|].
    assert (Ex : forall i, upd y1 m (y1 m + fd_delta uround (y1 m))%num i = upd y m (y m + fd_delta uround (y m))%num i).
    { intros i. unfold upd. rewrite !Hy. reflexivity. }
    rewrite (Fext s1 t _ _ Ex). rewrite Hs1.
    destruct (F (calls y t (Z.to_nat (m - 1)) s) t (upd y m (y m + fd_delta uround (y m))%num)) as [s2 R] eqn:EF.
    assert (Ecol : R = column y t s m) by (unfold column; rewrite EF; reflexivity).
    apply wp_bind.
    refine (wp_mono _ _ _ (forM_ind (fun q J2 => forall i j, in_shape n sh i j -> j < m \/ (j = m /\ i < q) ->
       J2 (sh_off n sh i j) = ((column y t s j i - Fy i) * (nlit 1 0 / fd_delta uround (y j)))%num) _ _ _ _ _ _ _) _).
    + apply sh_range; auto.
    + intros i j H [H1|[-> H1]]; [auto|]. apply range_in_shape in H. lia.
    + intros q J2 Hq HJ2. assert (Hin : in_shape n sh q m) by (apply in_shape_range; auto).
      assert (Hqn : 1 <= q <= n) by (apply range_in_shape in Hin; lia).
      apply wp_rd; [lia|]. apply wp_rd; [lia|]. rewrite (sh_set_ok K n sh J2 q m _ Hn Hs Hin). cbn [wp].
      intros i j H Hij. unfold upd at 1. destruct (Z.eqb_spec (sh_off n sh i j) (sh_off n sh q m)) as [E|E].
      * apply sh_off_inj in E; auto. destruct E as [-> ->]. rewrite Ecol, Hy. reflexivity.
      * apply HJ2; [exact H|]. destruct Hij as [|[-> Hij]]; [auto|]. destruct (Z.eq_dec i q) as [->|]; [contradiction|right; lia].
    + intros J2 HJ2. apply wp_wr; [lia|]. cbn [wp]. split; [|split].
      * intros i. unfold upd. destruct (Z.eqb_spec i m) as [->|]; apply Hy.
      * replace (Z.to_nat (m + 1 - 1)) with (S (Z.to_nat (m - 1))) by lia. cbn [calls].
        replace (Z.of_nat (S (Z.to_nat (m - 1)))) with m by lia. rewrite EF. reflexivity.
      * intros i j H Hj. apply HJ2; [exact H|]. apply range_in_shape in H.
        destruct (Z.eq_dec j m) as [->|]; [right; lia|left; lia].
  - intros [[s' y'] J'] (H1 & H2 & H3). split; [exact H1|]. split; [rewrite H2; f_equal; lia|].
    intros i j H. apply H3; [exact H|]. apply range_in_shape in H. lia.
Qed.

(* any counter that each call increments by one is increased by n *)
Lemma jacobian_count (c : Sg -> Z) s t y Fy J :
  (forall s t y, c (fst (F s t y)) = c s + 1) ->
  wp (jacobian F n sh uround s t y Fy J) (fun r => let '(s', y', _) := r in
    (forall i, y' i = y i) /\ c s' = c s + n).
Proof.
  intros Hc. eapply wp_mono; [apply jacobian_spec|]. intros [[s' y'] J'] (H1 & H2 & _). split; [exact H1|].
  subst s'. assert (H : forall k, c (calls y t k s) = c s + Z.of_nat k).
  { induction k; cbn [calls]; [lia|]. rewrite Hc, IHk. lia. }
  rewrite H. lia.
Qed.
End J.

(* affine right-hand sides over the reals *)
Lemma fd_delta_pos (uround y : R) : (0 < uround)%R -> (0 < @fd_delta Rnum uround y)%R.
Proof.
  intros H. unfold fd_delta. cbn [nsqrt nmul Rnum]. apply sqrt_lt_R0. apply Rmult_lt_0_compat; [exact H|].
  rewrite mMAX_R. apply Rlt_le_trans with (@nlit Rnum 1 (-5)); [|apply Rmax_l]. apply Rlit_gt0. lia.
Qed.
Lemma rsum_upd n (a : Z -> R) (y : Z -> R) j d : 1 <= j <= n ->
  rsum 1 n (fun k => a k * upd y j (y j + d) k)%R = (rsum 1 n (fun k => a k * y k) + a j * d)%R.
Proof.
  intros Hj.
  rewrite (rsum_split j 1 n) by lia. rewrite (rsum_split j 1 n (fun k => a k * y k)%R) by lia.
  rewrite (rsum_hi 1 j) by lia. rewrite (rsum_hi 1 j (fun k => a k * y k)%R) by lia.
  rewrite (rsum_ext 1 (j - 1) _ (fun k => a k * y k)%R). 2:{ intros k Hk. rewrite upd_other by lia. reflexivity. }
  rewrite (rsum_ext (j + 1) n _ (fun k => a k * y k)%R). 2:{ intros k Hk. rewrite upd_other by lia. reflexivity. }
  rewrite upd_same. ring.
Qed.
Definition affine_rhs {Sg : Type} (n : Z) (A : Z -> Z -> R) (b : R -> Z -> R) (tick : Sg -> Sg)
  (s : Sg) (t : R) (y : Z -> R) : Sg * (Z -> R) :=
  (tick s, fun i => rsum 1 n (fun k => A i k * y k) + b t i)%R.
Lemma jacobian_affine (Sg : Type) (tick : Sg -> Sg) n sh (uround : R) A b s t y J :
  1 <= n -> shape_ok sh -> (0 < uround)%R ->
  wp (@jacobian Rnum Sg (affine_rhs n A b tick) n sh uround s t y (snd (affine_rhs n A b tick s t y)) J)
     (fun r => let '(_, y', J') := r in
       (forall i, y' i = y i) /\
       (forall i j, in_shape n sh i j -> sh_mat n sh J' i j = A i j) /\
       ((forall i j, in_full n i j -> ~ in_shape n sh i j -> A i j = 0%R) ->
        forall i j, in_full n i j -> sh_mat n sh J' i j = A i j)).
Proof.
  intros Hn Hs Hu.
  assert (Fext : forall s t (y y' : Z -> R), (forall i, y i = y' i) -> affine_rhs n A b tick s t y = affine_rhs n A b tick s t y').
  { intros s0 t0 y0 y' H. assert (E : y0 = y') by (apply FunctionalExtensionality.functional_extensionality; exact H). subst. reflexivity. }
  eapply wp_mono. { apply (@jacobian_spec Rnum Sg (affine_rhs n A b tick) n sh uround Hn Hs Fext). }
  intros [[s' y'] J'] (H1 & _ & H3). split; [exact H1|].
  assert (Hin : forall i j, in_shape n sh i j -> sh_mat n sh J' i j = A i j).
  { intros i j Hij. pose proof (range_in_shape n sh i j Hij) as (Hj & _ & Hi).
    assert (E : sh_mat n sh J' i j = J' (sh_off n sh i j)).
    { destruct sh; cbn; [reflexivity|]. unfold mat_gb. cbn in Hij. destruct Hij as (_ & _ & Hb).
      destruct (Z.leb_spec (j - ku) i), (Z.leb_spec i (j + kl)); try lia. reflexivity. }
    rewrite E, H3 by exact Hij. unfold column, affine_rhs. cbn [snd fst]. cbn [nadd nsub nmul ndiv Rnum car nlit].
    rewrite rsum_upd by exact Hj. rewrite Rlit_0.
    pose proof (fd_delta_pos uround (y j) Hu) as Hd. cbn [car Rnum] in *.
    field. lra. }
  split; [exact Hin|]. intros Hz i j Hf.
  destruct sh as [|kl ku]; [apply Hin; exact Hf|]. cbn [sh_mat]. unfold mat_gb.
  destruct (Z.leb_spec (j - ku) i), (Z.leb_spec i (j + kl)); cbn [andb];
    try (symmetry; apply Hz; [exact Hf|cbn; unfold in_band; lia]).
  specialize (Hin i j). cbn [sh_mat in_shape] in Hin. unfold mat_gb in Hin.
  destruct (Z.leb_spec (j - ku) i), (Z.leb_spec i (j + kl)); try lia. apply Hin.
  destruct Hf. unfold in_band. lia.
Qed.

Lemma jacobian_restores_lemma : forall (K : num) (Sg : Type) (F : Sg -> K -> (Z -> K) -> Sg * (Z -> K)) n sh (uround : K)
    (c : Sg -> Z) s t y Fy J, 1 <= n -> shape_ok sh ->
  (forall s t y, c (fst (F s t y)) = c s + 1) ->
  wp (jacobian F n sh uround s t y Fy J) (fun r => let '(s', y', _) := r in
    (forall i, y' i = y i) /\ c s' = c s + n).
Proof.
  intros K Sg F n sh uround c s t y Fy J Hn Hs Hc. apply jacobian_count; auto.
  intros s0 t0 y0 y' H. assert (E : y0 = y') by (apply FunctionalExtensionality.functional_extensionality; exact H). subst. reflexivity.
Qed.
