(* What decomr/decomc/solvereal/solvecomplex do with the status LAPACK returns, for every
   arithmetic and whatever LAPACK returns; and the choice of the storage. *)
From Coq Require Import Lia ZArith Bool.
From Verif Require Import Base Spec HessModel LayoutModel LayoutProofs ConfigModel.
Open Scope Z_scope.

(* info = 0: a value; info <> 0: an exception *)
Definition reports {B} (info : Z) (r : out B) : Prop :=
  (info = 0 -> exists b, r = Ok b) /\ (info <> 0 -> exists msg, r = Throw msg).

Section Report.
Context {K : num}.
Variable trf : vec K -> vec K * ivec * Z.
Variable trs : vec K -> ivec -> vec K -> vec K * Z.

Definition decom_reports (r : out (vec K * ivec)) : Prop :=
  exists E, reports (snd (trf E)) r /\ (snd (trf E) = 0 -> r = Ok (fst (trf E))).

Lemma factorise_reports (o : out (vec K)) P : wp o P ->
  decom_reports (bind o (fun E => factorise trf E)).
Proof.
  intros H. apply wp_ok in H as [E [-> _]]. exists E. cbn [bind]. unfold reports, factorise.
  destruct (trf E) as [[LU ip] info]. cbn [fst snd].
  destruct (Z.eqb_spec info 0); cbn [negb]; repeat split; intros; try congruence; eauto.
Qed.

Lemma decom_reports_lemma n nsub nsup E J (fac al be : K) : 1 <= n -> 0 <= nsub -> 0 <= nsup ->
  decom_reports (decomr_full trf n E J fac) /\ decom_reports (decomc_full trf n E J al be) /\
  decom_reports (decomr_band trf n nsub nsup E J fac) /\ decom_reports (decomc_band trf n nsub nsup E J al be).
Proof.
  intros Hn Hl Hu. repeat split.
  - exact (factorise_reports _ _ (asm_real_full_spec n E J fac Hn)).
  - exact (factorise_reports _ _ (asm_complex_full_spec n E J al be Hn)).
  - exact (factorise_reports _ _ (asm_real_band_spec n nsub nsup E J fac Hn Hl Hu)).
  - exact (factorise_reports _ _ (asm_complex_band_spec n nsub nsup E J al be Hn Hl Hu)).
Qed.

Lemma packK n (Z2 Zr Zi : vec K) : 1 <= n ->
  wp (pack n Z2 Zr Zi) (fun Y => forall i, 1 <= i <= n -> Y (2 * i - 1) = Zr i /\ Y (2 * i) = Zi i).
Proof.
  intros Hn. unfold pack.
  refine (wp_mono _ _ _ (forM_ind (fun q (Y : vec K) => forall i, n + 1 - q < i <= n -> Y (2 * i - 1) = Zr i /\ Y (2 * i) = Zi i) _ _ _ _ _ _ _) _).
  - lia.
  - intros; lia.
  - intros q Y Hq HY. cbv zeta. apply wp_rd; [lia|]. apply wp_wr; [lia|]. apply wp_rd; [lia|].
    rewrite wr_ok by lia. cbn [wp]. intros i Hi.
    destruct (Z.eq_dec i (n + 1 - q)) as [->|Hne].
    + rewrite upd_same. rewrite upd_other by lia. rewrite upd_same. auto.
    + rewrite !(upd_other _ (2 * (n + 1 - q))) by lia. rewrite !(upd_other _ (2 * (n + 1 - q) - 1)) by lia.
      apply HY. lia.
  - intros Y HY i Hi. apply HY. lia.
Qed.
Lemma unpackK n (Z2 Zr Zi : vec K) : 1 <= n ->
  wp (unpack n Z2 (Zr, Zi)) (fun Y => forall i, 1 <= i <= n -> fst Y i = Z2 (2 * i - 1) /\ snd Y i = Z2 (2 * i)).
Proof.
  intros Hn. unfold unpack.
  refine (wp_mono _ _ _ (forM_ind (fun q (Y : vec K * vec K) => forall i, 1 <= i < q -> fst Y i = Z2 (2 * i - 1) /\ snd Y i = Z2 (2 * i)) _ _ _ _ _ _ _) _).
  - lia.
  - intros; lia.
  - intros q [Yr Yi] Hq HY. apply wp_rd; [lia|]. apply wp_wr; [lia|]. apply wp_rd; [lia|]. apply wp_wr; [lia|].
    cbn [wp fst snd] in *. intros i Hi.
    destruct (Z.eq_dec i q) as [->|Hne].
    + rewrite !upd_same. auto.
    + rewrite !upd_other by lia. apply HY. lia.
  - intros Y HY i Hi. apply HY. lia.
Qed.

Lemma solve_reports_lemma n LU ip (Z2 Zr Zi : vec K) : 1 <= n ->
  (let a := trs LU ip (fun k => Zr (k + 1)) in
   reports (snd a) (solvereal trs (LU, ip) Zr) /\
   forall X, solvereal trs (LU, ip) Zr = Ok X -> forall i, 1 <= i <= n -> X i = fst a (i - 1)) /\
  exists b, (forall i, 1 <= i <= n -> b (2 * i - 2) = Zr i /\ b (2 * i - 1) = Zi i) /\
  (let a := trs LU ip b in
   reports (snd a) (solvecomplex trs n (LU, ip) Z2 Zr Zi) /\
   forall Y, solvecomplex trs n (LU, ip) Z2 Zr Zi = Ok Y -> forall i, 1 <= i <= n ->
     fst Y i = fst a (2 * i - 2) /\ snd Y i = fst a (2 * i - 1)).
Proof.
  intros Hn. split.
  - unfold reports, solvereal. cbv zeta. destruct (trs LU ip _) as [X ier]. cbn [fst snd].
    destruct (Z.eqb_spec ier 0); cbn [negb]; repeat split; try (intros X0 [= <-]; reflexivity);
      intros; try congruence; eauto.
  - pose proof (packK n Z2 Zr Zi Hn) as H. apply wp_ok in H as [b [Hb Hspec]].
    exists (fun k => b (k + 1)). split.
    + intros i Hi. destruct (Hspec i Hi) as [<- <-]. split; f_equal; lia.
    + unfold reports, solvecomplex. rewrite Hb. cbn [bind]. cbv zeta.
      destruct (trs LU ip _) as [X ier]. cbn [fst snd].
      destruct (Z.eqb_spec ier 0) as [->|Hne]; cbn [negb].
      * pose proof (unpackK n (fun i => X (i - 1)) Zr Zi Hn) as HU. apply wp_ok in HU as [Y [HY HYs]].
        rewrite HY. repeat split; intros; try congruence; eauto.
        -- assert (Y0 = Y) as -> by congruence. rewrite (proj1 (HYs i ltac:(assumption))). f_equal. lia.
        -- assert (Y0 = Y) as -> by congruence. rewrite (proj2 (HYs i ltac:(assumption))). reflexivity.
      * repeat split; intros; try congruence; eauto.
Qed.
End Report.

(* ---- the choice of the storage -------------------------------------------- *)
Lemma matrix_full_iff n nsub nsup : matrix_full n nsub nsup = true <-> nsub = n - 1 /\ nsup = n - 1.
Proof. unfold matrix_full. rewrite andb_true_iff, !Z.eqb_eq. lia. Qed.

(* a configuration no program can run with: refused by the compiler or by an exception *)
Definition refused (c : option (spec_kind * out unit)) : Prop :=
  c = None \/ exists k msg, c = Some (k, Throw msg).

Lemma configure_refused a n nsub nsup hess :
  refused (configure a n nsub nsup hess) <->
  (hess = true /\ ~ (nsub = n - 1 /\ nsup = n - 1)) \/ (hess = false /\ n <= nsub /\ n <= nsup).
Proof.
  rewrite <- matrix_full_iff. pose proof (matrix_full_iff n nsub nsup) as M.
  unfold refused, configure, compat_ok, specialisation, band_ctor. rewrite !Z.geb_leb.
  destruct a, (matrix_full n nsub nsup) eqn:F, hess, (Z.leb_spec n nsub), (Z.leb_spec n nsup);
    cbn [orb andb negb]; (split; [intros [Hx|(k & msg & Hx)]|intros [[H1 H2]|(H1 & H2 & H3)]]);
    try congruence; try lia; try (left; reflexivity); try (right; eexists _, _; reflexivity);
    try (left; split; [reflexivity|congruence]); try (right; auto; fail);
    exfalso; try (destruct M as [M _]; specialize (M eq_refl); lia); apply H2; reflexivity.
Qed.

Lemma configure_kind a n nsub nsup hess k r : configure a n nsub nsup hess = Some (k, r) -> ~ refused (Some (k, r)) ->
  r = Ok tt /\ (k = KHess <-> hess = true) /\ (k = KFull \/ k = KHess <-> nsub = n - 1 /\ nsup = n - 1).
Proof.
  rewrite <- matrix_full_iff. unfold refused, configure, compat_ok, specialisation.
  destruct a, (matrix_full n nsub nsup), hess; cbn [orb andb negb]; intros [= <- <-] H;
    try (exfalso; apply H; right; eexists _, _; reflexivity);
    try (repeat split; intros; try congruence; try tauto; intuition congruence).
  - unfold band_ctor in *. destruct (_ && _); [exfalso; apply H; right; eexists _, _; reflexivity|].
    repeat split; intros; try congruence; intuition congruence.
  - unfold band_ctor in *. destruct (_ && _); [exfalso; apply H; right; eexists _, _; reflexivity|].
    repeat split; intros; try congruence; intuition congruence.
Qed.

Lemma configure_stores k n nsub nsup (K : num) (x : vec K) v i j :
  1 <= n -> 0 <= nsub -> 0 <= nsup -> in_band n nsub nsup i j ->
  exists y, store_set k n nsub nsup x i j v = Ok y /\ store_get k n nsub nsup y i j = Ok v.
Proof.
  intros Hn Hl Hu Hb. assert (in_full n i j) as Hf by (destruct Hb as [? ?]; unfold in_full in *; lia).
  assert (G : forall off lo hi, lo <= off <= hi -> exists y, wr lo hi x off v = Ok y /\ rd lo hi y off = Ok v).
  { intros off lo hi Ho. exists (upd x off v). split; [apply wr_ok; lia|]. rewrite rd_ok by lia. now rewrite upd_same. }
  assert (HF := fa_layout n Hn i j Hf). assert (HB := fb_layout n nsub nsup Hn Hl Hu i j Hb).
  unfold store_set, store_get, fb_set, fb_get, fa_set, fa_get, brd, bwr.
  destruct k; apply G; lia.
Qed.

Lemma band_check_refuted_lemma a n : 1 <= n ->
  ~ refused (configure a n n 0 false) /\ ~ refused (configure a n 0 n false).
Proof. intros Hn. rewrite !configure_refused. split; intros [[H _]|H]; try discriminate; lia. Qed.
(* refused by the compiler, or later *)
Lemma configure_compile a n nsub nsup hess : configure a n nsub nsup hess = None <-> a = true /\ hess = true /\ ~ (nsub = n - 1 /\ nsup = n - 1).
Proof.
  rewrite <- matrix_full_iff. unfold configure, compat_ok. destruct a, hess, (matrix_full n nsub nsup); cbn; split; intros H; try discriminate; try tauto; try (destruct H as (H1 & H2 & H3); try discriminate; exfalso; apply H3; reflexivity).
  repeat split; try reflexivity. discriminate.
Qed.
