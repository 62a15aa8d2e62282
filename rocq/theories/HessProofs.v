(* Proofs about HessModel.v over the reals: dech/solh. *)
From Verif Require Import Base HessModel FieldLU.
From Coq Require Import Reals Lra Field_theory.
Open Scope Z_scope.

Lemma Rfth : field_theory 0%R 1%R Rplus Rmult Rminus Ropp Rdiv Rinv (@eq R).
Proof. exact Rfield. Qed.
Notation sumR := (sum R 0%R Rplus).
Notation Rsat := (fsat R 0%R Rplus Rmult).
Notation effR := (eff R 0%R).
Notation elimR_inv := (elim_inv R 0%R Rplus Rmult).
Notation bwdR_inv := (bwd_inv R 0%R Rplus Rmult Rminus).
Notation fwdsR := (fwds R Rplus Rmult).

Lemma forM_single {St} lo (f : Z -> St -> out St) s : forM lo lo f s = f lo s.
Proof.
  unfold forM. replace (Z.to_nat (lo - lo + 1)) with 1%nat by lia. cbn [iterM].
  destruct (f lo s); reflexivity.
Qed.

Lemma nabs_R (a : R) : @nabs Rnum a = Rabs a.
Proof.
  unfold nabs, n0; cbn. rewrite Rlit_0. destruct (Rleb_spec 0 a).
  - rewrite Rabs_right; lra.
  - rewrite Rabs_left; lra.
Qed.

Ltac rring := cbn [car Rnum]; ring.
Ltac u2 := cbn [car Rnum];
  repeat match goal with
  | |- context [@upd2 ?T ?v ?i ?j ?x ?a ?b] =>
      first [ rewrite (@upd2_other T v i j x a b) by lia
            | replace (@upd2 T v i j x a b) with x by (unfold upd2; rewrite !(proj2 (Z.eqb_eq _ _)) by lia; reflexivity) ]
  end.
Ltac step1 e :=
  lazymatch e with
  | @rd2 ?T ?n ?v ?i ?j => rewrite (@rd2_ok T n v i j) by lia
  | @wr2 ?T ?n ?v ?i ?j ?x => rewrite (@wr2_ok T n v i j x) by lia
  | @rd ?T ?lo ?hi ?v ?i => rewrite (@rd_ok T lo hi v i) by lia
  | @wr ?T ?lo ?hi ?v ?i ?x => rewrite (@wr_ok T lo hi v i x) by lia
  end.
Ltac step := cbv beta;
  lazymatch goal with
  | |- wp (bind (bind _ _) _) _ => apply wp_assoc
  | |- wp (bind (rd2 _ _ _ _) _) _ => apply wp_rd2; [lia|lia|]
  | |- wp (bind (wr2 _ _ _ _ _) _) _ => apply wp_wr2; [lia|lia|]
  | |- wp (bind (rd _ _ _ _) _) _ => apply wp_rd; [lia|]
  | |- wp (bind (wr _ _ _ _ _) _) _ => apply wp_wr; [lia|]
  | |- wp (bind (Ok _) _) _ => apply wp_okb
  | |- wp ?e _ => step1 e
  | |- bind ?e _ = _ => step1 e; cbn [bind]
  end.

Notation Rmat := (Z -> Z -> R).
Notation Rvec := (Z -> R).

Lemma dech_pivot_spec (n k : Z) (A : Rmat) : 1 <= k < n ->
  @dech_pivot Rnum n k (k + 1) A =
  Ok (if Rlt_dec (Rabs (A k k)) (Rabs (A (k + 1) k)) then k + 1 else k).
Proof.
  intros Hk. unfold dech_pivot. rewrite forM_single. repeat step.
  rewrite !nabs_R. cbn. unfold Rltb. destruct (Rlt_dec _ _); reflexivity.
Qed.

(* the effect of one column update *)
Lemma dech_col_spec (n k m j : Z) (A : Rmat) : 1 <= k < n -> m = k \/ m = k + 1 -> k + 1 <= j <= n ->
  wp (@dech_col Rnum n k (k + 1) m j A) (fun A' =>
    let o := if m =? k then k + 1 else k in
    A' k j = A m j /\ A' (k + 1) j = (A o j + A (k + 1)%Z k * A m j)%R /\
    (forall i c, c <> j \/ (i <> k /\ i <> k + 1) -> A' i c = A i c)).
Proof.
  intros Hk Hm Hj. unfold dech_col. cbv zeta.
  assert (Hmn : 1 <= m <= n) by lia.
  repeat step. cbn [neqb Rnum nmul nadd].
  unfold n0; cbn [nlit Rnum]; rewrite Rlit_0.
  destruct Hm as [->| ->].
  - rewrite Z.eqb_refl.
    destruct (Reqb_spec (A k j) 0) as [E|E]; cbn [negb].
    + cbn [wp]. split; [u2; reflexivity|]. split.
      * u2. rewrite E. rring.
      * intros i c Hc. u2. reflexivity.
    + rewrite forM_single. repeat step. cbn [wp]. split; [u2; reflexivity|]. split.
      * u2. reflexivity.
      * intros i c Hc. u2. destruct (Z.eq_dec i k) as [->|]; [destruct (Z.eq_dec c j) as [->|]|]; u2; try reflexivity.
  - destruct (Z.eqb_spec (k + 1) k); [lia|].
    destruct (Reqb_spec (A (k + 1) j) 0) as [E|E]; cbn [negb].
    + cbn [wp]. split; [u2; reflexivity|]. split.
      * u2. rewrite E. rring.
      * intros i c Hc. u2. reflexivity.
    + rewrite forM_single. repeat step. cbn [wp]. split; [u2; reflexivity|]. split.
      * u2. reflexivity.
      * intros i c Hc. u2. reflexivity.
Qed.

Lemma dech_step_spec (n k : Z) (A : Rmat) ip : 1 <= k < n ->
  wp (@dech_step Rnum n k A ip) (fun '(A', ip', ret, brk) =>
    let m := if Rlt_dec (Rabs (A k k)) (Rabs (A (k + 1) k)) then k + 1 else k in
    ip' (k - 1) = m /\ (forall q, q <> k - 1 -> q <> n - 1 -> ip' q = ip q) /\
    if brk : bool
    then ret = k /\ A k k = 0%R /\ A (k + 1) k = 0%R /\ (forall i j, A' i j = A i j)
    else ret = 0 /\ elim_step R 0%R Rplus Rmult Ropp Rdiv n k m A A').
Proof.
  intros Hk. unfold dech_step. cbv zeta.
  replace (Z.min n (1 + k)) with (k + 1) by lia.
  rewrite dech_pivot_spec by lia. cbn [bind].
  set (m := if Rlt_dec _ _ then k + 1 else k).
  assert (Hm : m = k \/ m = k + 1) by (unfold m; destruct (Rlt_dec _ _); auto).
  assert (Hz : A m k = 0%R -> A k k = 0%R /\ A (k + 1) k = 0%R /\ m = k).
  { unfold m. destruct (Rlt_dec _ _) as [H|H]; intros E.
    - rewrite E, Rabs_R0 in H. pose proof (Rabs_pos (A k k)). lra.
    - rewrite E, Rabs_R0 in H. split; [exact E|]. split; [|reflexivity].
      destruct (Req_dec (A (k + 1) k) 0) as [|N]; [assumption|].
      apply Rabs_pos_lt in N. lra. }
  step. step.
  set (o := if m =? k then k + 1 else k).
  assert (Hmo : (m = k /\ o = k + 1) \/ (m = k + 1 /\ o = k)).
  { unfold o. destruct Hm as [->| ->]; [rewrite Z.eqb_refl; auto|].
    destruct (Z.eqb_spec (k + 1) k); [lia|auto]. }
  (* the swap in column k *)
  match goal with |- wp (bind ?e ?f) ?Q => assert (Hsw : wp e (fun '(A1, ip1) =>
     ip1 (k - 1) = m /\ (forall q, q <> k - 1 -> q <> n - 1 -> ip1 q = ip q) /\
     A1 k k = A m k /\ A1 (k + 1) k = A o k /\
     (forall i c, c <> k \/ (i <> k /\ i <> k + 1) -> A1 i c = A i c))) end.
  { destruct (Z.eqb_spec m k) as [E|E]; cbn [negb].
    - cbn [wp]. rewrite upd_same. split; [reflexivity|]. split; [intros; rewrite upd_other by lia; reflexivity|].
      destruct Hmo as [[E1 E2]|[E1 E2]]; [|lia]. rewrite E1, E2. repeat split; reflexivity.
    - destruct Hmo as [[E1 E2]|[E1 E2]]; [lia|].
      repeat step. cbn [wp]. rewrite upd_other by lia. rewrite upd_same.
      split; [reflexivity|]. split.
      { intros q H1 H2. rewrite !upd_other by lia. reflexivity. }
      rewrite E1, E2. u2. split; [reflexivity|]. split; [reflexivity|].
      intros i c Hc. u2. reflexivity. }
  apply wp_bind. eapply wp_mono; [exact Hsw|]. clear Hsw.
  intros [A1 ip1] (Hip & Hip2 & Hkk & Hk1 & Hrest).
  cbn [neqb Rnum]. unfold n0 at 1; cbn [nlit Rnum]; rewrite Rlit_0.
  destruct (Reqb_spec (A m k) 0) as [E|E].
  { cbn [wp]. split; [exact Hip|]. split; [exact Hip2|]. split; [reflexivity|].
    destruct (Hz E) as (Z1 & Z2 & Z3). split; [exact Z1|]. split; [exact Z2|].
    destruct Hmo as [[E1 E2]|[E1 E2]]; [|lia].
    intros i j. destruct (Z.eq_dec j k) as [->|]; [|apply Hrest; lia].
    destruct (Z.eq_dec i k) as [->|]; [rewrite Hkk, E1; reflexivity|].
    destruct (Z.eq_dec i (k + 1)) as [->|]; [rewrite Hk1, E2; reflexivity|].
    apply Hrest; lia. }
  rewrite forM_single. repeat step.
  unfold n1; cbn [nmul ndiv nopp nlit Rnum]. rewrite Rlit_0.
  set (l := (A1 (k + 1)%Z k * (- (1) / A m k))%R).
  set (A2 := upd2 A1 (k + 1) k l).
  apply wp_bind.
  eapply wp_mono.
  { apply (forM_ind (fun j (B : Rmat) =>
      (forall c, k + 1 <= c < j -> B k c = A m c /\ B (k + 1) c = (A o c + l * A m c)%R) /\
      (forall i c, c >= j \/ c <= k \/ (i <> k /\ i <> k + 1) -> B i c = A2 i c))).
    - lia.
    - split; [intros; lia|reflexivity].
    - intros j B Hj [H1 H2]. eapply wp_mono; [apply dech_col_spec; auto; lia|].
      cbv zeta. fold o. intros B' (G1 & G2 & G3). split.
      + intros c Hc. destruct (Z.eq_dec c j) as [->|].
        * assert (Hm' : forall r, r = k \/ r = k + 1 -> B r j = A r j).
          { intros r Hr. rewrite H2 by lia. unfold A2. rewrite upd2_other by lia. apply Hrest. lia. }
          rewrite G1, G2. rewrite (Hm' m Hm), (Hm' o) by tauto.
          split; [reflexivity|]. f_equal. f_equal. rewrite H2 by lia. unfold A2. apply upd2_same.
        * rewrite !G3 by lia. apply H1. lia.
      + intros i c Hc. rewrite G3 by lia. apply H2. lia. }
  intros A3 [H1 H2]. cbn [wp].
  split; [exact Hip|]. split; [exact Hip2|]. split; [reflexivity|].
  unfold elim_step. fold o.
  assert (L : A3 (k + 1) k = l). { rewrite H2 by lia. unfold A2. apply upd2_same. }
  assert (Lv : l = (- (A o k / A m k))%R). { unfold l. rewrite Hk1. field. exact E. }
  rewrite L. split; [exact Hm|]. split; [exact E|]. split; [rewrite H2 by lia; unfold A2; u2; exact Hkk|].
  split; [exact Lv|]. split; [intros j Hj; apply H1; lia|]. split; [intros j Hj; apply H1; lia|].
  intros i j Hi Hj Hij. rewrite H2 by lia. unfold A2.
  destruct Hij as [[I1 I2]|I]; rewrite upd2_other by lia; apply Hrest; lia.
Qed.

(* dech: either a complete elimination, or a proof of singularity *)
Lemma dech_spec (n : Z) (A : Rmat) ip : 1 <= n ->
  wp (@dech Rnum n A ip) (fun '(A', ip', ret) =>
    (0 <= ret <= n) /\
    (ret = 0 -> elimR_inv n n (effR 1 A) A' ip' /\ A' n n <> 0%R) /\
    (ret <> 0 -> exists x, (exists i, 1 <= i <= n /\ x i <> 0%R) /\ Rsat n (effR 1 A) x (fun _ => 0%R))).
Proof.
  intros Hn. unfold dech. step.
  apply wp_bind.
  eapply (wp_mono _ (fun '(A', ip', ret, brk) =>
    if brk : bool then (1 <= ret < n) /\ exists x, (exists i, 1 <= i <= n /\ x i <> 0%R) /\
                              Rsat n (effR 1 A) x (fun _ => 0%R)
    else ret = 0 /\ elimR_inv n n (effR 1 A) A' ip')).
  { destruct (Z.eqb_spec n 1) as [->|Hn1]; cbn [negb].
    - cbn [wp]. split; [reflexivity|]. apply elim_inv_start.
    - replace n with (n - 1 + 1) at 4 6 by lia.
      refine (wp_mono _ _ _ (forM_ind (fun k '(A', ip', ret, brk) =>
        if brk : bool then (1 <= ret < n) /\ exists x, (exists i, 1 <= i <= n /\ x i <> 0%R) /\
                                 Rsat n (effR 1 A) x (fun _ => 0%R)
        else ret = 0 /\ elimR_inv n k (effR 1 A) A' ip') _ _ _ _ _ _ _) _).
      + lia.
      + split; [reflexivity|]. apply elim_inv_start.
      + intros k [[[A1 ip1] ret1] brk1] Hk Hinv. destruct brk1.
        * cbn [wp]. exact Hinv.
        * destruct Hinv as [-> Hinv]. eapply wp_mono; [apply dech_step_spec; lia|].
          intros [[[A2 ip2] ret2] brk2]. cbv zeta. set (m := if Rlt_dec _ _ then k + 1 else k).
          intros (Hi1 & Hi2 & Hb). destruct brk2.
          -- destruct Hb as (-> & E1 & E2 & _). split; [lia|].
             eapply (singular_at R 0%R 1%R Rplus Rmult Rminus Ropp Rdiv Rinv Rfth n k _ A1 ip1);
               [lia|lra|exact Hinv|exact E1|intros _; exact E2].
          -- destruct Hb as [-> Hst]. split; [reflexivity|].
             eapply (elim_inv_step R 0%R 1%R Rplus Rmult Rminus Ropp Rdiv Rinv Rfth);
               [lia|exact Hinv|exact Hst|exact Hi1|]. intros q Hq. apply Hi2; lia.
      + intros [[[A1 ip1] ret1] brk1]. replace (n - 1 + 1) with n by lia. auto. }
  intros [[[A1 ip1] ret1] brk1] H. step.
  cbn [neqb Rnum]. unfold n0; cbn [nlit Rnum]; rewrite Rlit_0. cbn [wp].
  destruct brk1.
  - destruct H as [Hr Hx]. destruct (Reqb_spec (A1 n n) 0).
    + split; [lia|]. split; [lia|]. intros _. exact Hx.
    + split; [lia|]. split; [lia|]. intros _. exact Hx.
  - destruct H as [-> Hinv]. destruct (Reqb_spec (A1 n n) 0) as [E|E].
    + split; [lia|]. split; [lia|]. intros _.
      eapply (singular_at R 0%R 1%R Rplus Rmult Rminus Ropp Rdiv Rinv Rfth n n _ A1 ip1);
        [lia|lra|exact Hinv|exact E|lia].
    + split; [lia|]. split; [auto|]. intros X; exfalso; apply X; reflexivity.
Qed.

(* solh *)
Lemma solh_fwd_spec (n k : Z) (A : Rmat) ip (B : Rvec) : 1 <= k < n ->
  ip (k - 1) = k \/ ip (k - 1) = k + 1 ->
  wp (@solh_fwd Rnum n k A ip B) (fun B' => forall i, B' i = fwd1 R Rplus Rmult k (ip (k - 1)) (A (k + 1) k) B i).
Proof.
  intros Hk Hip. unfold solh_fwd. replace (Z.min n (k + 1)) with (k + 1) by lia.
  step. set (M := ip (k - 1)) in *. repeat step. rewrite forM_single. repeat step.
  cbn [wp]. intros i. unfold fwd1. cbn [nadd nmul Rnum].
  destruct Hip as [->| ->].
  - rewrite Z.eqb_refl. unfold upd.
    destruct (Z.eqb_spec i (k + 1)); destruct (Z.eqb_spec i k); try lia; subst; try reflexivity.
    destruct (Z.eqb_spec (k + 1) k); [lia|reflexivity].
  - unfold upd. destruct (Z.eqb_spec (k + 1) k); [lia|].
    destruct (Z.eqb_spec i (k + 1)); destruct (Z.eqb_spec i k); try lia; subst; try reflexivity.
    rewrite Z.eqb_refl. reflexivity.
Qed.

Lemma solh_bwd_spec (n kb : Z) (A : Rmat) (B : Rvec) : 1 <= kb < n ->
  wp (@solh_bwd Rnum n kb A B) (fun B' => forall i, 1 <= i <= n ->
     B' i = bwd1 R Rmult Rminus Rdiv (n - kb + 1) A B i).
Proof.
  intros Hk. unfold solh_bwd. cbv zeta. set (k := n - kb + 1). assert (1 <= k <= n) by (unfold k; lia).
  repeat step. rewrite upd_same.
  cbn [ndiv nopp Rnum]. set (B1 := upd B k (B k / A k k)%R).
  eapply wp_mono.
  { apply (forM_ind (fun i (C : Rvec) =>
      (forall c, 1 <= c < i -> C c = (B c - A c k * (B k / A k k))%R) /\ (forall c, ~ (1 <= c < i) -> C c = B1 c))).
    - lia.
    - split; [lia|reflexivity].
    - intros i C Hi [H1 H2]. repeat step. cbn [wp]. split.
      + intros c Hc. destruct (Z.eq_dec c i) as [->|].
        * rewrite upd_same. rewrite H2 by lia. unfold B1. rewrite upd_other by (unfold k; lia).
          cbn [nadd nmul nopp ndiv Rnum]. rring.
        * rewrite upd_other by lia. apply H1. lia.
      + intros c Hc. rewrite upd_other by lia. apply H2. lia. }
  intros C [H1 H2] i Hi. unfold bwd1. destruct (Z.eqb_spec i k) as [->|Hne].
  - rewrite H2 by (unfold k; lia). unfold B1. rewrite upd_same. reflexivity.
  - destruct (Z.ltb_spec i k).
    + apply H1. unfold k in *; lia.
    + rewrite H2 by (unfold k in *; lia). unfold B1. rewrite upd_other by lia. reflexivity.
Qed.

Lemma solh_spec (n : Z) (H : Rmat) (A : Rmat) ip (b : Rvec) : 1 <= n ->
  elimR_inv n n H A ip -> A n n <> 0%R ->
  wp (@solh Rnum n A ip b) (fun x => Rsat n H x b).
Proof.
  intros Hn Hinv Hnn. pose proof Hinv as (Hd & Hip & Hs). unfold solh.
  assert (Hend : forall B B1 : Rvec, (forall i, 1 <= i <= n -> B1 i = fwdsR n A ip b i) ->
     bwdR_inv n 1 A B1 B ->
     wp (b1 <- @rd Rnum 1 n B 1;; a11 <- @rd2 Rnum n A 1 1;; @wr Rnum 1 n B 1 (b1 / a11)%num) (fun x => Rsat n H x b)).
  { intros B B1 HB1 HB. repeat step. cbn [wp].
    eapply (solve_correct R 0%R 1%R Rplus Rmult Rminus Ropp Rdiv Rinv Rfth n H A ip b B1); auto.
    eapply (bwd_inv_step R 0%R 1%R Rplus Rmult Rminus Ropp Rdiv Rinv Rfth n 1 A B1 B); auto; [lia| |].
    - destruct (Z.eq_dec n 1) as [->|]; [exact Hnn|apply Hd; lia].
    - intros i Hi. unfold bwd1. destruct (Z.eqb_spec i 1) as [->|].
      + rewrite upd_same. reflexivity.
      + destruct (Z.ltb_spec i 1); [lia|]. rewrite upd_other by lia. reflexivity. }
  apply wp_bind. destruct (Z.eqb_spec n 1) as [E|Hn1]; cbn [negb].
  - subst n. cbn [wp]. apply (Hend b b); [reflexivity|].
    apply (bwd_inv_start R 0%R 1%R Rplus Rmult Rminus Ropp Rdiv Rinv Rfth).
  - apply wp_bind.
    eapply (wp_mono _ (fun B => forall i, B i = fwdsR (n - 1 + 1) A ip b i)).
    { apply (forM_ind (fun k (B : Rvec) => forall i, B i = fwdsR k A ip b i)).
      - lia.
      - reflexivity.
      - intros k B Hk HB. eapply wp_mono; [apply solh_fwd_spec; [lia|apply Hip; lia]|].
        intros B' HB' i. rewrite HB', fwds_S by lia. unfold fwd1. rewrite !HB. reflexivity. }
    intros B1 HB1.
    eapply (wp_mono _ (fun B => bwdR_inv n (n - (n - 1 + 1) + 1) A B1 B)).
    { apply (forM_ind (fun kb (B : Rvec) => bwdR_inv n (n - kb + 1) A B1 B)).
      - lia.
      - replace (n - 1 + 1) with n by lia.
        apply (bwd_inv_start R 0%R 1%R Rplus Rmult Rminus Ropp Rdiv Rinv Rfth).
      - intros kb B Hk HB. eapply wp_mono; [apply solh_bwd_spec; lia|].
        intros B' HB'. replace (n - (kb + 1) + 1) with (n - kb + 1 - 1) by lia.
        eapply (bwd_inv_step R 0%R 1%R Rplus Rmult Rminus Ropp Rdiv Rinv Rfth n (n - kb + 1) A B1 B); auto; [lia|].
        destruct (Z.eq_dec (n - kb + 1) n) as [->|]; [exact Hnn|apply Hd; lia]. }
    intros B HB. replace (n - (n - 1 + 1) + 1) with 1 in HB by lia.
    apply (Hend B B1); [|exact HB]. intros i _. rewrite HB1. f_equal. lia.
Qed.
