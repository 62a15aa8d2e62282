(* The complex half of the Hessenberg path (h_decomc, h_solvecomplex of HessPathModel.v). *)
From Coq Require Import Reals Lra.
From Verif Require Import Base Spec HessModel HessPathModel FieldLU HessProofs HessCProofs HessPathProofs HessSafe.
Open Scope Z_scope.

(* what the two assembly loops of decomc leave in E2R and E2I *)
Definition assembledC {K : num} (n : Z) (alpha beta : K) (A R1 I1 : mat K) : Prop :=
  forall i j, 1 <= i <= n -> 1 <= j <= n -> i <= j + 1 ->
    R1 i j = (if i =? j then (- A i j + alpha)%num else (- A i j)%num) /\
    I1 i j = (if i =? j then beta else n0).

Section Gen.
Context {K : num}.
(* the part of h_decomc before the call of dechc *)
Definition assemble (n : Z) (alpha beta : K) (s : hst (K:=K)) (Jac : mat K) : out (mat K * mat K) :=
  '(R1, I1) <- forM 1 (n - 1) (fun j st =>
     let '(R1, I1) := st in
     a <- rd2 n Jac (j + 1) j ;;
     R1 <- wr2 n R1 (j + 1) j (- a)%num ;;
     I1 <- wr2 n I1 (j + 1) j n0 ;; Ok (R1, I1)) (E2R s, E2I s) ;;
  forM 1 n (fun j st =>
     '(R1, I1) <- forM 1 j (fun i st =>
        let '(R1, I1) := st in
        I1 <- wr2 n I1 i j n0 ;;
        a <- rd2 n Jac i j ;; R1 <- wr2 n R1 i j (- a)%num ;; Ok (R1, I1)) st ;;
     d <- rd2 n R1 j j ;; R1 <- wr2 n R1 j j (d + alpha)%num ;;
     I1 <- wr2 n I1 j j beta ;; Ok (R1, I1)) (R1, I1).
Lemma decomc_split n alpha beta s (A : mat K) :
  h_decomc n alpha beta s A =
  ('(R1, I1) <- assemble n alpha beta s A ;;
   '(R1, I1, ip, _) <- dechc n R1 I1 (ipi s) ;;
   Ok (mkHst (hE1 s) R1 I1 (htau s) (ipr s) ip (calhes s))).
Proof.
  unfold h_decomc, assemble. destruct (forM 1 (n - 1) _ _) as [[R1 I1]| | |]; cbn [bind]; reflexivity.
Qed.
Lemma upd2_eval {T} (v : Z -> Z -> T) i j x a b :
  upd2 v i j x a b = if (a =? i) && (b =? j) then x else v a b.
Proof. reflexivity. Qed.
Ltac st := repeat first
  [ apply wp_assoc
  | apply wp_rd2; [lia|lia|] | apply wp_wr2; [lia|lia|]
  | apply wp_okb ].
Ltac cases := rewrite ?upd2_eval in *;
  repeat (match goal with
          | |- context [?a =? ?b] => destruct (Z.eqb_spec a b)
          | H : context [?a =? ?b] |- _ => destruct (Z.eqb_spec a b)
          end; cbn [andb] in *; subst; try lia).
Lemma assemble_spec n (alpha beta : K) s (A : mat K) : 1 <= n ->
  wp (assemble n alpha beta s A) (fun '(R1, I1) => assembledC n alpha beta A R1 I1).
Proof.
  intros Hn. unfold assemble. apply wp_bind.
  set (P := fun k (t : mat K * mat K) => forall j, 1 <= j < k -> fst t (j + 1) j = (- A (j + 1)%Z j)%num /\ snd t (j + 1) j = n0).
  apply wp_mono with (P := P (n - 1 + 1)).
  { apply (forM_ind P); [lia|intros j Hj; lia|].
    intros j [R1 I1] Hj HP. st. cbn [wp]. intros q Hq. cbn [fst snd].
    destruct (Z.eq_dec q j) as [->|].
    - rewrite !upd2_same. auto.
    - rewrite !upd2_other by lia. apply (HP q). lia. }
  intros [R1 I1] HP.
  set (Q := fun k (t : mat K * mat K) =>
    (forall j, 1 <= j < n -> fst t (j + 1) j = (- A (j + 1)%Z j)%num /\ snd t (j + 1) j = n0) /\
    forall i j, 1 <= i <= j -> j < k ->
      fst t i j = (if i =? j then (- A i j + alpha)%num else (- A i j)%num) /\
      snd t i j = (if i =? j then beta else n0)).
  apply wp_mono with (P := Q (n + 1)).
  - apply (forM_ind Q); [lia| |].
    + split; [intros j Hj; apply HP; lia|intros; lia].
    + clear. intros j t Hj [H1 H2]. apply wp_bind.
      set (T := fun k (t : mat K * mat K) =>
        (forall j, 1 <= j < n -> fst t (j + 1) j = (- A (j + 1)%Z j)%num /\ snd t (j + 1) j = n0) /\
        (forall i q, 1 <= i <= q -> q < j ->
          fst t i q = (if i =? q then (- A i q + alpha)%num else (- A i q)%num) /\
          snd t i q = (if i =? q then beta else n0)) /\
        forall i, 1 <= i < k -> fst t i j = (- A i j)%num /\ snd t i j = n0).
      apply wp_mono with (P := T (j + 1)).
      * apply (forM_ind T); [lia|split; [exact H1|split; [exact H2|intros; lia]]|].
        intros i [R2 I2] Hi (G1 & G2 & G3). st. cbn [wp]. split; [|split]; cbn [fst snd] in *.
        -- intros q Hq. rewrite !upd2_other by lia. apply G1; lia.
        -- intros a q Ha Hq. rewrite !upd2_other by lia. apply G2; lia.
        -- intros a Ha. destruct (Z.eq_dec a i) as [->|]; [rewrite !upd2_same; auto|].
           rewrite !upd2_other by lia. apply G3. lia.
      * intros [R2 I2] (G1 & G2 & G3). st. cbn [wp]. split; cbn [fst snd] in *.
        -- intros q Hq. rewrite !upd2_other by lia. apply G1; lia.
        -- intros a q Ha Hq. destruct (Z.eq_dec q j) as [->|].
           ++ destruct (Z.eqb_spec a j) as [->|].
              ** rewrite !upd2_same. destruct (G3 j) as [-> _]; [lia|]. auto.
              ** rewrite !upd2_other by lia. apply G3; lia.
           ++ rewrite !upd2_other by lia. apply G2; lia.
  - intros [R2 I2] [G1 G2] i j Hi Hj Hij. cbn [fst snd] in *.
    destruct (Z.eq_dec i (j + 1)) as [->|].
    + destruct (Z.eqb_spec (j + 1) j); [lia|]. apply G1. lia.
    + apply G2; lia.
Qed.
(* for every arithmetic: decomc never leaves its arrays and never throws *)
Lemma decomc_safe n (alpha beta : K) s (A : mat K) : 1 <= n ->
  wp (h_decomc n alpha beta s A) (fun _ => True).
Proof.
  intros Hn. rewrite decomc_split. apply wp_bind. eapply wp_mono; [apply assemble_spec; lia|].
  intros [R1 I1] _. apply wp_bind. eapply wp_mono; [apply dechc_safe_lemma; lia|].
  intros [[[A1 A2] ip] r] _. exact Logic.I.
Qed.
End Gen.

(* the complex Newton system as two coupled real ones *)
Lemma csol_split n alpha beta J xr xi br bi :
  csolution n (newton_matrix alpha J) (newton_matrix beta (fun _ _ => 0%R)) xr xi br bi <->
  solution n (newton_matrix alpha J) xr (fun i => br i + beta * xi i)%R /\
  solution n (newton_matrix alpha J) xi (fun i => bi i - beta * xr i)%R.
Proof.
  assert (HB : forall x i, 1 <= i <= n -> rsum 1 n (fun j => newton_matrix beta (fun _ _ => 0%R) i j * x j)%R = (beta * x i)%R).
  { intros x i Hi. rewrite newton_sum by lia. unfold matvec. rewrite (rsum_zero 1 n); [ring|]. intros; ring. }
  assert (HR : forall i, 1 <= i <= n ->
    rsum 1 n (fun j => newton_matrix alpha J i j * xr j - newton_matrix beta (fun _ _ => 0%R) i j * xi j)%R =
    (rsum 1 n (fun j => newton_matrix alpha J i j * xr j) - beta * xi i)%R).
  { intros i Hi. rewrite rsum_sub, HB by lia. reflexivity. }
  assert (HI : forall i, 1 <= i <= n ->
    rsum 1 n (fun j => newton_matrix beta (fun _ _ => 0%R) i j * xr j + newton_matrix alpha J i j * xi j)%R =
    (rsum 1 n (fun j => newton_matrix alpha J i j * xi j) + beta * xr i)%R).
  { intros i Hi. rewrite rsum_add, HB by lia. ring. }
  unfold csolution, solution. split.
  - intros H. split; intros i Hi; destruct (H i Hi) as [H1 H2].
    + rewrite HR in H1 by lia. lra.
    + rewrite HI in H2 by lia. lra.
  - intros [H1 H2] i Hi. rewrite HR, HI by lia. rewrite (H1 i Hi), (H2 i Hi). split; ring.
Qed.
Lemma sol_ext n M x b b' : on n b b' -> solution n M x b -> solution n M x b'.
Proof. intros H G i Hi. rewrite (G i Hi). apply H. exact Hi. Qed.
Lemma cnewton_conj n alpha beta J A tau yr yi cr ci : 2 <= n -> reduction n J A tau ->
  csolution n (newton_matrix alpha (hess_part A)) (newton_matrix beta (fun _ _ => 0%R)) yr yi cr ci ->
  let Q := apply_Q n A tau (Z.to_nat (n - 2)) in
  csolution n (newton_matrix alpha J) (newton_matrix beta (fun _ _ => 0%R)) (Q yr) (Q yi) (Q cr) (Q ci).
Proof.
  intros Hn Hred H Q. apply csol_split in H. destruct H as [H1 H2]. apply csol_split.
  split; (eapply sol_ext; [|apply newton_conj; eassumption]); intros i Hi.
  - transitivity (1 * Q cr i + beta * Q yi i)%R; [|ring]. unfold Q. rewrite <- apply_Q_lin.
    apply apply_Q_on; [|exact Hi]. intros q Hq. ring.
  - transitivity (1 * Q ci i + (- beta) * Q yr i)%R; [|ring]. unfold Q. rewrite <- apply_Q_lin.
    apply apply_Q_on; [|exact Hi]. intros q Hq. ring.
Qed.
Lemma csolution_on n Mr Mi xr xi br bi xr' xi' br' bi' :
  on n xr xr' -> on n xi xi' -> on n br br' -> on n bi bi' ->
  csolution n Mr Mi xr xi br bi -> csolution n Mr Mi xr' xi' br' bi'.
Proof.
  intros H1 H2 H3 H4 H i Hi. destruct (H i Hi) as [G1 G2]. rewrite <- (H3 i Hi), <- (H4 i Hi), <- G1, <- G2.
  split; apply rsum_ext; intros j Hj; rewrite (H1 j Hj), (H2 j Hj); reflexivity.
Qed.

Lemma neg_add_sub (a b : R) : (- a + b = b - a)%R. Proof. ring. Qed.
Lemma neg_sub0 (a : R) : (- a = 0 - a)%R. Proof. ring. Qed.
Lemma csat_assembled n alpha beta A (R1 I1 : Rmat) xr xi br bi :
  @assembledC Rnum n alpha beta A R1 I1 ->
  Csat n (effC 1 (cmat R1 I1)) (cvec xr xi) (cvec br bi) <->
  csolution n (newton_matrix alpha (hess_part A)) (newton_matrix beta (fun _ _ => 0%R)) xr xi br bi.
Proof.
  intros HA. rewrite csolution_Csat.
  assert (HE : forall i j, 1 <= i <= n -> 1 <= j <= n ->
    effC 1 (cmat R1 I1) i j = cmat (newton_matrix alpha (hess_part A)) (newton_matrix beta (fun _ _ => 0%R)) i j).
  { intros i j Hi Hj. unfold eff, cmat, newton_matrix, hess_part. destruct (Z.ltb_spec (j + 1) i).
    - destruct (Z.eqb_spec i j); [lia|]. unfold Czero. f_equal; ring.
    - destruct (Z.ltb_spec j 1); [lia|]. rewrite andb_false_r. destruct (HA i j Hi Hj ltac:(lia)) as [-> ->].
      unfold n0; cbn [nadd nopp nlit Rnum]; rewrite ?Rlit_0. cbn [car Rnum]. destruct (Z.eqb_spec i j); apply (f_equal2 (@pair R R)); match goal with |- @eq _ ?a ?b => change (@eq R a b) end; first [exact (neg_add_sub _ _)|exact (neg_sub0 _)|exact (eq_sym (Rminus_0_r _))|idtac]. }
  split; intros H; (eapply (fsat_ext CC Czero Cadd Cmul); [| |exact H]); try reflexivity;
    intros i j Hi Hj; rewrite HE by lia; reflexivity.
Qed.

Lemma apply_Qt_ext n A tau k : forall x y i, (forall q, x q = y q) -> apply_Qt n A tau k x i = apply_Qt n A tau k y i.
Proof.
  induction k; intros x y i H; [apply H|]. cbn [apply_Qt]. apply reflector_ext. intros. apply IHk, H.
Qed.
Lemma Qt_Q n A tau k x : Z.of_nat k < n ->
  (forall j, 1 <= j <= Z.of_nat k -> is_reflector n j (fun i => A i j) (tau (j - 1))) ->
  forall i, apply_Qt n A tau k (apply_Q n A tau k x) i = x i.
Proof.
  revert x. induction k as [|k IH]; intros x Hk Hr i; [reflexivity|].
  cbn [apply_Q apply_Qt].
  rewrite (reflector_ext n _ _ _ _ (reflector n (Z.of_nat (S k)) (fun i => A i (Z.of_nat (S k))) (tau (Z.of_nat (S k) - 1)) x)).
  - apply reflector_invol; [lia|]. apply Hr. lia.
  - intros q. apply IH; [lia|]. intros j Hj. apply Hr. lia.
Qed.

(* no run of dechc on the matrix assembled by decomc meets the wrong branch of line 170 *)
Definition path_clean (n : Z) (alpha beta : R) (A : Rmat) (ip : ivec) : Prop :=
  forall R1 I1 : Rmat, @assembledC Rnum n alpha beta A R1 I1 -> dechc_clean n R1 I1 ip.

Lemma decomc_spec n alpha beta (J A : Rmat) (s : @hst Rnum) : 2 <= n -> reduction n J A (htau s) ->
  path_clean n alpha beta A (ipi s) ->
  cnonsingular n (newton_matrix alpha J) (newton_matrix beta (fun _ _ => 0%R)) ->
  exists s', @h_decomc Rnum n alpha beta s A = Ok s' /\ htau s' = htau s /\
    forall br bi, exists xr xi, @h_solvecomplex Rnum n s' A br bi = Ok (xr, xi) /\
      csolution n (newton_matrix alpha J) (newton_matrix beta (fun _ _ => 0%R)) xr xi br bi.
Proof.
  intros Hn Hred Hcl Hns. rewrite decomc_split.
  pose proof (@assemble_spec Rnum n alpha beta s A ltac:(lia)) as Ha. apply wp_ok in Ha.
  destruct Ha as [[R1 I1] [Ea HA]]. cbn [car Rnum] in *. rewrite Ea. cbn [bind].
  pose proof (dechc_spec n R1 I1 (ipi s) ltac:(lia) (Hcl R1 I1 HA)) as Hd. apply wp_ok in Hd.
  destruct Hd as [[[[A1 A2] ip] ret] [Ed (Hr & G0 & G1)]]. cbn [car Rnum] in *. rewrite Ed. cbn [bind].
  set (tau := htau s) in *. set (k := Z.to_nat (n - 2)).
  assert (Hrefl : forall j, 1 <= j <= Z.of_nat k -> is_reflector n j (fun i => A i j) (tau (j - 1))).
  { intros j Hj. apply Hred. unfold k in *. lia. }
  assert (ret = 0) as ->.
  { destruct (Z.eq_dec ret 0) as [|Hne]; [assumption|exfalso].
    destruct (G1 Hne) as [x [[i [Hi Hxi]] Hx]].
    assert (Hx' : csolution n (newton_matrix alpha (hess_part A)) (newton_matrix beta (fun _ _ => 0%R))
                    (fun i => fst (x i)) (fun i => snd (x i)) (fun _ => 0%R) (fun _ => 0%R)).
    { apply (csat_assembled n alpha beta A R1 I1); [exact HA|].
      intros q Hq. transitivity (sumC 1 n (fun j => Cmul (effC 1 (cmat R1 I1) q j) (x j))); [|exact (Hx q Hq)].
      apply sum_ext. intros j Hj. unfold cvec. destruct (x j); reflexivity. }
    apply (cnewton_conj n alpha beta J A tau) in Hx'; [|lia|exact Hred]. cbv zeta in Hx'. fold k in Hx'.
    assert (HQ0 : forall q, apply_Q n A tau k (fun _ => 0%R) q = 0%R).
    { intros q. transitivity (apply_Q n A tau k (fun _ => 0 * 0 + 0 * 0)%R q).
      - apply apply_Q_ext. intros; ring.
      - rewrite (apply_Q_lin n A tau k 0 0 (fun _ => 0%R) (fun _ => 0%R)). ring. }
    assert (Hz : forall q, 1 <= q <= n -> apply_Q n A tau k (fun i => fst (x i)) q = 0%R /\ apply_Q n A tau k (fun i => snd (x i)) q = 0%R).
    { apply Hns. eapply csolution_on; [| | | |exact Hx']; intros q Hq; try reflexivity; apply HQ0. }
    assert (HQt0 : forall q, apply_Qt n A tau k (fun _ => 0%R) q = 0%R).
    { intros q. transitivity (apply_Qt n A tau k (apply_Q n A tau k (fun _ => 0%R)) q).
      - apply apply_Qt_ext. intros. symmetry. apply HQ0.
      - exact (Qt_Q n A tau k (fun _ => 0%R) ltac:(unfold k; lia) Hrefl q). }
    apply Hxi. rewrite (surjective_pairing (x i)). unfold Czero. f_equal.
    - refine (eq_trans (eq_sym (Qt_Q n A tau k (fun i => fst (x i)) ltac:(unfold k; lia) Hrefl i)) (eq_trans _ (HQt0 i))).
      apply apply_Qt_on; [|exact Hi]. intros q Hq. apply Hz. exact Hq.
    - refine (eq_trans (eq_sym (Qt_Q n A tau k (fun i => snd (x i)) ltac:(unfold k; lia) Hrefl i)) (eq_trans _ (HQt0 i))).
      apply apply_Qt_on; [|exact Hi]. intros q Hq. apply Hz. exact Hq. }
  destruct (G0 eq_refl) as [Hinv Hnn].
  eexists. split; [reflexivity|]. split; [reflexivity|]. intros br bi.
  pose proof (householder_direct n A tau br (S (Z.to_nat n)) Hn ltac:(lia)) as H1.
  apply wp_ok in H1. destruct H1 as [cr [Er Hcr]].
  pose proof (householder_direct n A tau bi (S (Z.to_nat n)) Hn ltac:(lia)) as H2.
  apply wp_ok in H2. destruct H2 as [ci [Ei Hci]].
  pose proof (solhc_spec n _ A1 A2 ip cr ci ltac:(lia) Hinv Hnn) as H3. apply wp_ok in H3.
  destruct H3 as [[yr yi] [Ey Hy]].
  pose proof (householder_reverse n A tau yr (S (Z.to_nat n)) Hn ltac:(lia)) as H4.
  apply wp_ok in H4. destruct H4 as [xr [Exr Hxr]].
  pose proof (householder_reverse n A tau yi (S (Z.to_nat n)) Hn ltac:(lia)) as H5.
  apply wp_ok in H5. destruct H5 as [xi [Exi Hxi]].
  exists xr, xi. split.
  { unfold h_solvecomplex. cbn [htau E2R E2I ipi]. fold tau.
    refine (eq_trans (f_equal (fun o => bind o _) Er) _). cbn [bind].
    refine (eq_trans (f_equal (fun o => bind o _) Ei) _). cbn [bind].
    refine (eq_trans (f_equal (fun o => bind o _) Ey) _). cbn [bind].
    refine (eq_trans (f_equal (fun o => bind o _) Exr) _). cbn [bind].
    refine (eq_trans (f_equal (fun o => bind o _) Exi) _). reflexivity. }
  apply (csat_assembled n alpha beta A R1 I1 yr yi cr ci HA) in Hy.
  apply (cnewton_conj n alpha beta J A tau) in Hy; [|lia|exact Hred]. cbv zeta in Hy. fold k in Hy.
  eapply csolution_on; [| | | |exact Hy].
  - intros i Hi. symmetry. exact (Hxr i Hi).
  - intros i Hi. symmetry. exact (Hxi i Hi).
  - intros i Hi. rewrite (apply_Q_on n A tau k cr _ Hcr i Hi). apply Q_Qt; [unfold k; lia|exact Hrefl].
  - intros i Hi. rewrite (apply_Q_on n A tau k ci _ Hci i Hi). apply Q_Qt; [unfold k; lia|exact Hrefl].
Qed.
