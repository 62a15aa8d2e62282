(* C40 to C42 with the tables as printed. *)
From Coq Require Import Reals Lra Lia FunctionalExtensionality.
From Verif Require Import Base FieldLU HessModel Spec HessPathProofs CMacros SdirkModel SdirkSpec SdirkProofs SdirkAlg SdirkTop SdirkTabSpec.
Open Scope Z_scope.
Local Arguments Z.mul : simpl never.
Local Arguments Z.add : simpl never.
Local Arguments Z.sub : simpl never.

(* what the code needs of a method *)
Definition diagonal (RK : method Rnum) : Prop :=
  1 <= m_s RK /\ m_A RK 0 0 <> 0%R /\ forall i, 0 <= i < m_s RK -> m_A RK i i = m_A RK 0 0.
Notation ba RK := (border_a (m_A RK) (m_S RK)).
Notation bb RK := (border_b (m_s RK) (m_A RK) (m_S RK) (m_D RK)).

Lemma add0 (x d : R) : (x + d * 0)%R = x.
Proof. ring. Qed.
Section Alg.
Variable RK : method Rnum.
Variable n : Z.
Variable dt : R.
Variable op A : vec Rnum -> vec Rnum.
Notation s := (m_s RK).
Notation a := (m_A RK).
Notation g := (diag RK).
Notation a' := (ba RK).
Notation b' := (bb RK).
Hypothesis HA : linear_op n A.
Hypothesis Hdia : diagonal RK.
Hypothesis Hinv : inverts n (dt * g)%R A op.
Variables phi u : vec Rnum.
Notation f := (fun x p => A x p + phi p)%R.
Notation rest i := (m_S RK i - cc a i)%R.
Lemma A_sc c x : veq n (A (fun p => c * x p)%R) (fun p => c * A x p)%R.
Proof. apply (SdirkAlg.A_sc n A HA). Qed.
Lemma A_sum (c : Z -> R) (x : Z -> vec Rnum) k : -1 <= k ->
  veq n (A (fun p => rsum 0 k (fun j => c j * x j p))%R) (fun p => rsum 0 k (fun j => c j * A (x j) p))%R.
Proof. apply (SdirkAlg.A_sum n A HA u). Qed.
(* the equation of a stage *)
Lemma forms_t (F : Z -> vec Rnum) i : 0 <= i < s ->
  veq n (fun p => dt * g * A (fun q => F i q + comb RK u F i q) p + m_S RK i * dt * phi p)%R
        (fun p => dt * (rest i * f u p + rsum 0 i (fun j => a i j * f (fun q => u q + F j q) p)))%R.
Proof.
  intros Hi. destruct Hdia as (Hs & Hg & Hd). destruct HA as [HL HC]. intros p Hp. cbv beta.
  assert (E : rsum 0 i (fun j => a i j * (A (fun q => u q + F j q) p + phi p))%R =
    (A (fun q => rsum 0 i (fun j => a i j * (u q + F j q))) p + cc a i * phi p)%R).
  { rewrite (A_sum (a i) (fun j q => (u q + F j q)%R) i ltac:(lia) p Hp). unfold cc.
    rewrite (Rmult_comm (rsum 0 i (fun j => a i j))), <- rsum_scal, <- rsum_add. apply rsum_ext. intros j _. ring. }
  change (fun j => a i j * (A (fun q => u q + F j q) p + phi p))%R with (fun j : Z => (a i j * (A (fun q => u q + F j q) p + phi p))%R) in E.
  rewrite E.
  assert (E2 : (rest i * A u p + A (fun q => rsum 0 i (fun j => a i j * (u q + F j q))) p)%R = (g * A (fun q => F i q + comb RK u F i q) p)%R).
  { rewrite <- (A_sc g (fun q => F i q + comb RK u F i q)%R p Hp).
    assert (E4 := HC (rest i) 1%R u (fun q => rsum 0 i (fun j => a i j * (u q + F j q)))%R p Hp). cbv beta in E4. rewrite Rmult_1_l in E4.
    etransitivity; [symmetry; exact E4|]. apply HL; [|exact Hp]. intros q _. unfold comb.
    assert (E3 : rsum 0 i (fun j => a i j * (u q + F j q))%R = (cc a i * u q + rsum 0 i (fun j => a i j * F j q))%R).
    { unfold cc. rewrite (Rmult_comm (rsum 0 i (fun j => a i j))), <- rsum_scal, <- rsum_add. apply rsum_ext. intros j _. ring. }
    rewrite E3. rewrite (rsum_hi 0 i (fun j => a i j * F j q)%R) by lia. rewrite (Hd i Hi). change (a 0 0) with g.
    replace (rsum 0 (i - 1) (fun j => a i j / g * F j q))%R with (/ g * rsum 0 (i - 1) (fun j => a i j * F j q))%R
      by (rewrite <- rsum_scal; apply rsum_ext; intros j _; unfold Rdiv; ring).
    field. exact Hg. }
  apply (f_equal (Rmult dt)) in E2. rewrite Rmult_plus_distr_l in E2. unfold vec in *; cbn [car Rnum] in *. lra.
Qed.
Lemma stage_fwd_t F i : 0 <= i < s -> stage_rel RK n dt op phi u F i ->
  veq n (F i) (fun p => dt * (rest i * f u p + rsum 0 i (fun j => a i j * f (fun q => u q + F j q) p)))%R.
Proof.
  intros Hi H. apply vtrans with (2 := forms_t F i Hi). destruct Hinv as [H1 _]. destruct HA as [HL _].
  set (V := fun q => (m_S RK i * dt * phi q + comb RK u F i q)%R) in *.
  specialize (H1 (mask n V)). intros p Hp. specialize (H1 p Hp). cbv beta in H1. rewrite (mask_veq n V p Hp) in H1.
  assert (Hx : veq n (op (mask n V)) (fun q => F i q + comb RK u F i q)%R) by (intros q Hq; rewrite (H q Hq); fold V; apply Rsub_add).
  rewrite (Hx p Hp), (HL _ _ Hx p Hp) in H1. unfold V in H1. lra.
Qed.
Lemma stage_unique_t F F' i : 0 <= i < s -> (forall j, 0 <= j < i -> veq n (F j) (F' j)) -> stage_rel RK n dt op phi u F i ->
  veq n (F' i) (fun p => dt * (rest i * f u p + rsum 0 i (fun j => a i j * f (fun q => u q + F' j q) p)))%R -> veq n (F i) (F' i).
Proof.
  intros Hi Hj H H'. pose proof (forms_t F' i Hi) as HF. destruct Hinv as [_ H2].
  assert (Hc : veq n (comb RK u F i) (comb RK u F' i)) by (apply comb_ext; [intros p _; reflexivity|exact Hj]).
  set (V := fun q => (m_S RK i * dt * phi q + comb RK u F i q)%R) in *.
  assert (Hx : veq n (op (mask n V)) (fun q => F' i q + comb RK u F' i q)%R).
  { apply H2. intros p Hp. rewrite (mask_veq n V p Hp). unfold V. rewrite (Hc p Hp). rewrite (H' p Hp). specialize (HF p Hp). cbv beta in HF |- *. lra. }
  intros p Hp. rewrite (H p Hp). fold V. rewrite (Hx p Hp), (Hc p Hp). apply Radd_sub.
Qed.
Lemma rsum_first lo hi (h : Z -> R) : lo <= hi + 1 -> rsum lo (hi + 1) h = (h lo + rsum lo hi (fun j => h (j + 1)%Z))%R.
Proof. intros H. rewrite rsum_lo by lia. f_equal. apply rsum_shift1. Qed.
Lemma border_row i (x : Z -> R) : 0 <= i -> rsum 0 (i + 1) (fun j => a' (i + 1)%Z j * x j)%R = (rest i * x 0%Z + rsum 0 i (fun j => a i j * x (j + 1)%Z))%R.
Proof.
  intros Hi. rewrite rsum_first by lia. f_equal.
  - unfold border_a. rewrite (proj2 (Z.eqb_neq (i + 1) 0)) by lia. cbn [Z.eqb]. replace (i + 1 - 1) with i by lia. reflexivity.
  - apply rsum_ext. intros j Hj. unfold border_a. rewrite (proj2 (Z.eqb_neq (i + 1) 0)), (proj2 (Z.eqb_neq (j + 1) 0)) by lia.
    replace (i + 1 - 1) with i by lia. replace (j + 1 - 1) with j by lia. reflexivity.
Qed.
Lemma border_row0 (x : Z -> R) : rsum 0 0 (fun j => a' 0%Z j * x j)%R = 0%R.
Proof. rewrite rsum_lo, rsum_empty by lia. unfold border_a. cbn [Z.eqb]. ring. Qed.
Lemma is_rk_step_t u' F : (forall i, 0 <= i < s -> stage_rel RK n dt op phi u F i) -> veq n u' (fun p => u p + rsum 0 (s - 1) (fun i => m_D RK i * F i p))%R ->
  rk_step n (s + 1) a' b' dt f u u'.
Proof.
  intros HF Hu. destruct HA as [HL _]. pose proof Hdia as (Hs & _ & _).
  assert (Hf : forall x y, veq n x y -> veq n (f x) (f y)) by (intros x y Hxy p Hp; cbv beta; f_equal; apply HL; assumption).
  split.
  - exists (fun i => if i =? 0 then f u else f (fun q => u q + F (i - 1)%Z q)%R). intros i Hi. destruct (Z.eqb_spec i 0) as [->|Hne].
    + apply Hf. intros q _. cbv beta. rewrite border_row0. symmetry. apply add0.
    + assert (exists l, i = l + 1) as [l ->] by (exists (i - 1); lia). replace (l + 1 - 1) with l by lia. apply Hf. intros q Hq. f_equal. rewrite border_row by lia.
      rewrite (stage_fwd_t F l ltac:(lia) (HF l ltac:(lia)) q Hq). cbn [Z.eqb]. f_equal. f_equal. apply rsum_ext. intros j Hj.
      rewrite (proj2 (Z.eqb_neq (j + 1) 0)) by lia. replace (j + 1 - 1) with j by lia. reflexivity.
  - intros k Hk. set (F' := fun i p => (dt * rsum 0 (i + 1) (fun j => a' (i + 1)%Z j * k j p))%R).
    assert (Hk0 : veq n (k 0) (f u)).
    { intros p Hp. rewrite (Hk 0 ltac:(lia) p Hp). apply Hf; [|exact Hp]. intros q _. rewrite border_row0. apply add0. }
    assert (Hk' : forall j, 0 <= j < s -> veq n (k (j + 1)) (f (fun q => u q + F' j q)%R)) by (intros j Hj; exact (Hk (j + 1) ltac:(lia))).
    assert (HF' : forall i, 0 <= i < s -> veq n (F' i) (fun p => dt * (rest i * f u p + rsum 0 i (fun j => a i j * f (fun q => u q + F' j q) p)))%R).
    { intros i Hi p Hp. unfold F' at 1. rewrite border_row by lia. rewrite (Hk0 p Hp). f_equal. f_equal. apply rsum_ext. intros j Hj. f_equal. apply Hk'; [lia|exact Hp]. }
    assert (Heq : forall i, 0 <= i < s -> veq n (F i) (F' i)).
    { intros i [Hi0 Hi1]. revert Hi1. assert (Hi2 := Hi0). revert i Hi0 Hi2. apply (Z_lt_induction (fun i => 0 <= i -> i < s -> veq n (F i) (F' i))).
      intros i IH Hi0 Hi1. assert (Hi : 0 <= i < s) by lia. apply stage_unique_t; [exact Hi| |apply HF, Hi|apply HF', Hi]. intros j Hj. apply IH; lia. }
    intros p Hp. rewrite (Hu p Hp). unfold rk_result. f_equal. replace (s + 1 - 1) with (s - 1 + 1) by lia. rewrite rsum_first by lia.
    transitivity (rsum 0 (s - 1) (fun i => m_D RK i * (dt * (rest i * k 0%Z p)) + rsum 0 i (fun j => m_D RK i * (dt * (a i j * k (j + 1)%Z p)))))%R.
    + apply rsum_ext. intros i Hi. rewrite (Heq i ltac:(lia) p Hp). unfold F'. rewrite border_row by lia. rewrite !Rmult_plus_distr_l. f_equal. rewrite <- !rsum_scal. reflexivity.
    + rewrite rsum_add. rewrite triangle by lia. rewrite Rmult_plus_distr_l. f_equal.
      * unfold border_b. cbn [Z.eqb]. rewrite (Rmult_comm (rsum 0 (s - 1) _)), <- !rsum_scal. apply rsum_ext. intros i _. ring.
      * rewrite <- rsum_scal. apply rsum_ext. intros j Hj. unfold border_b. rewrite (proj2 (Z.eqb_neq (j + 1) 0)) by lia. replace (j + 1 - 1) with j by lia. unfold weights.
        rewrite (Rmult_comm (rsum j (s - 1) (fun i => m_D RK i * a i j))%R), <- !rsum_scal. apply rsum_ext. intros i _. ring.
Qed.
End Alg.

Section Runs.
Variable RK : method Rnum.
Variable n : Z.
Variable dt : R.
Variables op A : vec Rnum -> vec Rnum.
Hypothesis Hn : 0 <= n.
Hypothesis HA : linear_op n A.
Hypothesis Hdia : diagonal RK.
Hypothesis Hinv : inverts n (dt * m_A RK 0 0)%R A op.
Lemma linear_runs_t k dloc Zused aloc zc0 (m : smem (K := Rnum)) :
  wp (o <- construct RK n dloc Zused aloc zc0 ;; run_linear RK n false op k (o, m))
     (fun x => rk_steps n (m_s RK + 1) (ba RK) (bb RK) dt A k (io m) (io (snd x))).
Proof.
  pose proof Hdia as (Hs & _). apply wp_bind. eapply wp_mono; [apply construct_ok; assumption|]. intros o Ho.
  revert o m Ho. induction k as [|k IH]; intros o m Ho; cbn [run_linear].
  - cbn [wp snd]. constructor. intros p _. reflexivity.
  - cbn [fst snd]. apply wp_bind. eapply wp_mono; [apply (linear_computed RK n dt op Hn Hs o m Ho)|].
    intros [[o' m'] e] (-> & Hsame & F & HF & Hu). eapply wp_mono; [apply IH; eapply same_ok; eassumption|].
    intros x Hx. econstructor; [|exact Hx].
    replace A with (fun x p => A x p + (fun _ => 0) p)%R by (extensionality x0; extensionality p; cbn [car Rnum]; apply Rplus_0_r).
    apply (is_rk_step_t RK n dt op A HA Hdia Hinv (fun _ => 0%R) (io m) (io m') F HF Hu).
Qed.
Lemma affine_runs_t phi k dloc Zused aloc zc0 (m : smem (K := Rnum)) :
  wp (o <- construct RK n dloc Zused aloc zc0 ;; run_affine RK n dt true op phi k (o, m))
     (fun x => rk_steps n (m_s RK + 1) (ba RK) (bb RK) dt (fun u p => A u p + phi p)%R k (io m) (io (snd x))).
Proof.
  pose proof Hdia as (Hs & _). apply wp_bind. eapply wp_mono; [apply construct_ok; assumption|]. intros o Ho.
  revert o m Ho. induction k as [|k IH]; intros o m Ho; cbn [run_affine].
  - cbn [wp snd]. constructor. intros p _. reflexivity.
  - cbn [fst snd]. apply wp_bind. eapply wp_mono; [apply (affine_computed RK n dt op Hn Hs phi o m Ho)|].
    intros [[o' m'] e] (-> & Hsame & F & HF & Hu). eapply wp_mono; [apply IH; eapply same_ok; eassumption|].
    intros x Hx. econstructor; [|exact Hx].
    apply (is_rk_step_t RK n dt op A HA Hdia Hinv phi (io m) (io m') F HF Hu).
Qed.
Lemma equilibria_t phi k u u' : veq n (fun p => A u p + phi p)%R (fun _ => 0%R) ->
  rk_steps n (m_s RK + 1) (ba RK) (bb RK) dt (fun u p => A u p + phi p)%R k u u' -> veq n u' u.
Proof.
  intros He H. destruct HA as [HL _].
  assert (G : forall x y, veq n x y -> veq n (fun p => A x p + phi p)%R (fun p => A y p + phi p)%R) by (intros x y Hxy p Hp; rewrite (HL _ _ Hxy p Hp); reflexivity).
  induction H as [u u' H|k u u' u'' H1 H2 IH]; [exact H|].
  assert (E : veq n u' u) by (apply (rk_equilibrium n _ _ _ _ (fun u p => A u p + phi p)%R u u' G He H1)).
  intros p Hp. rewrite IH; [apply E, Hp| |exact Hp]. intros q Hq. rewrite (G _ _ E q Hq). apply He, Hq.
Qed.
Lemma keeps_equilibria_t phi k dloc Zused aloc zc0 (m : smem (K := Rnum)) : veq n (fun p => A (io m) p + phi p)%R (fun _ => 0%R) ->
  wp (o <- construct RK n dloc Zused aloc zc0 ;; run_affine RK n dt true op phi k (o, m)) (fun x => veq n (io (snd x)) (io m)).
Proof. intros He. eapply wp_mono; [apply affine_runs_t|]. intros x Hx. exact (equilibria_t phi k _ _ He Hx). Qed.
End Runs.

(* the five methods *)
Definition supplied (RK : method Rnum) : Prop :=
  exists w, RK = EulerImp w \/ RK = CrN w \/ RK = RKRS w \/ RK = RKMethod1 w \/ RK = RKMethod2 w.
Lemma supplied_diagonal RK : supplied RK -> diagonal RK.
Proof.
  intros (w & H). repeat destruct H as [H|H]; subst; (split; [cbn; lia|split; [apply Rgt_not_eq; red1; lra|]]); intros i Hi; cbn in Hi;
  (destruct (Z.eq_dec i 0); [subst; reflexivity|]); try lia; (destruct (Z.eq_dec i 1); [subst; reflexivity|]); try lia;
  (destruct (Z.eq_dec i 2); [subst; reflexivity|]); try lia; (destruct (Z.eq_dec i 3); [subst; reflexivity|]); try lia;
  (destruct (Z.eq_dec i 4); [subst; reflexivity|]); lia.
Qed.

(* the order, with the border *)
Definition border_order (RK : method Rnum) (p : nat) : Prop := has_order (m_s RK + 1) (ba RK) (bb RK) tiny p.
(* the values *)
Definition at1 (l : list R) (i : Z) : R := nth (Z.to_nat i) l 0%R.
Definition at2 (l : list (list R)) (i j : Z) : R := nth (Z.to_nat j) (nth (Z.to_nat i) l nil) 0%R.
Lemma conditions_ext s a b a1 b1 q : (forall i j, 0 <= j <= i -> i < s -> a i j = a1 i j) -> (forall i, 0 <= i < s -> b i = b1 i) ->
  conditions s a b q = conditions s a1 b1 q.
Proof.
  intros Ha Hb.
  assert (Hc : forall i, 0 <= i < s -> cc a i = cc a1 i) by (intros i Hi; unfold cc; apply rsum_ext; intros j Hj; apply Ha; lia).
  assert (Hac : forall f f1 i, 0 <= i < s -> (forall j, 0 <= j < s -> f j = f1 j) -> rsum 0 i (fun j => a i j * f j)%R = rsum 0 i (fun j => a1 i j * f1 j)%R).
  { intros f f1 i Hi Hf. apply rsum_ext. intros j Hj. rewrite Ha, Hf by lia. reflexivity. }
  assert (HB : forall f f1, (forall i, 0 <= i < s -> f i = f1 i) -> rsum 0 (s - 1) (fun i => b i * f i)%R = rsum 0 (s - 1) (fun i => b1 i * f1 i)%R).
  { intros f f1 Hf. apply rsum_ext. intros i Hi. rewrite Hb, Hf by lia. reflexivity. }
  unfold conditions. destruct q as [|[|[|[|[|q]]]]]; repeat (apply (f_equal2 cons); [apply (f_equal2 pair); [|reflexivity]|]); try reflexivity; apply HB; intros i Hi; rewrite ?Hc by lia; try reflexivity.
  - apply Hac; [lia|]. intros j Hj. apply Hc, Hj.
  - f_equal. apply Hac; [lia|]. intros j Hj. apply Hc, Hj.
  - apply Hac; [lia|]. intros j Hj. rewrite Hc by lia. reflexivity.
  - apply Hac; [lia|]. intros j Hj. apply Hac; [lia|]. intros k Hk. apply Hc, Hk.
Qed.
Definition rkrs_a : list (list R) := [[(0)%R]; [(0)%R; (170710678118655 / 100000000000000)%R]; [(-8 / 1000000000000000)%R; (-241421356237309 / 100000000000000)%R; (170710678118655 / 100000000000000)%R]].
Definition rkrs_b : list R := [(-2343145750507616 / 1000000000000000000000000000000)%R; (50000000000000348226242253617 / 100000000000000000000000000000)%R; (4999999999999999131876614706 / 10000000000000000000000000000)%R].
Definition rk1_a : list (list R) := [[(0)%R]; [(0)%R; (25 / 100)%R]; [(0)%R; (5 / 10)%R; (25 / 100)%R]; [(0)%R; (34 / 100)%R; (-4 / 100)%R; (25 / 100)%R]; [(-2 / 10000000000000000)%R; (272794117647059 / 1000000000000000)%R; (-503676470588235 / 10000000000000000)%R; (275735294117647 / 10000000000000000)%R; (25 / 100)%R]; [(-1 / 100000000000000)%R; (104166666666667 / 100000000000000)%R; (-102083333333333 / 100000000000000)%R; (78125 / 10000)%R; (-708333333333333 / 100000000000000)%R; (25 / 100)%R]].
Definition rk1_b : list R := [(-1 / 100000000000000)%R; (104166666666667 / 100000000000000)%R; (-102083333333333 / 100000000000000)%R; (78125 / 10000)%R; (-708333333333333 / 100000000000000)%R; (25 / 100)%R].
Definition rk2_a : list (list R) := [[(0)%R]; [(0)%R; (106857902130163 / 100000000000000)%R]; [(-1 / 1000000000000000)%R; (-568579021301629 / 1000000000000000)%R; (106857902130163 / 100000000000000)%R]; [(-87 / 10000000000000000)%R; (213715804260326 / 100000000000000)%R; (-327431608520651 / 100000000000000)%R; (106857902130163 / 100000000000000)%R]].
Definition rk2_b : list R := [(-21135261708011021 / 10000000000000000000000000000000)%R; (12888640051572188400701259301 / 100000000000000000000000000000)%R; (74222719896855952740945966197 / 100000000000000000000000000000)%R; (12888640051572031853353583829 / 100000000000000000000000000000)%R].
Ltac values := cbv -[Rlit Rplus Rmult IZR Rminus Rdiv Rinv Ropp]; rewrite ?Rlit_0, ?Rlit_neg;
  repeat match goal with |- context [IZR (10 ^ Zpos ?p)] => let v := eval vm_compute in (10 ^ Zpos p) in change (10 ^ Zpos p) with v end; lra.
Ltac upto x k := lazymatch k with O => lia | S ?k => destruct (Z.eq_dec x (Z.of_nat k)) as [->|]; [cbn [Z.of_nat Pos.of_succ_nat Pos.succ]|upto x k] end.
Ltac by_values k A B := intros q Hq; rewrite (conditions_ext _ _ _ (at2 A) (at1 B) q);
  [destruct q as [|[|[|[|[|q]]]]]; try lia; unfold conditions; repeat apply List.Forall_cons; try apply List.Forall_nil; cbn [fst snd]; apply Rabs_small; cbv -[Rplus Rmult IZR Rminus Rdiv Rinv Ropp Rle]; split; lra
  |let i := fresh "i" in let j := fresh "j" in let Hj := fresh in let Hi := fresh in intros i j Hj Hi; cbn in Hi; upto i k; upto j k; try lia; values
  |let i := fresh "i" in let Hi := fresh in intros i Hi; cbn in Hi; upto i k; values].
Lemma rkrs_border u : border_order (RKRS u) 2.
Proof. by_values 3%nat rkrs_a rkrs_b. Qed.
Lemma rk2_border u : border_order (RKMethod2 u) 4.
Proof. by_values 4%nat rk2_a rk2_b. Qed.
Lemma rk1_border u : border_order (RKMethod1 u) 4.
Proof. by_values 6%nat rk1_a rk1_b. Qed.
Lemma euler_border u : border_order (EulerImp u) 1.
Proof. order4. Qed.
(* the border is small *)
Definition small_border (RK : method Rnum) : Prop :=
  (forall i, 0 <= i < m_s RK + 1 -> (Rabs (ba RK i 0) <= tiny)%R) /\ (Rabs (bb RK 0) <= tiny)%R.
Lemma supplied_border RK : supplied RK -> small_border RK.
Proof.
  intros (w & H). repeat destruct H as [H|H]; subst; (split; [|small]); intros i Hi; cbn in Hi;
  (destruct (Z.eq_dec i 0) as [->|]; [small|]); (destruct (Z.eq_dec i 1) as [->|]; [small|]); try lia;
  (destruct (Z.eq_dec i 2) as [->|]; [small|]); try lia; (destruct (Z.eq_dec i 3) as [->|]; [small|]); try lia;
  (destruct (Z.eq_dec i 4) as [->|]; [small|]); (destruct (Z.eq_dec i 5) as [->|]; [small|]); lia.
Qed.
