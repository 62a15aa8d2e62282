(* C40, C41: algebra of the diagonally implicit methods. *)
From Coq Require Import Reals Lra FunctionalExtensionality.
From Verif Require Import Base FieldLU HessModel Spec HessPathProofs SdirkModel SdirkSpec SdirkProofs.
Open Scope Z_scope.
Local Arguments Z.mul : simpl never.
Local Arguments Z.add : simpl never.
Local Arguments Z.sub : simpl never.

Lemma triangle (f : Z -> Z -> R) k : 0 <= k + 1 -> rsum 0 k (fun i => rsum 0 i (fun j => f i j)) = rsum 0 k (fun j => rsum j k (fun i => f i j)).
Proof.
  intros Hk. assert (E : k = Z.of_nat (Z.to_nat (k + 1)) - 1) by lia. rewrite E. clear E Hk.
  generalize (Z.to_nat (k + 1)) as m. induction m as [|m IH]; [rewrite !rsum_empty by lia; reflexivity|].
  replace (Z.of_nat (S m) - 1) with (Z.of_nat m) by lia. rewrite rsum_hi by lia. rewrite IH.
  rewrite (rsum_hi 0 (Z.of_nat m) (fun j => rsum j (Z.of_nat m) (fun i => f i j))) by lia.
  rewrite (rsum_hi (Z.of_nat m) (Z.of_nat m)) by lia. rewrite (rsum_empty (Z.of_nat m) (Z.of_nat m - 1)) by lia. rewrite Rplus_0_l.
  rewrite (rsum_hi 0 (Z.of_nat m) (fun j => f (Z.of_nat m) j)) by lia.
  rewrite <- Rplus_assoc. f_equal. rewrite <- rsum_add. apply rsum_ext. intros j Hj. rewrite (rsum_hi j (Z.of_nat m)) by lia. reflexivity.
Qed.

Lemma Rsub_add (x y : R) : x = (x - y + y)%R.
Proof. ring. Qed.
Lemma Radd_sub (x y : R) : (x + y - y)%R = x.
Proof. ring. Qed.
Section Alg.
Variable RK : method Rnum.
Variable n : Z.
Variable dt : R.
Variable op A : vec Rnum -> vec Rnum.
Variable b : Z -> R.
Notation s := (m_s RK).
Notation a := (m_A RK).
Notation g := (diag RK).
Hypothesis HA : linear_op n A.
Hypothesis Hfit : fits s a (m_S RK) (m_D RK) b.
Hypothesis Hinv : inverts n (dt * g)%R A op.
Variables phi u : vec Rnum.
Notation f := (fun x p => A x p + phi p)%R.
Lemma vtrans (x y z : vec Rnum) : veq n x y -> veq n y z -> veq n x z.
Proof. intros H1 H2 p Hp. rewrite (H1 p Hp). apply H2, Hp. Qed.
Lemma vsym (x y : vec Rnum) : veq n x y -> veq n y x.
Proof. intros H p Hp. symmetry. apply H, Hp. Qed.
Lemma A_sc c x : veq n (A (fun p => c * x p)%R) (fun p => c * A x p)%R.
Proof.
  destruct HA as [HL HC]. eapply vtrans; [apply HL with (y := fun p => (c * x p + 0 * x p)%R); intros p _; ring|].
  eapply vtrans; [apply HC|]. intros p _. ring.
Qed.
Lemma A_sum (c : Z -> R) (x : Z -> vec Rnum) k : -1 <= k ->
  veq n (A (fun p => rsum 0 k (fun j => c j * x j p))%R) (fun p => rsum 0 k (fun j => c j * A (x j) p))%R.
Proof.
  destruct HA as [HL HC]. intros Hk. assert (E : k = Z.of_nat (Z.to_nat (k + 1)) - 1) by lia. rewrite E. clear E Hk.
  generalize (Z.to_nat (k + 1)) as m. induction m as [|m IH].
  - eapply vtrans; [apply HL with (y := fun p => (0 * u p)%R); intros p _; rewrite rsum_empty by lia; ring|].
    eapply vtrans; [apply A_sc|]. intros p _. rewrite rsum_empty by lia. ring.
  - replace (Z.of_nat (S m) - 1) with (Z.of_nat m) by lia.
    eapply vtrans; [apply HL with (y := fun p => (1 * rsum 0 (Z.of_nat m - 1) (fun j => c j * x j p) + c (Z.of_nat m) * x (Z.of_nat m) p)%R); intros p _; rewrite rsum_hi by lia; ring|].
    eapply vtrans; [apply HC|]. intros p Hp. rewrite (IH p Hp), (rsum_hi 0 (Z.of_nat m)) by lia. ring.
Qed.
(* the two forms of the equation of a stage *)
Lemma forms (F : Z -> vec Rnum) i : 0 <= i < s ->
  veq n (fun p => dt * g * A (fun q => F i q + comb RK u F i q) p + m_S RK i * dt * phi p)%R
        (fun p => dt * rsum 0 i (fun j => a i j * f (fun q => u q + F j q) p))%R.
Proof.
  intros Hi. destruct Hfit as (Hs & Hg & Hd & HS & _). destruct HA as [HL HC]. intros p Hp. cbv beta.
  assert (E : rsum 0 i (fun j => a i j * (A (fun q => u q + F j q) p + phi p))%R =
    (rsum 0 i (fun j => a i j * A (fun q => u q + F j q) p) + m_S RK i * phi p)%R).
  { rewrite (HS i Hi). rewrite (Rmult_comm (rsum 0 i (fun j => a i j))), <- rsum_scal, <- rsum_add. apply rsum_ext. intros j _. ring. }
  change (fun j => a i j * (A (fun q => u q + F j q) p + phi p))%R with (fun j : Z => (a i j * (A (fun q => u q + F j q) p + phi p))%R) in E.
  rewrite E. rewrite <- (A_sum (a i) (fun j q => (u q + F j q)%R) i ltac:(lia) p Hp).
  assert (E2 : A (fun q => rsum 0 i (fun j => a i j * (u q + F j q)))%R p = (g * A (fun q => F i q + comb RK u F i q) p)%R).
  { rewrite <- (A_sc g (fun q => F i q + comb RK u F i q)%R p Hp). apply HL; [|exact Hp]. intros q _. unfold comb.
    assert (E3 : rsum 0 i (fun j => a i j * (u q + F j q))%R = (m_S RK i * u q + rsum 0 i (fun j => a i j * F j q))%R).
    { rewrite (HS i Hi). rewrite (Rmult_comm (rsum 0 i (fun j => a i j))), <- rsum_scal, <- rsum_add. apply rsum_ext. intros j _. ring. }
    rewrite E3. rewrite (rsum_hi 0 i) by lia. rewrite (Hd i Hi). change (a 0 0) with g.
    replace (rsum 0 (i - 1) (fun j => a i j / g * F j q))%R with (/ g * rsum 0 (i - 1) (fun j => a i j * F j q))%R
      by (rewrite <- rsum_scal; apply rsum_ext; intros j _; unfold Rdiv; ring).
    field. exact Hg. }
  rewrite E2. ring.
Qed.
Lemma stage_fwd F i : 0 <= i < s -> stage_rel RK n dt op phi u F i -> veq n (F i) (fun p => dt * rsum 0 i (fun j => a i j * f (fun q => u q + F j q) p))%R.
Proof.
  intros Hi H. apply vtrans with (2 := forms F i Hi). destruct Hinv as [H1 _]. destruct HA as [HL _].
  set (V := fun q => (m_S RK i * dt * phi q + comb RK u F i q)%R) in *.
  specialize (H1 (mask n V)). intros p Hp. specialize (H1 p Hp). cbv beta in H1. rewrite (mask_veq n V p Hp) in H1.
  assert (Hx : veq n (op (mask n V)) (fun q => F i q + comb RK u F i q)%R) by (intros q Hq; rewrite (H q Hq); fold V; apply Rsub_add).
  rewrite (Hx p Hp), (HL _ _ Hx p Hp) in H1. unfold V in H1. lra.
Qed.
Lemma stage_unique F F' i : 0 <= i < s -> (forall j, 0 <= j < i -> veq n (F j) (F' j)) -> stage_rel RK n dt op phi u F i ->
  veq n (F' i) (fun p => dt * rsum 0 i (fun j => a i j * f (fun q => u q + F' j q) p))%R -> veq n (F i) (F' i).
Proof.
  intros Hi Hj H H'. pose proof (forms F' i Hi) as HF. destruct Hinv as [_ H2].
  assert (Hc : veq n (comb RK u F i) (comb RK u F' i)) by (apply comb_ext; [intros p _; reflexivity|exact Hj]).
  set (V := fun q => (m_S RK i * dt * phi q + comb RK u F i q)%R) in *.
  assert (Hx : veq n (op (mask n V)) (fun q => F' i q + comb RK u F' i q)%R).
  { apply H2. intros p Hp. rewrite (mask_veq n V p Hp). unfold V. rewrite (Hc p Hp). rewrite (H' p Hp). specialize (HF p Hp). cbv beta in HF |- *. lra. }
  intros p Hp. rewrite (H p Hp). fold V. rewrite (Hx p Hp), (Hc p Hp). apply Radd_sub.
Qed.
Lemma is_rk_step u' F : (forall i, 0 <= i < s -> stage_rel RK n dt op phi u F i) -> veq n u' (fun p => u p + rsum 0 (s - 1) (fun i => m_D RK i * F i p))%R ->
  rk_step n s a b dt f u u'.
Proof.
  intros HF Hu. destruct HA as [HL _]. pose proof Hfit as (Hs & _ & _ & _ & HD). split.
  - exists (fun i => f (fun q => u q + F i q)%R). intros i Hi p Hp. cbv beta. f_equal. apply HL; [|exact Hp]. intros q Hq. f_equal. apply (stage_fwd F i Hi (HF i Hi) q Hq).
  - intros k Hk. set (F' := fun i p => (dt * rsum 0 i (fun j => a i j * k j p))%R).
    assert (Hk' : forall j, 0 <= j < s -> veq n (k j) (f (fun q => u q + F' j q)%R)) by (intros j Hj; exact (Hk j Hj)).
    assert (HF' : forall i, 0 <= i < s -> veq n (F' i) (fun p => dt * rsum 0 i (fun j => a i j * f (fun q => u q + F' j q) p))%R).
    { intros i Hi p Hp. unfold F' at 1. f_equal. apply rsum_ext. intros j Hj. f_equal. apply Hk'; [lia|exact Hp]. }
    assert (Heq : forall i, 0 <= i < s -> veq n (F i) (F' i)).
    { intros i [Hi0 Hi1]. revert Hi1. assert (Hi2 := Hi0). revert i Hi0 Hi2. apply (Z_lt_induction (fun i => 0 <= i -> i < s -> veq n (F i) (F' i))).
      intros i IH Hi0 Hi1. assert (Hi : 0 <= i < s) by lia. apply stage_unique; [exact Hi| |apply HF, Hi|apply HF', Hi]. intros j Hj. apply IH; lia. }
    intros p Hp. rewrite (Hu p Hp). unfold rk_result. f_equal.
    transitivity (rsum 0 (s - 1) (fun i => rsum 0 i (fun j => m_D RK i * (dt * (a i j * k j p)))))%R.
    + apply rsum_ext. intros i Hi. rewrite (Heq i ltac:(lia) p Hp). unfold F'. rewrite <- !rsum_scal. reflexivity.
    + rewrite triangle by lia. rewrite <- rsum_scal. apply rsum_ext. intros j Hj. rewrite <- (HD j ltac:(lia)).
      rewrite (Rmult_comm (rsum j (s - 1) (fun i => m_D RK i * a i j))%R), <- !rsum_scal. apply rsum_ext. intros i _. ring.
Qed.
End Alg.

(* a state of equilibrium is kept by the Runge-Kutta step *)
Lemma rk_equilibrium n s a b dt (f : vec Rnum -> vec Rnum) u u' : (forall x y, veq n x y -> veq n (f x) (f y)) -> veq n (f u) (fun _ => 0%R) ->
  rk_step n s a b dt f u u' -> veq n u' u.
Proof.
  intros HL Hf [_ H]. intros p Hp. rewrite (H (fun _ _ => 0%R)); [|clear p Hp|exact Hp].
  - unfold rk_result. rewrite (rsum_zero 0 (s - 1)) by (intros; ring). ring.
  - intros i Hi p Hp. symmetry. transitivity (f u p); [|exact (Hf p Hp)]. apply HL; [|exact Hp]. intros q _. rewrite (rsum_zero 0 i) by (intros; ring). ring.
Qed.
