(* A fixed point of the Newton iteration solves the collocation equations of the Radau IIA
   method, up to the rounding of the constants. *)
From Coq Require Import ZArith Reals Lra Lia.
From Verif Require Import Base Spec HessModel CMacros VecFun JacModel FieldLU HessPathProofs RodasProofs RadauModel RadauAlg RadauSpec Dec DecBall RadauConst RadauRun.
Open Scope R_scope.
Local Notation c := (@rd_const Rnum).

Lemma three_cases (P : Z -> Prop) : P 1%Z -> P 2%Z -> P 3%Z -> forall k, (1 <= k <= 3)%Z -> P k.
Proof. intros H1 H2 H3 k Hk. assert (k = 1 \/ k = 2 \/ k = 3)%Z as [->|[->| ->]] by lia; assumption. Qed.
(* T times Lambda, bounded through the balls *)
Definition bTL (k l : Z) : bool := bnear (7%Z, 0%Z) dz (pB benv (pmul pT pL k l)).
Lemma TL_checked : all3 bTL = true.
Proof. vm_cast_no_check (eq_refl true). Qed.
Lemma TL_bound k l : (1 <= k <= 3)%Z -> (1 <= l <= 3)%Z -> Rabs (mul3 (T_of c) (Lambda_of c) k l) <= 7.
Proof.
  intros Hk Hl. pose proof (bnear_ok _ _ _ _ (all3_ok bTL k l TL_checked Hk Hl) (pB_ok _ _ _ env_ok)) as G.
  rewrite D2R_z, Rminus_0_r, D2R_lit, Rlit_0 in G. replace (mul3 (T_of c) (Lambda_of c) k l) with (pR env (pmul pT pL k l)); [exact G|].
  unfold mul3. rewrite rsum3, !Tm_dec, !L_dec. reflexivity.
Qed.

Lemma combine3 (t e1 e2 e3 x1 x2 x3 m : R) : 0 <= m -> 0 <= t -> Rabs e1 <= t -> Rabs e2 <= t -> Rabs e3 <= t ->
  Rabs x1 <= m -> Rabs x2 <= m -> Rabs x3 <= m -> Rabs (e1 * x1 + e2 * x2 + e3 * x3) <= 3 * (t * m).
Proof.
  intros Hm Ht A B D P Q S'. eapply Rle_trans; [apply Rabs_triang|]. eapply Rle_trans; [apply Rplus_le_compat_r, Rabs_triang|]. rewrite !Rabs_mult.
  assert (Rabs e1 * Rabs x1 <= t * m) by (apply Rmult_le_compat; try apply Rabs_pos; assumption).
  assert (Rabs e2 * Rabs x2 <= t * m) by (apply Rmult_le_compat; try apply Rabs_pos; assumption).
  assert (Rabs e3 * Rabs x3 <= t * m) by (apply Rmult_le_compat; try apply Rabs_pos; assumption). lra.
Qed.

(* h f at the stages against the derivative of the cubic through the stages *)
Lemma fixed_point (n : Z) (f : R -> (Z -> R) -> Z -> R) J x h y W V D W' V' i a b d m :
  (1 <= i <= n)%Z -> h <> 0 ->
  newton_iter (rd_method c) n f J x h y W V D W' V' ->
  (forall k j, (1 <= k <= 3)%Z -> (1 <= j <= n)%Z -> D k j = 0) ->
  (forall k, (1 <= k <= 3)%Z -> V k i = trans (T_of c) W k i) ->
  (forall k, (1 <= k <= 3)%Z -> cubic a b d (nodes_of c k) = V k i) ->
  Rabs a <= m -> Rabs b <= m -> Rabs d <= m -> 
  (forall k, (1 <= k <= 3)%Z -> Rabs (W k i) <= m /\ Rabs (h * f (x + nodes_of c k * h) (fun p => y p + V k p) i) <= m) ->
  forall k, (1 <= k <= 3)%Z -> Rabs (cubic' a b d (nodes_of c k) - h * f (x + nodes_of c k * h) (fun p => y p + V k p) i) <= m / 10 ^ 17.
Proof.
  intros Hi Hh (HB & _ & _) HD HV HC Ha Hb Hd HM k Hk.
  assert (Hm : 0 <= m) by (pose proof (Rabs_pos a); lra).
  set (F := fun k => h * f (x + nodes_of c k * h) (fun p => y p + V k p) i) in *.
  (* TI F = Lambda W *)
  assert (HE : forall k, (1 <= k <= 3)%Z -> rsum 1 3 (fun l => TI_of c k l * F l) = rsum 1 3 (fun l => Lambda_of c k l * W l i)).
  { intros k' Hk'. specialize (HB k' i Hk' Hi). cbv beta in HB. cbn [m_L m_TI m_c rd_method] in HB.
    assert (E0 : rsum 1 3 (fun l => Lambda_of c k' l / h * D l i) - matvec n J (D k') i = 0).
    { rewrite rsum3. rewrite !HD by lia. unfold matvec. rewrite rsum_zero by (intros j Hj; rewrite HD by lia; ring). ring. }
    rewrite E0 in HB. unfold trans in HB. rewrite !rsum3 in HB. rewrite !rsum3. unfold F.
    match goal with |- ?l = ?r => replace l with (h * (TI_of c k' 1%Z * f (x + nodes_of c 1%Z * h) (fun p => y p + V 1%Z p) i + TI_of c k' 2%Z * f (x + nodes_of c 2%Z * h) (fun p => y p + V 2%Z p) i +
      TI_of c k' 3%Z * f (x + nodes_of c 3%Z * h) (fun p => y p + V 3%Z p) i)) by ring end.
    match type of HB with 0 = ?p - ?q => replace p with q by (symmetry; apply Rminus_diag_uniq; symmetry; exact HB) end. field. exact Hh. }
  (* B V = T Lambda TI T W = T Lambda W + T Lambda (TI T - I) W;  T TI F = F + (T TI - I) F *)
  destruct inverse_ok as [I1 I2].
  pose proof (derivation_ok k Hk a b d) as HDv.
  set (N1 := fun k l => mul3 (T_of c) (TI_of c) k l - (if (k =? l)%Z then 1 else 0)) in *.
  set (N2 := fun k l => mul3 (TI_of c) (T_of c) k l - (if (k =? l)%Z then 1 else 0)) in *.
  set (G := fun k => N2 k 1%Z * W 1%Z i + N2 k 2%Z * W 2%Z i + N2 k 3%Z * W 3%Z i).
  assert (HG : forall k, (1 <= k <= 3)%Z -> Rabs (G k) <= 3 * (1 / 10 ^ 19 * m)).
  { intros k' Hk'. unfold G. apply combine3; try (apply HM; lia); try (apply I2; lia); try exact Hm. lra. }
  assert (HGF : Rabs (N1 k 1%Z * F 1%Z + N1 k 2%Z * F 2%Z + N1 k 3%Z * F 3%Z) <= 3 * (1 / 10 ^ 19 * m)).
  { apply combine3; try (apply HM; lia); try (apply I1; lia); try exact Hm. lra. }
  assert (HTG : Rabs (mul3 (T_of c) (Lambda_of c) k 1%Z * G 1%Z + mul3 (T_of c) (Lambda_of c) k 2%Z * G 2%Z + mul3 (T_of c) (Lambda_of c) k 3%Z * G 3%Z) <= 3 * (7 * (3 * (1 / 10 ^ 19 * m)))).
  { apply combine3; try (apply TL_bound; lia); try (apply HG; lia); lra. }
  assert (HT : rsum 1 3 (fun j => B_of c k j * cubic a b d (nodes_of c j)) = F k + (N1 k 1%Z * F 1%Z + N1 k 2%Z * F 2%Z + N1 k 3%Z * F 3%Z) +
    (mul3 (T_of c) (Lambda_of c) k 1%Z * G 1%Z + mul3 (T_of c) (Lambda_of c) k 2%Z * G 2%Z + mul3 (T_of c) (Lambda_of c) k 3%Z * G 3%Z)).
  { rewrite rsum3. rewrite !HC by lia. rewrite !HV by lia.
    assert (HF : F k + (N1 k 1%Z * F 1%Z + N1 k 2%Z * F 2%Z + N1 k 3%Z * F 3%Z) = rsum 1 3 (fun p => T_of c k p * rsum 1 3 (fun l => TI_of c p l * F l))).
    { unfold N1, mul3. rewrite !rsum3. clear - Hk. pattern k. apply three_cases; [| | |exact Hk]; cbn [Z.eqb Pos.eqb]; ring. }
    rewrite HF, rsum3. rewrite !HE by lia. unfold G, N2, B_of, mul3, trans. rewrite !rsum3. cbn [Z.eqb Pos.eqb]. ring. }
  rewrite HT in HDv. fold (F k). clear HT HG HE HM HC HV HD HB I1 I2.
  match type of HDv with Rabs (F k + ?p + ?q - ?r) <= _ => set (u := p) in *; set (v := q) in *; set (z := r) in * end.
  generalize dependent (F k). intros Fk Hz.
  replace (z - Fk) with (u + v - (Fk + u + v - z)) by ring.
  eapply Rle_trans; [apply Rabs_triang|]. rewrite Rabs_Ropp. eapply Rle_trans; [apply Rplus_le_compat_r, Rabs_triang|]. lra.
Qed.
