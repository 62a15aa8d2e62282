(* The order conditions of the ROCK4 methods with the tables of the repository. *)
From Coq Require Import ZArith Reals Lra Lia List Bool FunctionalExtensionality Permutation.
From Verif Require Import Base HessModel VecFun Spec HessPathProofs RKSpec Rock4Model Rock4Spec Rock4Proofs Rock4Drive Rock4Step Rock4Cor Rock4LModel Rock4LSpec Rock4TabSpec Rock4TabNG Rock4TabL Rock4Check Rock4Poly Rock4Stab Rock4StabKer Rock4Order.
Open Scope R_scope.

(* ---- balls with a midpoint and a radius which are multiples of 2^-60 ---- *)
Definition PP : Z := Eval compute in (2 ^ 60)%Z.
Lemma PP_pos : 0 < IZR PP. Proof. apply IZR_lt. reflexivity. Qed.
Definition fb := (Z * Z)%type.
Definition infb (x : R) (b : fb) : Prop := Rabs (x * IZR PP - IZR (fst b)) <= IZR (snd b).
Definition fadd (a b : fb) : fb := (fst a + fst b, snd a + snd b)%Z.
Definition fmul (a b : fb) : fb :=
  (Z.shiftr (fst a * fst b) 60, Z.shiftr (snd b * Z.abs (fst a) + snd a * (Z.abs (fst b) + snd b)) 60 + 2)%Z.
Lemma infb_add x y a b : infb x a -> infb y b -> infb (x + y) (fadd a b).
Proof.
  unfold infb, fadd. cbn [fst snd]. rewrite !plus_IZR. intros H1 H2.
  replace ((x + y) * IZR PP - (IZR (fst a) + IZR (fst b))) with ((x * IZR PP - IZR (fst a)) + (y * IZR PP - IZR (fst b))) by ring.
  eapply Rle_trans; [apply Rabs_triang|]. lra.
Qed.
Lemma shiftr_PP z : IZR PP * IZR (Z.shiftr z 60) <= IZR z <= IZR PP * IZR (Z.shiftr z 60) + IZR PP.
Proof.
  rewrite Z.shiftr_div_pow2 by lia. change (2 ^ 60)%Z with PP. rewrite <- !mult_IZR, <- plus_IZR.
  assert (0 < PP)%Z by reflexivity. pose proof (Z.div_mod z PP ltac:(lia)). pose proof (Z.mod_pos_bound z PP ltac:(lia)).
  split; apply IZR_le; lia.
Qed.
Lemma infb_mul x y a b : infb x a -> infb y b -> infb (x * y) (fmul a b).
Proof.
  unfold infb, fmul. cbn [fst snd]. intros H1 H2. pose proof PP_pos as HP.
  pose proof (shiftr_PP (fst a * fst b)) as S1. pose proof (shiftr_PP (snd b * Z.abs (fst a) + snd a * (Z.abs (fst b) + snd b))) as S2.
  rewrite plus_IZR.
  set (s1 := IZR (Z.shiftr (fst a * fst b) 60)) in *. set (s2 := IZR (Z.shiftr (snd b * Z.abs (fst a) + snd a * (Z.abs (fst b) + snd b)) 60)) in *.
  rewrite plus_IZR, !mult_IZR, plus_IZR, !abs_IZR in S2. rewrite mult_IZR in S1.
  set (p := IZR (fst a)) in *. set (q := IZR (fst b)) in *. set (r := IZR (snd a)) in *. set (s := IZR (snd b)) in *. set (P := IZR PP) in *.
  assert (K : Rabs (x * P * (y * P) - p * q) <= Rabs p * s + Rabs q * r + r * s).
  { replace (x * P * (y * P) - p * q) with (p * (y * P - q) + (q * (x * P - p) + (x * P - p) * (y * P - q))) by ring.
    eapply Rle_trans; [apply Rabs_triang|]. eapply Rle_trans; [apply Rplus_le_compat_l, Rabs_triang|]. rewrite !Rabs_mult.
    pose proof (Rabs_pos (x * P - p)). pose proof (Rabs_pos (y * P - q)). pose proof (Rabs_pos p). pose proof (Rabs_pos q).
    assert (Rabs p * Rabs (y * P - q) <= Rabs p * s) by (apply Rmult_le_compat_l; lra).
    assert (Rabs q * Rabs (x * P - p) <= Rabs q * r) by (apply Rmult_le_compat_l; lra).
    assert (Rabs (x * P - p) * Rabs (y * P - q) <= r * s) by (apply Rmult_le_compat; lra). lra. }
  apply (Rmult_le_reg_l P); [exact HP|].
  replace (P * Rabs (x * y * P - s1)) with (Rabs (P * (x * y * P - s1))) by (rewrite Rabs_mult, (Rabs_right P) by lra; reflexivity).
  replace (P * (x * y * P - s1)) with (x * P * (y * P) - p * q + (p * q - P * s1)) by ring.
  eapply Rle_trans; [apply Rabs_triang|]. assert (Rabs (p * q - P * s1) <= P) by (apply Rabs_le; lra). lra.
Qed.
Definition fone : fb := (PP, 0%Z).
Definition fzero : fb := (0%Z, 0%Z).
Lemma infb_one : infb 1 fone. Proof. unfold infb, fone. cbn [fst snd]. rewrite Rmult_1_l, Rminus_diag_eq, Rabs_R0 by reflexivity. lra. Qed.
Lemma infb_zero : infb 0 fzero. Proof. unfold infb, fzero. cbn [fst snd]. rewrite Rmult_0_l, Rminus_diag_eq, Rabs_R0 by reflexivity. lra. Qed.
(* an entry of a table *)
Definition QQ : Z := Eval compute in (2 ^ 124 / 10 ^ 19)%Z.
Definition fent (c : Z) : fb := let m := Z.shiftr (c * QQ) 64 in (m, (Z.shiftr (Z.abs m) 51 + Z.shiftr (Z.abs m) 57 + 5)%Z).
Lemma shiftr_ub z n : (0 <= n)%Z -> IZR z * / IZR (2 ^ n) <= IZR (Z.shiftr z n) + 1.
Proof.
  intros Hn. rewrite Z.shiftr_div_pow2 by exact Hn. set (q := (2 ^ n)%Z). assert (0 < q)%Z by (apply Z.pow_pos_nonneg; lia).
  pose proof (Z.div_mod z q ltac:(lia)). pose proof (Z.mod_pos_bound z q ltac:(lia)).
  assert (0 < IZR q) by (apply IZR_lt; lia). apply (Rmult_le_reg_r (IZR q)); [assumption|].
  rewrite Rmult_assoc, Rinv_l, Rmult_1_r by lra. rewrite <- plus_IZR, <- mult_IZR. apply IZR_le. lia.
Qed.
Lemma infb_ent v c : near 51 v c -> infb v (fent c).
Proof.
  unfold near, infb, fent, rl, tau. cbn [fst snd]. intros H. pose proof PP_pos as HP. rewrite !plus_IZR.
  set (m := Z.shiftr (c * QQ) 64).
  assert (HT : 0 < IZR T19) by (apply IZR_lt; reflexivity).
  set (t := IZR c / IZR T19) in *. set (x := t * IZR PP).
  (* c * QQ / 2^64 is close to x *)
  assert (HQ : 0 < IZR QQ) by (apply IZR_lt; reflexivity).
  set (W := IZR (2 ^ 64)). assert (HW : 0 < W) by (apply IZR_lt; reflexivity).
  assert (Q1 : Rabs (IZR QQ / W - IZR PP / IZR T19) <= IZR PP / IZR T19 * / IZR (2 ^ 59)).
  { replace (IZR QQ / W - IZR PP / IZR T19) with (- ((IZR (PP * 2 ^ 64 - QQ * T19)) / (W * IZR T19))).
    2:{ rewrite minus_IZR, !mult_IZR. fold W. field. lra. }
    rewrite Rabs_Ropp. unfold Rdiv. rewrite Rabs_mult, (Rabs_right (/ _)) by (left; apply Rinv_0_lt_compat; nra).
    replace (IZR PP * / IZR T19 * / IZR (2 ^ 59)) with (IZR PP * W * / IZR (2 ^ 59) * / (W * IZR T19)) by (field; split; [apply not_0_IZR; discriminate|lra]).
    apply Rmult_le_compat_r; [left; apply Rinv_0_lt_compat; nra|].
    apply (Rmult_le_reg_r (IZR (2 ^ 59))); [apply IZR_lt; reflexivity|]. rewrite Rmult_assoc, Rinv_l, Rmult_1_r by (apply not_0_IZR; discriminate).
    rewrite <- abs_IZR. unfold W. rewrite <- !mult_IZR. apply IZR_le. vm_compute. discriminate. }
  set (w := IZR c * IZR QQ / W).
  assert (X1 : Rabs (x - w) <= Rabs x * / IZR (2 ^ 59)).
  { replace (x - w) with (- (IZR c * (IZR QQ / W - IZR PP / IZR T19))) by (unfold x, w, t; field; lra).
    replace (Rabs x) with (Rabs (IZR c) * (IZR PP / IZR T19)).
    2:{ unfold x, t. replace (IZR c / IZR T19 * IZR PP) with (IZR c * (IZR PP / IZR T19)) by (field; lra).
        rewrite Rabs_mult. f_equal. symmetry. apply Rabs_right. left. apply Rdiv_lt_0_compat; lra. }
    rewrite Rabs_Ropp, Rabs_mult, Rmult_assoc. apply Rmult_le_compat_l; [apply Rabs_pos|exact Q1]. }
  assert (X2 : Rabs (w - IZR m) <= 1).
  { unfold w, m. rewrite Z.shiftr_div_pow2 by lia. assert (0 < 2 ^ 64)%Z by reflexivity.
    pose proof (Z.div_mod (c * QQ) (2 ^ 64) ltac:(lia)) as D. pose proof (Z.mod_pos_bound (c * QQ) (2 ^ 64) ltac:(lia)) as B.
    set (q := (c * QQ / 2 ^ 64)%Z) in *. rewrite <- mult_IZR. apply Rabs_le.
    assert (IZR q * W <= IZR (c * QQ) <= IZR q * W + W).
    { unfold W. rewrite <- mult_IZR, <- plus_IZR. split; apply IZR_le; lia. }
    assert (IZR (c * QQ) / W * W = IZR (c * QQ)) by (field; lra).
    split; apply (Rmult_le_reg_r W); try lra; nra. }
  set (A := IZR (Z.abs m)).
  assert (EA : A = Rabs (IZR m)) by apply abs_IZR.
  assert (X3 : Rabs x <= 2 * A + 2).
  { assert (Rabs x <= A + Rabs (w - IZR m) + Rabs (x - w)).
    { rewrite EA. replace x with (IZR m + (w - IZR m) + (x - w)) at 1 by ring.
      eapply Rle_trans; [apply Rabs_triang|]. apply Rplus_le_compat_r, Rabs_triang. }
    assert (Rabs x * / IZR (2 ^ 59) <= Rabs x * / 2).
    { apply Rmult_le_compat_l; [apply Rabs_pos|]. apply Rinv_le_contravar; [lra|]. apply IZR_le. discriminate. } lra. }
  assert (P59 : 0 < / IZR (2 ^ 59)) by (apply Rinv_0_lt_compat, IZR_lt; reflexivity).
  assert (P51 : / IZR (2 ^ 51) = 256 * / IZR (2 ^ 59)).
  { change (2 ^ 59)%Z with (256 * 2 ^ 51)%Z. rewrite mult_IZR. field. apply not_0_IZR. discriminate. }
  assert (P57 : / IZR (2 ^ 57) = 4 * / IZR (2 ^ 59)).
  { change (2 ^ 59)%Z with (4 * 2 ^ 57)%Z. rewrite mult_IZR. field. apply not_0_IZR. discriminate. }
  assert (P1 : 1000 * / IZR (2 ^ 59) <= 1).
  { apply (Rmult_le_reg_r (IZR (2 ^ 59))); [apply IZR_lt; reflexivity|]. rewrite Rmult_assoc, Rinv_l by (apply not_0_IZR; discriminate).
    rewrite Rmult_1_r, Rmult_1_l. apply IZR_le. discriminate. }
  assert (V1 : Rabs (v * IZR PP - x) <= Rabs x * / IZR (2 ^ 51)).
  { unfold x. rewrite <- Rmult_minus_distr_r, !Rabs_mult, (Rabs_right (IZR PP)) by lra.
    replace (Rabs t * IZR PP * / IZR (2 ^ 51)) with (Rabs t * / IZR (2 ^ 51) * IZR PP) by ring. apply Rmult_le_compat_r; lra. }
  assert (X4 : Rabs x <= A + 1 + Rabs x * / IZR (2 ^ 59)).
  { rewrite EA. replace x with (IZR m + (w - IZR m) + (x - w)) at 1 by ring.
    eapply Rle_trans; [apply Rabs_triang|]. apply Rplus_le_compat; [|exact X1]. eapply Rle_trans; [apply Rabs_triang|]. lra. }
  pose proof (shiftr_ub (Z.abs m) 51 ltac:(lia)) as S1. pose proof (shiftr_ub (Z.abs m) 57 ltac:(lia)) as S2. fold A in S1, S2.
  replace (v * IZR PP - IZR m) with ((v * IZR PP - x) + (x - w) + (w - IZR m)) by ring.
  eapply Rle_trans; [apply Rabs_triang|]. eapply Rle_trans; [apply Rplus_le_compat_r, Rabs_triang|].
  rewrite P51 in *. rewrite P57 in *. set (u := / IZR (2 ^ 59)) in *.
  assert (0 <= Rabs x) by apply Rabs_pos. assert (0 <= A) by (rewrite EA; apply Rabs_pos).
  assert (Y1 : Rabs x * u <= (2 * A + 2) * u) by (apply Rmult_le_compat_r; lra).
  assert (Y2 : Rabs x * (256 * u) <= (A + 1 + Rabs x * u) * (256 * u)) by (apply Rmult_le_compat_r; lra).
  assert (Y3 : Rabs x * u * (256 * u) <= (2 * A + 2) * u * 1) by (apply Rmult_le_compat; try lra; apply Rmult_le_pos; lra).
  assert (0 <= A * u) by (apply Rmult_le_pos; lra). lra.
Qed.
(* every element of the ball is within 2 10^-14 of 1/k *)
Definition fnear (k : Z) (b : fb) : bool := ((Z.abs (fst b * k - PP) + k * snd b) * 10 ^ 14 <=? 2 * k * PP)%Z.
Lemma fnear_ok k b x : (0 < k)%Z -> fnear k b = true -> infb x b -> Rabs (x - 1 / IZR k) <= 2 / 10 ^ 14.
Proof.
  intros Hk H Hx. unfold fnear in H. apply Z.leb_le in H. unfold infb in Hx. pose proof PP_pos as HP.
  assert (K : 0 < IZR k) by (apply IZR_lt; lia). apply IZR_le in H. rewrite !mult_IZR, plus_IZR, mult_IZR, abs_IZR, minus_IZR, mult_IZR in H.
  set (P := IZR PP) in *. set (q := IZR k) in *. set (m := IZR (fst b)) in *. set (r := IZR (snd b)) in *.
  replace (IZR (10 ^ 14)) with (10 ^ 14) in H by (rewrite (pow_IZR 10 14); reflexivity).
  apply (Rmult_le_reg_l (q * P * 10 ^ 14)). { apply Rmult_lt_0_compat; [apply Rmult_lt_0_compat; assumption|apply pow_lt; lra]. }
  replace (q * P * 10 ^ 14 * (2 / 10 ^ 14)) with (2 * q * P) by (field; apply pow_nonzero; lra).
  replace (q * P * 10 ^ 14 * Rabs (x - 1 / q)) with (Rabs (q * P * (x - 1 / q)) * 10 ^ 14).
  2:{ rewrite Rabs_mult, (Rabs_right (q * P)) by (apply Rle_ge, Rmult_le_pos; lra). ring. }
  replace (q * P * (x - 1 / q)) with (q * (x * P - m) + (m * q - P)) by (field; lra).
  eapply Rle_trans; [|exact H]. apply Rmult_le_compat_r; [apply pow_le; lra|].
  eapply Rle_trans; [apply Rabs_triang|]. rewrite Rabs_mult, (Rabs_right q) by lra.
  assert (q * Rabs (x * P - m) <= q * r) by (apply Rmult_le_compat_l; lra). lra.
Qed.

(* ---- the sums in balls ---- *)
Definition inl : list R -> list fb -> Prop := Forall2 infb.
Lemma inl_psi E F : inl E F -> inl (psi 1 Rmult E) (psi fone fmul F).
Proof.
  intros H. unfold psi. destruct H as [|x1 y1 E1 F1 A1 H]; [constructor|]. destruct H as [|x2 y2 E2 F2 A2 H]; [constructor|].
  destruct H as [|x3 y3 E3 F3 A3 H]; [constructor|]. destruct H as [|x4 y4 E4 F4 A4 H]; [constructor|].
  repeat (constructor; [first [exact infb_one | assumption | repeat (apply infb_mul; try assumption)]|]). constructor.
Qed.
Lemma inl_add E F E' F' : inl E F -> inl E' F' -> inl (vadd Rplus E E') (vadd fadd F F').
Proof.
  intros H. revert E' F'. induction H as [|x y E F A H IH]; intros E' F' H'; [constructor|].
  destruct H' as [|x' y' E' F' A' H']; [constructor|]. constructor; [now apply infb_add|]. now apply IH.
Qed.
Lemma inl_scal k k' E F : infb k k' -> inl E F -> inl (vscal Rmult k E) (vscal fmul k' F).
Proof. intros K H. induction H; constructor; [now apply infb_mul|assumption]. Qed.
Lemma inl_zeros : inl (zeros 0) (zeros fzero). Proof. unfold inl, zeros. repeat (apply Forall2_cons; [apply infb_zero|]). apply Forall2_nil. Qed.
Lemma inl_rec8 m1 m1' mu mu' ka ka' n : infb m1 m1' -> (forall j, (2 <= j <= Z.of_nat n)%Z -> infb (mu j) (mu' j) /\ infb (ka j) (ka' j)) ->
  inl (fst (rec8 1 0 Rplus Rmult m1 mu ka n)) (fst (rec8 fone fzero fadd fmul m1' mu' ka' n)) /\
  inl (snd (rec8 1 0 Rplus Rmult m1 mu ka n)) (snd (rec8 fone fzero fadd fmul m1' mu' ka' n)).
Proof.
  intros H1. induction n as [|n IH]; intros H2.
  - cbn [rec8 fst snd]. split; apply inl_zeros.
  - destruct IH as [I1 I2]. { intros j Hj. apply H2. lia. }
    cbn [rec8]. destruct (rec8 1 0 Rplus Rmult m1 mu ka n) as [E D]. destruct (rec8 fone fzero fadd fmul m1' mu' ka' n) as [E' D']. cbn [fst snd] in *.
    assert (infb (gmus m1 mu (S n)) (gmus m1' mu' (S n))) as HG.
    { destruct n as [|n]; [exact H1|]. cbn [gmus]. apply H2. lia. }
    assert (inl (if (n =? 0)%nat then vscal Rmult (gmus m1 mu (S n)) (psi 1 Rmult E) else vadd Rplus (vscal Rmult (gmus m1 mu (S n)) (psi 1 Rmult E)) (vscal Rmult (ka (Z.of_nat (S n))) D))
      (if (n =? 0)%nat then vscal fmul (gmus m1' mu' (S n)) (psi fone fmul E') else vadd fadd (vscal fmul (gmus m1' mu' (S n)) (psi fone fmul E')) (vscal fmul (ka' (Z.of_nat (S n))) D'))) as HD.
    { destruct (Nat.eqb_spec n 0).
      - apply inl_scal; [exact HG|now apply inl_psi].
      - apply inl_add; apply inl_scal; try assumption; [now apply inl_psi|]. apply H2. lia. }
    split; [apply inl_add; assumption|exact HD].
Qed.
Definition ok4 (B : list fb) : bool :=
  match B with
  | x1 :: x2 :: x3 :: x4 :: x5 :: x6 :: x7 :: x8 :: nil =>
    fnear 1 x1 && fnear 2 x2 && fnear 3 x3 && fnear 6 x4 && fnear 4 x5 && fnear 8 x6 && fnear 12 x7 && fnear 24 x8
  | _ => false
  end.
Definition ok3 (B : list fb) : bool :=
  match B with
  | x1 :: x2 :: x3 :: x4 :: _ => fnear 1 x1 && fnear 2 x2 && fnear 3 x3 && fnear 6 x4
  | _ => false
  end.
Ltac f2 H := let a := fresh "N" in let b := fresh "H" in inversion H as [|? ? ? ? a b]; clear H; subst.
Section One.
Variables (mu1 : R) (mu kappa : Z -> R) (d : nat).
Variables (a21 a31 a32 a41 a42 a43 b1 b2 b3 b4 e1 e2 e3 e4 e5 : R).
Variables (mu1' : fb) (mu' kappa' : Z -> fb).
Variables (a21' a31' a32' a41' a42' a43' b1' b2' b3' b4' e1' e2' e3' e4' e5' : fb).
Hypothesis Hm1 : infb mu1 mu1'.
Hypothesis Hmk : forall j, (2 <= j <= Z.of_nat d)%Z -> infb (mu j) (mu' j) /\ infb (kappa j) (kappa' j).
Hypothesis Ha : infb a21 a21' /\ infb a31 a31' /\ infb a32 a32' /\ infb a41 a41' /\ infb a42 a42' /\ infb a43 a43'.
Hypothesis Hb : infb b1 b1' /\ infb b2 b2' /\ infb b3 b3' /\ infb b4 b4'.
Hypothesis He : infb e1 e1' /\ infb e2 e2' /\ infb e3 e3' /\ infb e4 e4' /\ infb e5 e5'.
Lemma inl_sums : let s := sums 1 0 Rplus Rmult mu1 mu kappa a21 a31 a32 a41 a42 a43 b1 b2 b3 b4 e1 e2 e3 e4 e5 d in
  let s' := sums fone fzero fadd fmul mu1' mu' kappa' a21' a31' a32' a41' a42' a43' b1' b2' b3' b4' e1' e2' e3' e4' e5' d in
  inl (fst s) (fst s') /\ inl (snd s) (snd s').
Proof.
  destruct (inl_rec8 _ _ _ _ _ _ d Hm1 Hmk) as [HE _].
  destruct Ha as (A1 & A2 & A3 & A4 & A5 & A6). destruct Hb as (B1 & B2 & B3 & B4). destruct He as (E1 & E2 & E3 & E4 & E5).
  cbv zeta. unfold sums. cbn [fst snd]. split; repeat first [exact HE | assumption | apply inl_add | apply inl_scal | apply inl_psi].
Qed.
Let M := r4M mu1 mu kappa d a21 a31 a32 a41 a42 a43 b1 b2 b3 b4.
Lemma orders : let s' := sums fone fzero fadd fmul mu1' mu' kappa' a21' a31' a32' a41' a42' a43' b1' b2' b3' b4' e1' e2' e3' e4' e5' d in
  ok4 (fst s') && ok3 (snd s') = true ->
  rk_order4 M (r4b mu1 mu kappa d b1 b2 b3 b4) (2 / 10 ^ 14) /\ rk_order3 M (r4e mu1 mu kappa d e1 e2 e3 e4 e5) (2 / 10 ^ 14).
Proof.
  pose proof inl_sums as HS. cbv zeta in *. rewrite sums_at in HS. cbn [fst snd] in HS. fold M in HS. destruct HS as [H4 H3].
  destruct (sums fone fzero fadd fmul mu1' mu' kappa' a21' a31' a32' a41' a42' a43' b1' b2' b3' b4' e1' e2' e3' e4' e5' d) as [F4 F3]. cbn [fst snd] in *.
  intros H. apply andb_prop in H. destruct H as [C4 C3]. unfold at8 in H4, H3. fold M in H4, H3.
  f2 H4. f2 H. f2 H0. f2 H. f2 H0. f2 H. f2 H0. f2 H. inversion H0; subst. clear H0.
  f2 H3. f2 H. f2 H0. f2 H. clear H0. cbn [ok4 ok3] in *.
  repeat match goal with X : (_ && _)%bool = true |- _ => apply andb_prop in X; destruct X end.
  repeat match goal with F : fnear ?k ?b = true, I : infb _ ?b |- _ => pose proof (fnear_ok k b _ eq_refl F I); clear F I end.
  assert (Q : 1 / IZR 1 = 1) by lra. rewrite Q in *.
  unfold rk_order4, rk_order3. repeat split; assumption.
Qed.
End One.

(* ---- the tables ---- *)
Definition chk (i : nat) : bool :=
  let B := map (fun x => fent (tz x)) (firstn (2 * deg i - 1) (skipn (off i) ng_RECF)) in
  let a := fun j => fent (nthZ ng_FPA (50 * j + i)) in
  let b := fun j => fent (nthZ ng_FPB (50 * j + i)) in
  let e := fun j => fent (nthZ ng_FPBE (50 * j + i)) in
  let s := sums fone fzero fadd fmul (nth 0 B fzero) (fun j => nth (Z.to_nat j * 2 - 3) B fzero) (fun j => nth (Z.to_nat j * 2 - 2) B fzero)
    (a 0%nat) (a 1%nat) (a 2%nat) (a 3%nat) (a 4%nat) (a 5%nat) (b 0%nat) (b 1%nat) (b 2%nat) (b 3%nat) (e 0%nat) (e 1%nat) (e 2%nat) (e 3%nat) (e 4%nat) (deg i) in
  (off i + (2 * deg i - 1) <=? 4382)%nat && (ok4 (fst s) && ok3 (snd s)).
Lemma chk_all : forallb chk (seq 0 50) = true.
Proof. vm_cast_no_check (eq_refl true). Qed.
Lemma fpbe_ok : exps_ok ng_FPBE = true /\ Datatypes.length ng_FPBE = 250%nat.
Proof. split; [vm_cast_no_check (eq_refl true)|vm_cast_no_check (eq_refl 250%nat)]. Qed.
Opaque sums ng_RECF ng_FPA ng_FPB ng_FPBE.
Lemma block_orders (i : nat) (mu1 : R) (mu ka : Z -> R) (a b e : nat -> R) : (i < 50)%nat ->
  coef_near 51 i mu1 (fun j => mu (Z.of_nat j)) (fun j => ka (Z.of_nat j)) a b ->
  (forall j, (j < 5)%nat -> near 51 (e j) (nthZ ng_FPBE (50 * j + i))) ->
  rk_order4 (r4M mu1 mu ka (deg i) (a 0%nat) (a 1%nat) (a 2%nat) (a 3%nat) (a 4%nat) (a 5%nat) (b 0%nat) (b 1%nat) (b 2%nat) (b 3%nat))
    (r4b mu1 mu ka (deg i) (b 0%nat) (b 1%nat) (b 2%nat) (b 3%nat)) (2 / 10 ^ 14) /\
  rk_order3 (r4M mu1 mu ka (deg i) (a 0%nat) (a 1%nat) (a 2%nat) (a 3%nat) (a 4%nat) (a 5%nat) (b 0%nat) (b 1%nat) (b 2%nat) (b 3%nat))
    (r4e mu1 mu ka (deg i) (e 0%nat) (e 1%nat) (e 2%nat) (e 3%nat) (e 4%nat)) (2 / 10 ^ 14).
Proof.
  intros Hi (N1 & N2 & N3 & N4) N5. pose proof chk_all as C. rewrite forallb_forall in C. specialize (C i). 
  assert (Hin : In i (seq 0 50)) by (apply in_seq; lia). specialize (C Hin). clear Hin. unfold chk in C. cbv zeta in C.
  apply andb_prop in C. destruct C as [CL C]. apply Nat.leb_le in CL.
  set (B := map (fun x => fent (tz x)) (firstn (2 * deg i - 1) (skipn (off i) ng_RECF))) in *.
  assert (HB : forall k v, (k < 2 * deg i - 1)%nat -> near 51 v (nthZ ng_RECF (off i + k)) -> infb v (nth k B fzero)).
  { intros k v Hk Hv. unfold B. rewrite (nth_indep _ fzero (fent (tz (0, 0)%Z))).
    - rewrite (map_nth (fun x => fent (tz x))), nth_firstn', nth_skipn' by exact Hk. apply infb_ent. exact Hv.
    - rewrite map_length, firstn_length, skipn_length. destruct ng_lens as (L1 & _ & _). change List.length with Datatypes.length in L1. rewrite L1. lia. }
  assert (D : (0 < deg i)%nat).
  { assert (HH : forallb (fun k => (0 <? deg k)%nat) (seq 0 50) = true) by (vm_cast_no_check (eq_refl true)).
    rewrite forallb_forall in HH. apply Nat.ltb_lt. apply (HH i). apply in_seq. lia. }
  eapply orders; [| | | | |exact C].
  - apply HB; [lia|]. rewrite Nat.add_0_r. exact N1.
  - intros j Hj. destruct (N2 (Z.to_nat j)) as [A1 A2]; [lia|]. rewrite Z2Nat.id in A1, A2 by lia. split; apply HB; try lia.
    + replace (Z.to_nat j * 2 - 3)%nat with (2 * Z.to_nat j - 3)%nat by lia. exact A1.
    + replace (Z.to_nat j * 2 - 2)%nat with (2 * Z.to_nat j - 2)%nat by lia. exact A2.
  - repeat split; apply infb_ent, N3; lia.
  - repeat split; apply infb_ent, N4; lia.
  - repeat split; apply infb_ent, N5; lia.
Qed.

(* the method of a block of the tables *)
Definition ng_M (RECF FPA FPB : Z -> R) (d i r : Z) : erk :=
  r4M (t_mu1 RECF r) (t_mu RECF r) (t_kappa RECF r) (Z.to_nat d) (tab FPA i 1) (tab FPA i 2) (tab FPA i 3) (tab FPA i 4) (tab FPA i 5) (tab FPA i 6)
    (tab FPB i 1) (tab FPB i 2) (tab FPB i 3) (tab FPB i 4).
Definition ng_b (RECF FPB : Z -> R) (d i r : Z) : Z -> R :=
  r4b (t_mu1 RECF r) (t_mu RECF r) (t_kappa RECF r) (Z.to_nat d) (tab FPB i 1) (tab FPB i 2) (tab FPB i 3) (tab FPB i 4).
Definition ng_e (RECF FPBE : Z -> R) (d i r : Z) : Z -> R :=
  r4e (t_mu1 RECF r) (t_mu RECF r) (t_kappa RECF r) (Z.to_nat d) (tab FPBE i 1) (tab FPBE i 2) (tab FPBE i 3) (tab FPBE i 4) (tab FPBE i 5).
Lemma ng_orders RECF FPA FPB FPBE d i r : as_stored RECF ng_RECF -> as_stored FPA ng_FPA -> as_stored FPB ng_FPB -> as_stored FPBE ng_FPBE -> right_block d i r ->
  rk_order4 (ng_M RECF FPA FPB d i r) (ng_b RECF FPB d i r) (2 / 10 ^ 14) /\ rk_order3 (ng_M RECF FPA FPB d i r) (ng_e RECF FPBE d i r) (2 / 10 ^ 14).
Proof.
  intros T1 T2 T3 T4 HR. destruct (rb_deg d i r HR) as (E1 & E2 & E3 & E4 & E5 & E6).
  destruct fpbe_ok as [X4 L4].
  refine (eq_ind _ (fun n => rk_order4 (r4M _ _ _ n _ _ _ _ _ _ _ _ _ _) (r4b _ _ _ n _ _ _ _) _ /\ rk_order3 (r4M _ _ _ n _ _ _ _ _ _ _ _ _ _) (r4e _ _ _ n _ _ _ _ _) _)
    (block_orders (Z.to_nat (i - 1)) _ _ _ _ _ (fun j => tab FPBE i (Z.of_nat j + 1)) E4 (coef_ng d i r HR RECF FPA FPB T1 T2 T3) _) _ E1).
  intros j Hj. apply (near_weak 53); [lia|]. unfold tab.
  replace (50 * (Z.of_nat j + 1 - 1) + (i - 1))%Z with (Z.of_nat (50 * j + Z.to_nat (i - 1))) by lia.
  apply stored_near; [exact T4|exact X4|]. change List.length with Datatypes.length. rewrite L4. lia.
Qed.
Definition l_M (RECF FPA FPB : Z -> R) (d i r : Z) : erk :=
  r4M (RECF (r - 1)%Z) (fun j => RECF (r - 1 + 2 * j - 3)%Z) (fun j => RECF (r - 1 + 2 * j - 2)%Z) (Z.to_nat d)
    (row FPA 6 i 1) (row FPA 6 i 2) (row FPA 6 i 3) (row FPA 6 i 4) (row FPA 6 i 5) (row FPA 6 i 6) (row FPB 4 i 1) (row FPB 4 i 2) (row FPB 4 i 3) (row FPB 4 i 4).
Definition l_b (RECF FPB : Z -> R) (d i r : Z) : Z -> R :=
  r4b (RECF (r - 1)%Z) (fun j => RECF (r - 1 + 2 * j - 3)%Z) (fun j => RECF (r - 1 + 2 * j - 2)%Z) (Z.to_nat d) (row FPB 4 i 1) (row FPB 4 i 2) (row FPB 4 i 3) (row FPB 4 i 4).
Lemma l_orders RECF FPA FPB d i r : as_stored RECF l_RECF -> as_stored FPA l_FPA -> as_stored FPB l_FPB -> right_block d i r ->
  rk_order4 (l_M RECF FPA FPB d i r) (l_b RECF FPB d i r) (2 / 10 ^ 14).
Proof.
  intros T1 T2 T3 HR. destruct (rb_deg d i r HR) as (E1 & E2 & E3 & E4 & E5 & E6).
  refine (eq_ind _ (fun n => rk_order4 (r4M _ _ _ n _ _ _ _ _ _ _ _ _ _) (r4b _ _ _ n _ _ _ _) _)
    (proj1 (block_orders (Z.to_nat (i - 1)) _ _ _ _ _ (fun j => rl (nthZ ng_FPBE (50 * j + Z.to_nat (i - 1)))) E4 (coef_l d i r HR RECF FPA FPB T1 T2 T3) _)) _ E1).
  intros j Hj. unfold near. rewrite Rminus_diag_eq, Rabs_R0 by reflexivity. apply Rmult_le_pos; [apply Rabs_pos|].
  unfold tau. left. apply Rinv_0_lt_compat, IZR_lt. reflexivity.
Qed.

(* C71 *)
Lemma ng_is_rk RECF FPA FPB FPBE d i r : as_stored RECF ng_RECF -> as_stored FPA ng_FPA -> as_stored FPB ng_FPB -> as_stored FPBE ng_FPBE -> right_block d i r ->
  exists M b bh, rk_s M = (d + 5)%Z /\ b (d + 5)%Z = 0 /\ rk_order4 M b (2 / 10 ^ 14) /\ rk_order3 M bh (2 / 10 ^ 14) /\
  forall Sg userF size atol rtol (f : vec Rnum -> vec Rnum) (e : est (K := Rnum) Sg) h,
  (forall s v, snd (userF s v) = f v) -> (0 <= size)%Z -> NoDup (ptrs Sg e) -> e_H e (e_fn e) = f (e_H e (e_y e)) ->
  wp (kernel (K := Rnum) userF RECF FPA FPB FPBE size atol rtol d i r e h) (fun x => let '(e', err) := x in
    exists g, let y := e_H e (e_y e) in let y' := rk_result M b f h y g in let yh := rk_result M bh f h y g in
    rk_stages M f h y g /\ e_H e' (e_temp e') = y' /\ e_H e' (e_y e') = y /\
    err = sqrt (/ IZR size * rsum 0 (size - 1) (fun p => ((yh p - y' p) / (atol + rtol * Rabs (y' p))) ^ 2))).
Proof.
  intros T1 T2 T3 T4 HR. destruct (rb_deg d i r HR) as (_ & _ & E3 & _).
  destruct (ng_orders RECF FPA FPB FPBE d i r T1 T2 T3 T4 HR) as [O4 O3].
  exists (ng_M RECF FPA FPB d i r), (ng_b RECF FPB d i r), (ng_e RECF FPBE d i r).
  split. { unfold ng_M, r4M. cbn [rk_s]. lia. }
  split. { unfold ng_b, r4b, frow. rewrite Wt_out by lia. rewrite Z2Nat.id by lia. unfold ind.
    repeat match goal with |- context [(?a =? ?b)%Z] => destruct (Z.eqb_spec a b); try lia end. ring. }
  split; [exact O4|]. split; [exact O3|]. intros Sg userF size atol rtol f e h HF Hs HN Hf.
  eapply wp_mono; [exact (kernel_step Sg userF RECF FPA FPB FPBE size atol rtol f d i r e h HF Hs HR HN Hf)|].
  intros [e' err]. cbv zeta. intros (Y1 & _ & Y2 & Y3 & Y4 & _).
  eexists. split; [apply r4_stages|]. split; [|split].
  - rewrite Y1. unfold new_y. apply r4_result.
  - rewrite Y3. exact Y4.
  - rewrite Y2. unfold new_err, fin_err. unfold ng_e, ng_b, ng_M. rewrite <- r4_result, <- r4_hat. reflexivity.
Qed.
Lemma l_is_rk RECF FPA FPB d i r : as_stored RECF l_RECF -> as_stored FPA l_FPA -> as_stored FPB l_FPB -> right_block d i r ->
  exists M b, rk_s M = (d + 5)%Z /\ b (d + 5)%Z = 0 /\ rk_order4 M b (2 / 10 ^ 14) /\
  forall f h y, rk_step M b f h y (rock4_step RECF FPA FPB f d i r h y).
Proof.
  intros T1 T2 T3 HR. destruct (rb_deg d i r HR) as (_ & _ & E3 & _).
  exists (l_M RECF FPA FPB d i r), (l_b RECF FPB d i r).
  split. { unfold l_M, r4M. cbn [rk_s]. lia. }
  split. { unfold l_b, r4b, frow. rewrite Wt_out by lia. rewrite Z2Nat.id by lia. unfold ind.
    repeat match goal with |- context [(?a =? ?b)%Z] => destruct (Z.eqb_spec a b); try lia end. ring. }
  split; [exact (l_orders RECF FPA FPB d i r T1 T2 T3 HR)|].
  intros f h y. unfold rk_step, rock4_step. cbv zeta. eexists. split; [apply r4_stages|]. apply r4_result.
Qed.

(* along the runs *)
Definition acc_steps (l : list (att Rnum)) : list (Z * R) := map (fun a => (t_deg a + 5, t_h a)%Z) (filter (fun a => t_acc a) (rev l)).
Lemma ng_chain (RECF FPA FPB FPBE : Z -> R) Sg userF userrho toint size (atol rtol tend : R) (e0 : est (K := Rnum) Sg) t0 h0 hl0 m1 m2 (f : vec Rnum -> vec Rnum) :
  as_stored RECF ng_RECF -> as_stored FPA ng_FPA -> as_stored FPB ng_FPB -> as_stored FPBE ng_FPBE ->
  (forall s v, snd (userF s v) = f v) -> NoDup (ptrs Sg e0) -> (0 <= size)%Z ->
  forall st, reach (K := Rnum) toint (kernel userF RECF FPA FPB FPBE size atol rtol) k_accept (r4_rho userrho) tend (r4_start (k_init userF) e0 t0 h0 hl0 m1 m2) st ->
  rk4_chain (2 / 10 ^ 14) f (e_H e0 (e_y e0)) (acc_steps (u_hist st)) (sol Sg st).
Proof.
  intros T1 T2 T3 T4 HF HN Hs st HR. induction HR as [|st st' HR IH Ht Hb].
  - replace (sol Sg (r4_start (k_init userF) e0 t0 h0 hl0 m1 m2)) with (e_H e0 (e_y e0)); [constructor|].
    unfold sol, r4_start. cbn [u_w]. unfold k_init, callF. destruct (userF (e_f e0) (e_H e0 (e_y e0))) as [s v] eqn:EU. cbn [e_H e_y].
    destruct (Z.eq_dec (e_y e0) (e_fn e0)) as [EE|NE].
    + exfalso. unfold ptrs in HN. rewrite EE in HN. inversion HN as [|? ? Hn _]. apply Hn. cbn. auto 12.
    + unfold hset. destruct (Z.eqb_spec (e_y e0) (e_fn e0)); [contradiction|reflexivity].
  - destruct (reach_pass (K := Rnum) toint (kernel userF RECF FPA FPB FPBE size atol rtol) (k_init userF) k_accept (r4_rho userrho) tend _ _ _ (start_cached _ _ _ _ _ _ _) HR Ht Hb) as (a & w1 & w2 & err & Hh & _ & Hq & _).
    rewrite Hh. unfold acc_steps. cbn [rev]. rewrite filter_app, map_app. fold (acc_steps (u_hist st)). cbn [filter].
    destruct (t_acc a) eqn:Ea.
    + destruct (accepted_step Sg userF userrho toint RECF FPA FPB FPBE size atol rtol tend e0 t0 h0 hl0 m1 m2 f HF HN Hs st HR st' a Ht Hb Hh) as [_ X].
      specialize (X Ea). destruct Hq as (_ & _ & Hq). destruct (rb_deg _ _ _ Hq) as (_ & _ & E3 & _).
      destruct (ng_orders RECF FPA FPB FPBE _ _ _ T1 T2 T3 T4 Hq) as [O4 _].
      cbn [map]. eapply rk4_next; [exact IH| |exact O4|].
      * unfold ng_M, r4M. cbn [rk_s]. lia.
      * rewrite X. unfold rk_step. eexists. split; [apply r4_stages|]. unfold new_y. apply r4_result.
    + cbn [map]. rewrite app_nil_r.
      destruct (derivative_current Rnum Sg userF userrho toint RECF FPA FPB FPBE size atol rtol tend e0 t0 h0 hl0 m1 m2 f HF HN st HR) as [_ X].
      rewrite (X st' a Ht Hb Hh Ea). exact IH.
Qed.
Lemma l_chain (RECF FPA FPB : Z -> R) f l u u' : as_stored RECF l_RECF -> as_stored FPA l_FPA -> as_stored FPB l_FPB ->
  rock4_steps RECF FPA FPB f l u u' -> rk4_chain (2 / 10 ^ 14) f u (map (fun x => (snd x + 5, snd (fst x)))%Z l) u'.
Proof.
  intros T1 T2 T3 H. induction H as [w|l t h d w w' w'' H IH (i & r & HR & E)]; [constructor|].
  rewrite map_app. cbn [map fst snd]. destruct (l_is_rk RECF FPA FPB d i r T1 T2 T3 HR) as (M & b & M1 & _ & M2 & M3).
  eapply rk4_next; [exact IH|exact M1|exact M2|]. rewrite E. apply M3.
Qed.
