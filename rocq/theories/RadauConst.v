(* The constants of Radau5cc are those of the three-stage Radau IIA method. *)
From Coq Require Import Reals Lra Psatz List.
From Verif Require Import Base Spec HessModel CMacros VecFun JacModel FieldLU HessPathProofs RodasProofs RadauModel RadauAlg RadauSpec Dec DecBall.
Open Scope R_scope.
Local Notation c := (@rd_const Rnum).

(* ---- closed forms ------------------------------------------------------------------ *)
Definition t3 : R := Rpower 3 (1 / 3).
Lemma t3_pos : 0 < t3.
Proof. apply exp_pos. Qed.
Lemma t3_cube : t3 * t3 * t3 = 3.
Proof. unfold t3. rewrite <- !Rpower_plus. replace (1 / 3 + 1 / 3 + 1 / 3) with 1 by lra. apply Rpower_1. lra. Qed.
Lemma third_9 : Rpower 9 (1 / 3) = t3 * t3.
Proof. unfold t3. rewrite Rpower_mult_distr by lra. f_equal. lra. Qed.
Lemma third_27 : Rpower 27 (1 / 3) = 3.
Proof.
  replace 27 with (Rpower 3 3) at 1. rewrite Rpower_mult. replace (3 * (1 / 3)) with 1 by lra. apply Rpower_1; lra.
  replace 3 with (INR 3) at 2 by (cbn; lra). rewrite Rpower_pow by lra. lra.
Qed.
Lemma third_81 : Rpower 81 (1 / 3) = 3 * t3.
Proof. replace 81 with (27 * 3) by lra. rewrite <- Rpower_mult_distr by lra. rewrite third_27. reflexivity. Qed.
Lemma sq3 : sqrt 3 * sqrt 3 = 3.
Proof. apply sqrt_sqrt. lra. Qed.
Lemma sq6 : sqrt 6 * sqrt 6 = 6.
Proof. apply sqrt_sqrt. lra. Qed.

Lemma u1_form : (U1 c : R) = 3 - t3 + t3 * t3.
Proof.
  unfold rd_const. cbn [U1]. unfold third. cbn [nlit nadd nsub nmul ndiv nopp npow nsqrt car Rnum]. rewrite !Rlit_0, third_9, third_81.
  pose proof t3_cube as H. pose proof t3_pos as Hp. set (t := t3) in *.
  assert (E : (6 + 3 * t - t * t) * (3 - t + t * t) = 30).
  { replace ((6 + 3 * t - t * t) * (3 - t + t * t)) with (18 + 3 * t + 4 * (t * t * t) - t * (t * t * t)) by ring. rewrite H. ring. }
  assert (N : 6 + 3 * t - t * t <> 0) by (intros N; rewrite N in E; lra).
  replace (1 / ((6 + 3 * t - t * t) / 30)) with (30 / (6 + 3 * t - t * t)) by (field; lra).
  rewrite <- E. field. exact N.
Qed.
Lemma cno_form (t s : R) : t * t * t = 3 -> s * s = 3 ->
  (12 - 3 * t + t * t) / 60 * ((12 - 3 * t + t * t) / 60) + (3 * t + t * t) * s / 60 * ((3 * t + t * t) * s / 60) = (3 - t + t * t) / 60.
Proof.
  intros H Hs.
  replace ((12 - 3 * t + t * t) / 60 * ((12 - 3 * t + t * t) / 60) + (3 * t + t * t) * s / 60 * ((3 * t + t * t) * s / 60))
    with ((144 - 72 * t + 33 * (t * t) - 6 * (t * t * t) + t * (t * t * t) + (9 * (t * t) + 6 * (t * t * t) + t * (t * t * t)) * (s * s)) / 3600) by field.
  rewrite H, Hs. field.
Qed.
Lemma inv_form (t : R) : t * t * t = 3 -> (3 - t + t * t) * (6 + 3 * t - t * t) = 30.
Proof.
  intros H. replace ((3 - t + t * t) * (6 + 3 * t - t * t)) with (18 + 3 * t + 4 * (t * t * t) - t * (t * t * t)) by ring. rewrite H. ring.
Qed.
Lemma alph_form : (ALPH c : R) = 3 + (t3 - t3 * t3) / 2.
Proof.
  unfold rd_const. cbn [ALPH]. unfold third. cbn [nlit nadd nsub nmul ndiv nopp npow nsqrt car Rnum]. rewrite !Rlit_0, third_9, third_81.
  pose proof t3_cube as H. set (t := t3) in *. rewrite (cno_form t (sqrt 3) H sq3). pose proof (inv_form t H) as E.
  assert (N : 3 - t + t * t <> 0) by (intros N; rewrite N in E; lra).
  apply (Rmult_eq_reg_r ((3 - t + t * t) / 60)); [|lra].
  transitivity ((12 - 3 * t + t * t) / 60); [field; exact N|].
  replace ((3 + (t - t * t) / 2) * ((3 - t + t * t) / 60)) with ((18 - 3 * t + 2 * (t * t) + 2 * (t * t * t) - t * (t * t * t)) / 120) by field.
  rewrite H. field.
Qed.
Lemma beta_form : (BETA c : R) = sqrt 3 * (t3 + t3 * t3) / 2.
Proof.
  unfold rd_const. cbn [BETA]. unfold third. cbn [nlit nadd nsub nmul ndiv nopp npow nsqrt car Rnum]. rewrite !Rlit_0, third_9, third_81.
  pose proof t3_cube as H. set (t := t3) in *. rewrite (cno_form t (sqrt 3) H sq3). pose proof (inv_form t H) as E.
  assert (N : 3 - t + t * t <> 0) by (intros N; rewrite N in E; lra).
  apply (Rmult_eq_reg_r ((3 - t + t * t) / 60)); [|lra].
  transitivity ((3 * t + t * t) * sqrt 3 / 60); [field; exact N|].
  replace (sqrt 3 * (t + t * t) / 2 * ((3 - t + t * t) / 60)) with (sqrt 3 * (3 * t + 2 * (t * t) + t * (t * t * t)) / 120) by field.
  rewrite H. field.
Qed.
Lemma c1_form : (C1 c : R) = (4 - sqrt 6) / 10.
Proof. unfold rd_const. cbn [C1]. cbn [nlit nadd nsub nmul ndiv nopp npow nsqrt car Rnum]. rewrite !Rlit_0. reflexivity. Qed.
Lemma c2_form : (C2 c : R) = (4 + sqrt 6) / 10.
Proof. unfold rd_const. cbn [C2]. cbn [nlit nadd nsub nmul ndiv nopp npow nsqrt car Rnum]. rewrite !Rlit_0. reflexivity. Qed.

Lemma sq6_bounds : 2 < sqrt 6 < 3.
Proof.
  split; [replace 2 with (sqrt 4)|replace 3 with (sqrt 9)]; try (apply sqrt_lt_1_alt; lra).
  replace 4 with (2 * 2) by lra. apply sqrt_square. lra. replace 9 with (3 * 3) by lra. apply sqrt_square. lra.
Qed.
Lemma nodes_ok : radau_nodes (C1 c) (C2 c).
Proof.
  rewrite c1_form, c2_form. pose proof sq6_bounds. pose proof sq6 as H6. set (s := sqrt 6) in *. unfold radau_nodes. split; [lra|]. split; [lra|].
  exists ((16 - s) / 36), ((16 + s) / 36), (1 / 9). intros k Hk.
  assert (Hk' : (k = 0 \/ k = 1 \/ k = 2 \/ k = 3 \/ k = 4)%nat) by lia.
  destruct Hk' as [->|[->|[->|[->| ->]]]]; cbn [Nat.add INR pow].
  - field.
  - replace ((16 - s) / 36 * ((4 - s) / 10 * 1) + (16 + s) / 36 * ((4 + s) / 10 * 1) + 1 / 9 * (1 * 1)) with ((128 + 2 * (s * s)) / 360 + 1 / 9) by field. rewrite H6. field.
  - match goal with |- ?l = _ => replace l with ((512 + 48 * (s * s)) / 3600 + 1 / 9) by field end. rewrite H6. field.
  - match goal with |- ?l = _ => replace l with ((2048 + 480 * (s * s) + 2 * ((s * s) * (s * s))) / 36000 + 1 / 9) by field end. rewrite H6. field.
  - match goal with |- ?l = _ => replace l with ((8192 + 3584 * (s * s) + 64 * ((s * s) * (s * s))) / 360000 + 1 / 9) by field end. rewrite H6. field.
Qed.
(* the error estimate uses minus the derivative at 0 of the cubic through the stages *)
Lemma dd_ok a b d : (DD1 c : R) * cubic a b d (C1 c) + DD2 c * cubic a b d (C2 c) + DD3 c * cubic a b d 1 = - cubic' a b d 0.
Proof.
  rewrite c1_form, c2_form. unfold rd_const. cbn [DD1 DD2 DD3]. cbn [nlit nadd nsub nmul ndiv nopp npow nsqrt car Rnum]. rewrite !Rlit_0.
  pose proof sq6 as H6. set (s := sqrt 6) in *. unfold cubic, cubic'.
  match goal with |- ?l = _ => replace l with
    (a * ((- 104 + 14 * (s * s)) / 30 - 1 / 3) + b * ((- 416 + 86 * (s * s)) / 300 - 1 / 3) + d * ((- 1664 + 360 * (s * s) + 14 * ((s * s) * (s * s))) / 3000 - 1 / 3)) by field end.
  rewrite H6. field.
Qed.

(* ---- T, its inverse and the eigenvalues, to 19 digits -------------------------------- *)
(* the matrices the code keeps in T11..T31 (rows 1 and 2, third row (T31,1,0)) and TI11..TI33 *)
Definition T_of (c : rdc Rnum) : Z -> Z -> R := fun k l =>
  three (three (T11 c) (T12 c) (T13 c) l) (three (T21 c) (T22 c) (T23 c) l) (three (T31 c) 1 0 l) k.
Definition TI_of (c : rdc Rnum) : Z -> Z -> R := fun k l =>
  three (three (TI11 c) (TI12 c) (TI13 c) l) (three (TI21 c) (TI22 c) (TI23 c) l) (three (TI31 c) (TI32 c) (TI33 c) l) k.
Definition nodes_of (c : rdc Rnum) : Z -> R := three (C1 c) (C2 c) 1.

(* t3, sqrt 3, sqrt 6 *)
Definition env : list R := t3 :: sqrt 3 :: sqrt 6 :: nil.
Definition half : dec := (5%Z, (-1)%Z).
Definition dTm (k l : Z) : dec :=
  three (three (91232394870892942792%Z, (-21)%Z) ((-14125529502095420843)%Z, (-20)%Z) ((-30029194105147424492)%Z, (-21)%Z) l)
        (three (24171793270710701896%Z, (-20)%Z) (20412935229379993199%Z, (-20)%Z) (38294211275726193779%Z, (-20)%Z) l)
        (three (96604818261509293619%Z, (-20)%Z) d1 dz l) k.
Definition dTI (k l : Z) : dec :=
  three (three (43255798900631553510%Z, (-19)%Z) (33919925181580986954%Z, (-20)%Z) (54177053993587487119%Z, (-20)%Z) l)
        (three ((-41787185915519047273)%Z, (-19)%Z) ((-32768282076106238708)%Z, (-20)%Z) (47662355450055045196%Z, (-20)%Z) l)
        (three ((-50287263494578687595)%Z, (-20)%Z) (25719269498556054292%Z, (-19)%Z) ((-59603920482822492497)%Z, (-20)%Z) l) k.
Definition pt := PV 0. Definition ptt := PM pt pt. Definition ps3 := PV 1. Definition ps6 := PV 2.
Definition pU : pex := PA (PS (PC (3%Z, 0%Z)) pt) ptt.
Definition pAl : pex := PA (PC (3%Z, 0%Z)) (PM (PC half) (PS pt ptt)).
Definition pBe : pex := PM (PC half) (PM ps3 (PA pt ptt)).
Definition pL (k l : Z) : pex :=
  three (three pU (PC dz) (PC dz) l) (three (PC dz) pAl (PS (PC dz) pBe) l) (three (PC dz) pBe pAl l) k.
Definition pc3 (k : Z) : pex :=
  three (PM (PC (1%Z, (-1)%Z)) (PS (PC (4%Z, 0%Z)) ps6)) (PM (PC (1%Z, (-1)%Z)) (PA (PC (4%Z, 0%Z)) ps6)) (PC d1) k.
Definition psum (f : Z -> pex) : pex := PA (PA (f 1%Z) (f 2%Z)) (f 3%Z).
Definition pmul (A B : Z -> Z -> pex) (i j : Z) : pex := psum (fun k => PM (A i k) (B k j)).
Definition pT (i j : Z) := PC (dTm i j).
Definition pTI (i j : Z) := PC (dTI i j).
Definition pBm (i j : Z) : pex := pmul pT (pmul pL pTI) i j.
Definition ppow (k : Z) (a : pex) : pex := three a (PM a a) (PM a (PM a a)) k.
Definition pder (k : Z) (a : pex) : pex := three (PC d1) (PM (PC (2%Z, 0%Z)) a) (PM (PC (3%Z, 0%Z)) (PM a a)) k.
Definition presid (i k : Z) : pex := PS (psum (fun j => PM (pBm i j) (ppow k (pc3 j)))) (pder k (pc3 i)).

Lemma Tm_dec i j : T_of c i j = D2R (dTm i j).
Proof.
  unfold T_of, dTm, three, rd_const. cbn [T11 T12 T13 T21 T22 T23 T31]. cbn [nlit nopp Rnum car].
  destruct (i =? 1)%Z, (i =? 2)%Z, (j =? 1)%Z, (j =? 2)%Z; rewrite ?D2R_1, ?D2R_z; try reflexivity;
  unfold D2R, Rlit; cbn [fst snd]; ring.
Qed.
Lemma TI_dec i j : TI_of c i j = D2R (dTI i j).
Proof.
  unfold TI_of, dTI, three, rd_const. cbn [TI11 TI12 TI13 TI21 TI22 TI23 TI31 TI32 TI33]. cbn [nlit nopp Rnum car].
  destruct (i =? 1)%Z, (i =? 2)%Z, (j =? 1)%Z, (j =? 2)%Z; try reflexivity; unfold D2R, Rlit; cbn [fst snd]; ring.
Qed.
Lemma D2R_lit m e : D2R (m, e) = Rlit m e.
Proof. reflexivity. Qed.
Lemma half_R : D2R half = / 2.
Proof. unfold half. rewrite D2R_lit, Rlit_neg. change (10 ^ 1)%Z with 10%Z. lra. Qed.
Lemma L_dec i j : Lambda_of c i j = pR env (pL i j).
Proof.
  unfold Lambda_of, pL, three. rewrite u1_form, alph_form, beta_form.
  destruct (i =? 1)%Z, (i =? 2)%Z, (j =? 1)%Z, (j =? 2)%Z; cbn [pR env nth pU pAl pBe pt ptt ps3]; rewrite ?D2R_z, ?half_R, ?D2R_lit, ?Rlit_0; try reflexivity; field.
Qed.
Lemma c_dec i : nodes_of c i = pR env (pc3 i).
Proof.
  unfold nodes_of, pc3, three. rewrite c1_form, c2_form.
  destruct (i =? 1)%Z, (i =? 2)%Z; cbn [pR env nth ps6]; rewrite ?D2R_1, ?D2R_lit, ?Rlit_0, ?Rlit_neg; try reflexivity;
  change (10 ^ 1)%Z with 10%Z; field.
Qed.
Definition B_of (c : rdc Rnum) : Z -> Z -> R := mul3 (T_of c) (mul3 (Lambda_of c) (TI_of c)).
Lemma B_dec i j : B_of c i j = pR env (pBm i j).
Proof.
  unfold B_of, mul3. rewrite !rsum3. rewrite !Tm_dec, !TI_dec, !L_dec. reflexivity.
Qed.
Definition benv : list ball :=
  ((144224957030740838232163831078%Z, (-29)%Z), (1%Z, (-29)%Z)) ::
  ((173205080756887729352744634151%Z, (-29)%Z), (1%Z, (-29)%Z)) ::
  ((244948974278317809819728407471%Z, (-29)%Z), (1%Z, (-29)%Z)) :: nil.
Lemma near_root (x m e : R) : 0 < e -> 0 < m - e -> Rabs (x - m) <= e <-> m - e <= x <= m + e.
Proof. intros. split; intros H1. - unfold Rabs in H1. destruct (Rcase_abs _) in H1; lra. - apply Rabs_le. lra. Qed.
Lemma env_ok : Forall2 inb env benv.
Proof.
  unfold env, benv. constructor; [|constructor; [|constructor; [|constructor]]]; unfold inb; cbn [fst snd]; rewrite !D2R_lit, !Rlit_neg; change (10 ^ 29)%Z with 100000000000000000000000000000%Z;
  apply Rabs_le.
  - pose proof t3_cube as H. pose proof t3_pos. set (t := t3) in *. split.
    + apply Rnot_lt_le. intros N. assert (t < 144224957030740838232163831077 / 100000000000000000000000000000) by lra.
      set (q := 144224957030740838232163831077 / 100000000000000000000000000000) in *.
      assert (q * q * q < 3) by (unfold q; lra). nra.
    + apply Rnot_lt_le. intros N. assert (144224957030740838232163831079 / 100000000000000000000000000000 < t) by lra.
      set (q := 144224957030740838232163831079 / 100000000000000000000000000000) in *.
      assert (3 < q * q * q) by (unfold q; lra). assert (0 < q) by (unfold q; lra). nra.
  - pose proof sq3 as H. pose proof (sqrt_pos 3). set (t := sqrt 3) in *. split.
    + apply Rnot_lt_le. intros N. assert (t < 173205080756887729352744634150 / 100000000000000000000000000000) by lra. nra.
    + apply Rnot_lt_le. intros N. assert (173205080756887729352744634152 / 100000000000000000000000000000 < t) by lra. nra.
  - pose proof sq6 as H. pose proof (sqrt_pos 6). set (t := sqrt 6) in *. split.
    + apply Rnot_lt_le. intros N. assert (t < 244948974278317809819728407470 / 100000000000000000000000000000) by lra. nra.
    + apply Rnot_lt_le. intros N. assert (244948974278317809819728407472 / 100000000000000000000000000000 < t) by lra. nra.
Qed.
Definition tolc : dec := (1%Z, (-19)%Z).
Definition all3 (P : Z -> Z -> bool) : bool := forallb (fun i => forallb (P i) (1 :: 2 :: 3 :: nil)%Z) (1 :: 2 :: 3 :: nil)%Z.
Definition small (e : Z -> Z -> pex) (i k : Z) : bool := bnear tolc dz (pB benv (e i k)).
Definition check_id : bool := forallb (fun i => forallb (fun j => bnear tolc (if (i =? j)%Z then d1 else dz) (pB benv (pmul pT pTI i j)) &&
  bnear tolc (if (i =? j)%Z then d1 else dz) (pB benv (pmul pTI pT i j))) (1 :: 2 :: 3 :: nil)%Z) (1 :: 2 :: 3 :: nil)%Z.
Lemma resid_checked : all3 (small presid) = true.
Proof. vm_cast_no_check (eq_refl true). Qed.
Lemma id_checked : check_id = true.
Proof. vm_cast_no_check (eq_refl true). Qed.
Lemma in123 i : (1 <= i <= 3)%Z -> In i (1 :: 2 :: 3 :: nil)%Z.
Proof. intros. assert (i = 1 \/ i = 2 \/ i = 3)%Z as [->|[->| ->]] by lia; cbn; auto. Qed.
Lemma tolc_R : D2R tolc = 1 / 10 ^ 19.
Proof. unfold tolc. rewrite D2R_lit, Rlit_neg. change (10 ^ 19)%Z with 10000000000000000000%Z. lra. Qed.
Lemma all3_ok P i k : all3 P = true -> (1 <= i <= 3)%Z -> (1 <= k <= 3)%Z -> P i k = true.
Proof.
  unfold all3. intros H Hi Hk. rewrite forallb_forall in H. specialize (H i (in123 i Hi)). rewrite forallb_forall in H. exact (H k (in123 k Hk)).
Qed.
Lemma small_ok e i k : small e i k = true -> Rabs (pR env (e i k)) <= 1 / 10 ^ 19.
Proof. intros H. pose proof (bnear_ok _ _ _ _ H (pB_ok _ _ (e i k) env_ok)) as G. rewrite D2R_z, Rminus_0_r, tolc_R in G. exact G. Qed.
Lemma resid_ok i k : (1 <= i <= 3)%Z -> (1 <= k <= 3)%Z -> Rabs (pR env (presid i k)) <= 1 / 10 ^ 19.
Proof. intros Hi Hk. exact (small_ok presid i k (all3_ok (small presid) i k resid_checked Hi Hk)). Qed.
Lemma inverse_ok : near_identity (mul3 (T_of c) (TI_of c)) (1 / 10 ^ 19) /\ near_identity (mul3 (TI_of c) (T_of c)) (1 / 10 ^ 19).
Proof.
  pose proof id_checked as H. unfold check_id in H. rewrite forallb_forall in H. rewrite <- tolc_R.
  split; intros i j Hi Hj; specialize (H i (in123 i Hi)); rewrite forallb_forall in H; specialize (H j (in123 j Hj)); apply andb_prop in H; destruct H as [H1 H2].
  - pose proof (bnear_ok _ _ _ _ H1 (pB_ok _ _ _ env_ok)) as G.
    replace (mul3 (T_of c) (TI_of c) i j) with (pR env (pmul pT pTI i j)) by (unfold mul3; rewrite rsum3, !Tm_dec, !TI_dec; reflexivity).
    destruct (i =? j)%Z; rewrite ?D2R_1, ?D2R_z in G; exact G.
  - pose proof (bnear_ok _ _ _ _ H2 (pB_ok _ _ _ env_ok)) as G.
    replace (mul3 (TI_of c) (T_of c) i j) with (pR env (pmul pTI pT i j)) by (unfold mul3; rewrite rsum3, !Tm_dec, !TI_dec; reflexivity).
    destruct (i =? j)%Z; rewrite ?D2R_1, ?D2R_z in G; exact G.
Qed.
Lemma derivation_ok : derivation (nodes_of c) (B_of c) (1 / 10 ^ 19).
Proof.
  intros i Hi a b d. pose proof (resid_ok i 1 Hi ltac:(lia)) as R1. pose proof (resid_ok i 2 Hi ltac:(lia)) as R2. pose proof (resid_ok i 3 Hi ltac:(lia)) as R3.
  set (r1 := pR env (presid i 1)) in *. set (r2 := pR env (presid i 2)) in *. set (r3 := pR env (presid i 3)) in *.
  replace (rsum 1 3 (fun j => B_of c i j * cubic a b d (nodes_of c j)) - cubic' a b d (nodes_of c i)) with (a * r1 + b * r2 + d * r3).
  - eapply Rle_trans; [apply Rabs_triang|]. eapply Rle_trans; [apply Rplus_le_compat_r, Rabs_triang|]. rewrite !Rabs_mult.
    pose proof (Rabs_pos a). pose proof (Rabs_pos b). pose proof (Rabs_pos d). nra.
  - rewrite rsum3. unfold r1, r2, r3, presid. unfold ppow, pder, three. cbn [Z.eqb Pos.eqb]. unfold psum. cbn [pR].
    rewrite <- !B_dec, <- !c_dec. rewrite D2R_1, !D2R_lit, !Rlit_0. unfold cubic, cubic'. ring.
Qed.
(* the eigenvalues are exact: roots of the characteristic polynomial of the inverse of the
   Runge-Kutta matrix *)
Lemma eigen_ok (x : R) : (x - U1 c) * ((x - ALPH c) ^ 2 + BETA c ^ 2) = x ^ 3 - 9 * x ^ 2 + 36 * x - 60.
Proof.
  change (car Rnum) with R. rewrite u1_form, alph_form, beta_form. pose proof t3_cube as H. pose proof sq3 as Hs. set (t := t3) in *. set (s := sqrt 3) in *.
  replace ((x - (3 - t + t * t)) * ((x - (3 + (t - t * t) / 2)) ^ 2 + (s * (t + t * t) / 2) ^ 2))
    with ((x - 3 + t - t * t) * ((x - 3) ^ 2 - (x - 3) * (t - t * t) + (t * t - 2 * (t * t * t) + t * (t * t * t)) / 4 + (s * s) * (t * t + 2 * (t * t * t) + t * (t * t * t)) / 4)) by field.
  rewrite H, Hs.
  replace ((x - 3 + t - t * t) * ((x - 3) ^ 2 - (x - 3) * (t - t * t) + (t * t - 2 * 3 + t * 3) / 4 + 3 * (t * t + 2 * 3 + t * 3) / 4))
    with ((x - 3) ^ 3 + (x - 3) * (t * t - (t * t) + 3 * t + 3 + 2 * (t * t * t) - t * (t * t * t)) + (t * t * t - t * (t * t * t) + 3 * t * t + 3 * t - 3 * (t * t * t) - 3 * t * t)) by field.
  rewrite H. ring.
Qed.
