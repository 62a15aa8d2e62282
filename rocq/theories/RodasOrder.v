(* A-stability, damping and order conditions of the methods of RodasModel.rocoe, from the
   computations of RodasStab.v and RodasStab2.v. *)
From Coq Require Import Reals Lra Psatz Ring.
From Verif Require Import Base Spec HessModel HessPathProofs SympQuad Dec CMacros RodasModel RodasSpec RodasStep RodasStab RodasStab2.
Open Scope R_scope.

Definition gamma_check (m : Z) : bool := match dcoef m with Ok D => (0 <? fst (rGAMMA D))%Z | _ => true end.
Lemma dcoef_range m (D : rcoef DNum) : dcoef m = Ok D -> (m = 1 \/ m = 2 \/ m = 3)%Z.
Proof.
  intros E. destruct (Z.eq_dec m 1) as [|N1]; [left; assumption|]. destruct (Z.eq_dec m 2) as [|N2]; [right; left; assumption|].
  destruct (Z.eq_dec m 3) as [|N3]; [right; right; assumption|]. exfalso.
  unfold dcoef in E. rewrite (rocoe_other m N1 N2 N3) in E. discriminate E.
Qed.
Lemma gamma_pos m (D : rcoef DNum) : dcoef m = Ok D -> 0 < D2R (rGAMMA D).
Proof.
  intros E. assert (H : gamma_check m = true) by (destruct (dcoef_range m D E) as [->|[->| ->]]; vm_compute; reflexivity).
  unfold gamma_check in H. rewrite E in H. apply Z.ltb_lt in H. unfold D2R. apply Rlit_gt0. exact H.
Qed.
Lemma denom_pos (D : rcoef DNum) z : 0 < D2R (rGAMMA D) -> fst z <= 0 -> 0 < norm2 (peval (denom D) z).
Proof.
  intros Hg Hz. unfold denom, pq6, pq5, pq4, pq3, pq2. rewrite !peval_mul, !norm2_mul.
  assert (H : 0 < norm2 (peval (pq D) z)).
  { unfold pq. cbn [peval]. rewrite D2R_1, D2R_opp. unfold norm2, cadd, cmul, cr, c0. cbn [fst snd].
    pose proof (Rmult_le_pos _ _ (Rlt_le _ _ Hg) (Ropp_0_ge_le_contravar _ (Rle_ge _ _ Hz))).
    match goal with |- 0 < ?A * ?A + ?B * ?B => assert (1 <= A) by lra; pose proof (Rle_0_sqr B); unfold Rsqr in *; nra end. }
  repeat apply Rmult_lt_0_compat; exact H.
Qed.
Lemma methods_stable m C : @rocoe Rnum m = Ok C -> A_stable 6 (rodas_tab C) /\ stiff_decay 6 (rodas_tab C) 10.
Proof.
  intros E. destruct (rocoe_dcoef m C E) as (D & ED & ->). pose proof (gamma_pos m D ED) as Hg.
  assert (H : forall n J lr li a b x h y u y', left_eigen n J lr li a b -> h <> 0 -> a * h <= 0 ->
     ros_step 6 n (rodas_tab (rmap D)) (linear_rhs n J) J (fun _ => 0) x h y u y' ->
     component n lr li y' <= component n lr li y /\
     h ^ 2 * (a ^ 2 + b ^ 2) * component n lr li y' <= 10 ^ 2 * component n lr li y).
  { intros n J lr li a b x h y u y' He Hh Hs HS.
    pose proof (numer_step D n J lr li a b x h y u y' ltac:(lra) He Hh HS) as EN.
    apply (f_equal norm2) in EN. rewrite !norm2_mul in EN.
    assert (Hz : fst (zz a b h) <= 0) by (unfold zz; cbn [fst]; lra).
    destruct (check_stable (denom D) (numer D) (zz a b h) (method_checked m D ED) Hz) as [S1 S2].
    pose proof (denom_pos D _ Hg Hz) as Hq.
    assert (CL : forall v, component n lr li v = norm2 (L n lr li v)) by (intros; unfold component, norm2, L; cbn [fst snd]; ring).
    rewrite !CL. pose proof (norm2_pos (L n lr li y)) as Py.
    set (Q := norm2 (peval (denom D) (zz a b h))) in *. set (P := norm2 (peval (numer D) (zz a b h))) in *.
    set (Y := norm2 (L n lr li y)) in *. set (Y' := norm2 (L n lr li y')) in *.
    split; apply (Rmult_le_reg_l Q); try exact Hq.
    - rewrite EN. apply Rmult_le_compat_r; assumption.
    - replace (Q * (h ^ 2 * (a ^ 2 + b ^ 2) * Y')) with (norm2 (zz a b h) * (Q * Y')) by (unfold norm2, zz; cbn [fst snd]; ring).
      rewrite EN. replace (norm2 (zz a b h) * (P * Y)) with (norm2 (zz a b h) * P * Y) by ring.
      replace (Q * (10 ^ 2 * Y)) with (100 * Q * Y) by ring. apply Rmult_le_compat_r; assumption. }
  split; intros n J lr li a b x h y u y' H1 H2 H3 H4; apply (H n J lr li a b x h y u y' H1 H2 H3 H4).
Qed.

(* ---- order conditions ---------------------------------------------------------------- *)
Section Order.
Variable D : rcoef DNum.
(* vectors of six decimals *)
Definition vec6 := (dec * dec * dec * dec * dec * dec)%type.
Definition at6 (v : vec6) (i : Z) : dec := let '(a, b, c, d, e, f) := v in six a b c d e f i.
Definition app6 (f : dec -> dec) (v : vec6) : vec6 := let '(a, b, c, d, e, g) := v in (f a, f b, f c, f d, f e, f g).
Definition app62 (f : dec -> dec -> dec) (v w : vec6) : vec6 :=
  let '(a, b, c, d, e, g) := v in let '(a', b', c', d', e', g') := w in (f a a', f b b', f c c', f d d', f e e', f g g').
Notation "a + b" := (dadd a b). Notation "a * b" := (dmul a b).
(* Gamma v *)
Definition dGam (v : vec6) : vec6 :=
  let '(v1, v2, v3, v4, v5, v6) := v in let g := rGAMMA D in
  let w1 := g * v1 in
  let w2 := g * (v2 + rC21 D * w1) in
  let w3 := g * (v3 + (rC31 D * w1 + rC32 D * w2)) in
  let w4 := g * (v4 + (rC41 D * w1 + rC42 D * w2 + rC43 D * w3)) in
  let w5 := g * (v5 + (rC51 D * w1 + rC52 D * w2 + rC53 D * w3 + rC54 D * w4)) in
  let w6 := g * (v6 + (rC61 D * w1 + rC62 D * w2 + rC63 D * w3 + rC64 D * w4 + rC65 D * w5)) in
  (w1, w2, w3, w4, w5, w6).
Definition dA (w : vec6) : vec6 :=
  let '(w1, w2, w3, w4, w5, w6) := w in
  (dz, rA21 D * w1, rA31 D * w1 + rA32 D * w2, rA41 D * w1 + rA42 D * w2 + rA43 D * w3,
   rA51 D * w1 + rA52 D * w2 + rA53 D * w3 + rA54 D * w4,
   rA51 D * w1 + rA52 D * w2 + rA53 D * w3 + rA54 D * w4 + w5).
Definition dw (emb : bool) (w : vec6) : dec :=
  let '(w1, w2, w3, w4, w5, w6) := w in
  let s := rA51 D * w1 + rA52 D * w2 + rA53 D * w3 + rA54 D * w4 + w5 in if emb then s else s + w6.
Definition ones : vec6 := (d1, d1, d1, d1, d1, d1).
(* k times the weight is 1 within k*tol *)
Definition near (tol : dec) (k : Z) (w : dec) : bool := dclose ((k, 0%Z) * tol) ((k, 0%Z) * w) d1.
Definition check3 (tol : dec) (emb : bool) : bool :=
  let g1 := dGam ones in let al := dA g1 in let gb := dGam (app62 dadd al g1) in
  near tol 1 (dw emb g1) && near tol 2 (dw emb gb) && near tol 3 (dw emb (dGam (app62 dmul al al))) &&
  near tol 6 (dw emb (dGam (app62 dadd (dA gb) gb))).
Definition check4 (tol : dec) : bool :=
  let g1 := dGam ones in let al := dA g1 in let gb := dGam (app62 dadd al g1) in
  let gbb := dGam (app62 dadd (dA gb) gb) in let aa := app62 dmul al al in let gaa := dGam aa in
  near tol 4 (dw false (dGam (app62 dmul aa al))) && near tol 8 (dw false (dGam (app62 dmul al (dA gb)))) &&
  near tol 12 (dw false (dGam (app62 dadd (dA gaa) gaa))) && near tol 24 (dw false (dGam (app62 dadd (dA gbb) gbb))).
Definition checkc (tol : dec) : bool :=
  let g1 := dGam ones in let '(a1, a2, a3, a4, a5, a6) := dA g1 in let '(b1, b2, b3, b4, b5, b6) := g1 in
  dclose tol a1 dz && dclose tol a2 (rC2 D) && dclose tol a3 (rC3 D) && dclose tol a4 (rC4 D) && dclose tol a5 d1 && dclose tol a6 d1 &&
  dclose tol b1 (rD1 D) && dclose tol b2 (rD2 D) && dclose tol b3 (rD3 D) && dclose tol b4 (rD4 D) && dclose tol b5 dz && dclose tol b6 dz.
(* the first two nodes exactly, the first four within 5e-16 *)
Definition checkn : bool :=
  let g1 := dGam ones in let '(a1, a2, a3, a4, a5, a6) := dA g1 in let '(b1, b2, b3, b4, b5, b6) := g1 in let tol := (5%Z, (-16)%Z) in
  dclose dz a1 dz && dclose dz a2 (rC2 D) && dclose dz b1 (rD1 D) && dclose tol a1 dz && dclose tol a2 (rC2 D) && dclose tol a3 (rC3 D) && dclose tol a4 (rC4 D) &&
  dclose tol b1 (rD1 D) && dclose tol b2 (rD2 D) && dclose tol b3 (rD3 D) && dclose tol b4 (rD4 D).
End Order.
Definition tol14 : dec := (4%Z, (-15)%Z).
Definition check_order (m : Z) : bool := match dcoef m with Ok D => check3 D tol14 false && check3 D tol14 true && check4 D tol14 && checkc D tol14 | _ => false end.
Lemma orders_checked m D : dcoef m = Ok D ->
  check3 D tol14 false = true /\ check3 D tol14 true = true /\ check4 D tol14 = true /\ checkc D tol14 = true.
Proof.
  intros E. assert (H : check_order m = true).
  { destruct (dcoef_range m D E) as [->|[->| ->]]; vm_cast_no_check (eq_refl true). }
  unfold check_order in H. rewrite E in H. apply andb_prop in H. destruct H as [H H4]. apply andb_prop in H. destruct H as [H H3].
  apply andb_prop in H. destruct H as [H1 H2]. auto.
Qed.

Section Sound.
Variable D : rcoef DNum.
Hypothesis Hg : D2R (rGAMMA D) <> 0.
Notation T := (rodas_tab (rmap D)).
(* v is the real vector of the decimals dv *)
Definition is6 (v : Z -> R) (dv : vec6) : Prop := forall i, (1 <= i <= 6)%Z -> v i = D2R (at6 dv i).
Lemma each6 (P : Z -> Prop) : P 1%Z -> P 2%Z -> P 3%Z -> P 4%Z -> P 5%Z -> P 6%Z -> forall i, (1 <= i <= 6)%Z -> P i.
Proof.
  intros. assert (E : (i = 1 \/ i = 2 \/ i = 3 \/ i = 4 \/ i = 5 \/ i = 6)%Z) by lia.
  destruct E as [->|[->|[->|[->|[->| ->]]]]]; assumption.
Qed.
Ltac tab := unfold rodas_tab, rmap; cbn [t_gamma t_a t_c t_m t_alpha t_gam rC2 rC3 rC4 rD1 rD2 rD3 rD4 rA21 rA31 rA32 rA41 rA42 rA43 rA51 rA52 rA53 rA54 rC21 rC31 rC32 rC41 rC42 rC43 rC51 rC52 rC53 rC54 rC61 rC62 rC63 rC64 rC65 rGAMMA]; unfold at6, six; cbn [Z.eqb Pos.eqb].
Lemma is_Gam v w dv : is6 v dv -> Gam 6 T v w -> is6 w (dGam D dv).
Proof.
  intros Hv HG. destruct dv as [[[[[v1 v2] v3] v4] v5] v6].
  assert (K : forall i s, (1 <= i <= 6)%Z -> rsum 1 (i - 1) (fun j => t_c T i j * w j) = s -> w i = D2R (rGAMMA D) * (v i + s)).
  { intros i s Hi <-. pose proof (HG i Hi) as H. rewrite <- H. change (t_gamma T) with (D2R (rGAMMA D)). field. exact Hg. }
  assert (V : forall i, (1 <= i <= 6)%Z -> v i = D2R (at6 (v1, v2, v3, v4, v5, v6) i)) by exact Hv.
  pose proof (K 1%Z _ ltac:(lia) (rs0 _)) as E1. rewrite (V 1%Z) in E1 by lia. revert E1. tab. intros E1.
  pose proof (K 2%Z _ ltac:(lia) (rs1 _)) as E2. rewrite (V 2%Z) in E2 by lia. revert E2. tab. intros E2.
  pose proof (K 3%Z _ ltac:(lia) (rs2 _)) as E3. rewrite (V 3%Z) in E3 by lia. revert E3. tab. intros E3.
  pose proof (K 4%Z _ ltac:(lia) (rs3 _)) as E4. rewrite (V 4%Z) in E4 by lia. revert E4. tab. intros E4.
  pose proof (K 5%Z _ ltac:(lia) (rs4 _)) as E5. rewrite (V 5%Z) in E5 by lia. revert E5. tab. intros E5.
  pose proof (K 6%Z _ ltac:(lia) (rs5 _)) as E6. rewrite (V 6%Z) in E6 by lia. revert E6. tab. intros E6.
  unfold is6. unfold dGam. cbv zeta.
  set (w1 := dmul (rGAMMA D) v1) in *.
  assert (F1 : w 1%Z = D2R w1) by (rewrite E1; unfold w1; rewrite D2R_mul; ring).
  rewrite F1 in *. set (w2 := dmul (rGAMMA D) (dadd v2 _)) in *.
  assert (F2 : w 2%Z = D2R w2) by (rewrite E2; unfold w2; rewrite !D2R_mul, !D2R_add, !D2R_mul; ring).
  rewrite F2 in *. set (w3 := dmul (rGAMMA D) (dadd v3 _)) in *.
  assert (F3 : w 3%Z = D2R w3) by (rewrite E3; unfold w3; rewrite !D2R_mul, !D2R_add, !D2R_mul; ring).
  rewrite F3 in *. set (w4 := dmul (rGAMMA D) (dadd v4 _)) in *.
  assert (F4 : w 4%Z = D2R w4) by (rewrite E4; unfold w4; rewrite !D2R_mul, !D2R_add, !D2R_mul; ring).
  rewrite F4 in *. set (w5 := dmul (rGAMMA D) (dadd v5 _)) in *.
  assert (F5 : w 5%Z = D2R w5) by (rewrite E5; unfold w5; rewrite !D2R_mul, !D2R_add, !D2R_mul; ring).
  rewrite F5 in *. set (w6 := dmul (rGAMMA D) (dadd v6 _)) in *.
  assert (F6 : w 6%Z = D2R w6) by (rewrite E6; unfold w6; rewrite !D2R_mul, !D2R_add, !D2R_mul; ring).
  apply each6; unfold at6, six; cbn [Z.eqb Pos.eqb]; assumption.
Qed.
Lemma is_A w dw : is6 w dw -> is6 (Amul T w) (dA D dw).
Proof.
  intros Hw. destruct dw as [[[[[w1 w2] w3] w4] w5] w6]. unfold is6, Amul, dA.
  pose proof (Hw 1%Z ltac:(lia)) as F1. pose proof (Hw 2%Z ltac:(lia)) as F2. pose proof (Hw 3%Z ltac:(lia)) as F3.
  pose proof (Hw 4%Z ltac:(lia)) as F4. pose proof (Hw 5%Z ltac:(lia)) as F5.
  revert F1 F2 F3 F4 F5. unfold at6, six. cbn [Z.eqb Pos.eqb]. intros F1 F2 F3 F4 F5.
  apply each6; rewrite ?rs0, ?rs1, ?rs2, ?rs3, ?rs4, ?rs5; tab;
  rewrite ?F1, ?F2, ?F3, ?F4, ?F5, ?D2R_z, ?D2R_add, ?D2R_mul; try reflexivity; ring.
Qed.
Lemma is_add v w dv dw : is6 v dv -> is6 w dw -> is6 (fun i => v i + w i) (app62 dadd dv dw).
Proof.
  intros Hv Hw. destruct dv as [[[[[v1 v2] v3] v4] v5] v6], dw as [[[[[w1 w2] w3] w4] w5] w6]. intros i Hi. rewrite (Hv i Hi), (Hw i Hi).
  revert i Hi. apply each6; unfold at6, six, app62; cbn [Z.eqb Pos.eqb]; rewrite D2R_add; reflexivity.
Qed.
Lemma is_mul v w dv dw : is6 v dv -> is6 w dw -> is6 (fun i => v i * w i) (app62 dmul dv dw).
Proof.
  intros Hv Hw. destruct dv as [[[[[v1 v2] v3] v4] v5] v6], dw as [[[[[w1 w2] w3] w4] w5] w6]. intros i Hi. rewrite (Hv i Hi), (Hw i Hi).
  revert i Hi. apply each6; unfold at6, six, app62; cbn [Z.eqb Pos.eqb]; rewrite D2R_mul; reflexivity.
Qed.
Lemma is_ones : is6 (fun _ => 1) ones.
Proof. unfold is6. apply each6; unfold at6, ones, six; cbn [Z.eqb Pos.eqb]; rewrite D2R_1; reflexivity. Qed.
(* the weights of the result and of the embedded result *)
Definition wts (emb : bool) : Z -> R := six (t_m T 1%Z) (t_m T 2%Z) (t_m T 3%Z) (t_m T 4%Z) (t_m T 5%Z) (if emb then 0 else t_m T 6%Z).
Lemma is_w emb w dv : is6 w dv -> rsum 1 6 (fun i => wts emb i * w i) = D2R (dw D emb dv).
Proof.
  intros Hw. destruct dv as [[[[[w1 w2] w3] w4] w5] w6]. rewrite rs6. unfold wts, dw.
  pose proof (Hw 1%Z ltac:(lia)) as F1. pose proof (Hw 2%Z ltac:(lia)) as F2. pose proof (Hw 3%Z ltac:(lia)) as F3.
  pose proof (Hw 4%Z ltac:(lia)) as F4. pose proof (Hw 5%Z ltac:(lia)) as F5. pose proof (Hw 6%Z ltac:(lia)) as F6.
  revert F1 F2 F3 F4 F5 F6. unfold at6. tab. intros F1 F2 F3 F4 F5 F6.
  rewrite F1, F2, F3, F4, F5, F6. destruct emb; rewrite !D2R_add, !D2R_mul; ring.
Qed.
Lemma near_close tol k w : (0 < k)%Z -> near tol k w = true -> close (D2R tol) (D2R w) (/ IZR k).
Proof.
  intros Hk H. unfold near in H. apply dclose_ok in H. rewrite !D2R_mul, D2R_1 in H.
  replace (D2R (k, 0%Z)) with (IZR k) in H by (unfold D2R, Rlit; cbn [fst snd powerRZ]; ring).
  assert (Pk : 0 < IZR k) by (apply IZR_lt; exact Hk). unfold close.
  apply (Rmult_le_reg_l (IZR k)); [exact Pk|]. rewrite <- (Rabs_pos_eq (IZR k)) at 1 by lra. rewrite <- Rabs_mult.
  replace (IZR k * (D2R w - / IZR k)) with (IZR k * D2R w - 1) by (field; lra). exact H.
Qed.
Lemma order3_ok tol emb : check3 D tol emb = true -> order3 6 T (wts emb) (D2R tol).
Proof.
  intros H g1 gb gbb gaa al be G1 G2 G3 G4. subst be al. unfold check3 in H. cbv zeta in H.
  apply andb_prop in H. destruct H as [H K4]. apply andb_prop in H. destruct H as [H K3]. apply andb_prop in H. destruct H as [K1 K2].
  pose proof (is_Gam _ _ _ is_ones G1) as I1. pose proof (is_A _ _ I1) as IA.
  pose proof (is_Gam _ _ _ (is_add _ _ _ _ IA I1) G2) as I2.
  pose proof (is_Gam _ _ _ (is_add _ _ _ _ (is_A _ _ I2) I2) G3) as I3.
  pose proof (is_Gam _ _ _ (is_mul _ _ _ _ IA IA) G4) as I4.
  rewrite (is_w emb _ _ I1), (is_w emb _ _ I2), (is_w emb _ _ I3), (is_w emb _ _ I4).
  apply near_close in K1; [|lia]. apply near_close in K2; [|lia]. apply near_close in K3; [|lia]. apply near_close in K4; [|lia].
  rewrite Rinv_1 in K1. auto.
Qed.
Lemma order4_ok tol : check3 D tol false = true -> check4 D tol = true -> order4 6 T (wts false) (D2R tol).
Proof.
  intros H0 H. split; [apply order3_ok; exact H0|]. intros g1 gb gbb gaa g5 g6 g7 g8 al be G1 G2 G3 G4 G5 G6 G7 G8. subst be al.
  unfold check4 in H. cbv zeta in H.
  apply andb_prop in H. destruct H as [H K4]. apply andb_prop in H. destruct H as [H K3]. apply andb_prop in H. destruct H as [K1 K2].
  pose proof (is_Gam _ _ _ is_ones G1) as I1. pose proof (is_A _ _ I1) as IA.
  pose proof (is_Gam _ _ _ (is_add _ _ _ _ IA I1) G2) as I2.
  pose proof (is_Gam _ _ _ (is_add _ _ _ _ (is_A _ _ I2) I2) G3) as I3.
  pose proof (is_Gam _ _ _ (is_mul _ _ _ _ IA IA) G4) as I4.
  pose proof (is_Gam _ _ _ (is_mul _ _ _ _ (is_mul _ _ _ _ IA IA) IA) G5) as I5.
  pose proof (is_Gam _ _ _ (is_mul _ _ _ _ IA (is_A _ _ I2)) G6) as I6.
  pose proof (is_Gam _ _ _ (is_add _ _ _ _ (is_A _ _ I4) I4) G7) as I7.
  pose proof (is_Gam _ _ _ (is_add _ _ _ _ (is_A _ _ I3) I3) G8) as I8.
  rewrite (is_w false _ _ I5), (is_w false _ _ I6), (is_w false _ _ I7), (is_w false _ _ I8).
  apply near_close in K1; [|lia]. apply near_close in K2; [|lia]. apply near_close in K3; [|lia]. apply near_close in K4; [|lia].
  auto.
Qed.
Lemma consistent_ok tol : checkc D tol = true -> consistent 6 T (D2R tol).
Proof.
  intros H g1 G1. pose proof (is_Gam _ _ _ is_ones G1) as I1. pose proof (is_A _ _ I1) as IA.
  unfold checkc in H. cbv zeta in H.
  destruct (dA D (dGam D ones)) as [[[[[a1 a2] a3] a4] a5] a6]. destruct (dGam D ones) as [[[[[b1 b2] b3] b4] b5] b6].
  repeat (let K := fresh "K" in apply andb_prop in H; destruct H as [H K]; apply dclose_ok in K; rewrite ?D2R_z, ?D2R_1 in K). apply dclose_ok in H. rewrite D2R_z in H.
  intros i Hi. rewrite (IA i Hi), (I1 i Hi). revert i Hi. apply each6; unfold close; tab; split; assumption.
Qed.
Lemma nodes_ok : checkn D = true -> forall g1, Gam 6 T (fun _ => 1) g1 ->
  (forall i, (1 <= i <= 2)%Z -> Amul T g1 i = t_alpha T i) /\ g1 1%Z = t_gam T 1%Z /\
  forall i, (1 <= i <= 4)%Z -> close (5 / 10 ^ 16) (Amul T g1 i) (t_alpha T i) /\ close (5 / 10 ^ 16) (g1 i) (t_gam T i).
Proof.
  intros H g1 G1. pose proof (is_Gam _ _ _ is_ones G1) as I1. pose proof (is_A _ _ I1) as IA.
  unfold checkn in H. cbv zeta in H.
  destruct (dA D (dGam D ones)) as [[[[[a1 a2] a3] a4] a5] a6]. destruct (dGam D ones) as [[[[[b1 b2] b3] b4] b5] b6].
  assert (ET : D2R (5%Z, (-16)%Z) = 5 / 10 ^ 16) by (unfold D2R; cbn [fst snd]; rewrite Rlit_neg; change (10 ^ 16)%Z with 10000000000000000%Z; lra).
  repeat (let K := fresh "K" in apply andb_prop in H; destruct H as [H K]; apply dclose_ok in K; rewrite ?D2R_z, ?D2R_1, ?ET in K). apply dclose_ok in H. rewrite D2R_z in H.
  assert (X : forall a b, Rabs (a - b) <= 0 -> a = b) by (intros a b Hab; pose proof (Rabs_pos (a - b)) as P; assert (Rabs (a - b) = 0) as Q by lra; destruct (Req_dec (a - b) 0) as [Q1|Q1]; [lra|apply Rabs_no_R0 in Q1; contradiction]).
  split; [|split].
  - intros i Hi. assert (i = 1 \/ i = 2)%Z as [-> | ->] by lia; rewrite IA by lia; tab; apply X; assumption.
  - rewrite I1 by lia. tab. apply X; assumption.
  - intros i Hi. rewrite IA, I1 by lia. assert (i = 1 \/ i = 2 \/ i = 3 \/ i = 4)%Z as [-> |[-> |[-> | ->]]] by lia; unfold close; tab; split; assumption.
Qed.
End Sound.
Lemma nodes_checked m D : dcoef m = Ok D -> checkn D = true.
Proof.
  intros E. assert (H : match dcoef m with Ok D => checkn D | _ => false end = true).
  { destruct (dcoef_range m D E) as [->|[->| ->]]; vm_cast_no_check (eq_refl true). }
  rewrite E in H. exact H.
Qed.
Lemma methods_nodes m C : @rocoe Rnum m = Ok C -> let T := rodas_tab C in forall g1, Gam 6 T (fun _ => 1) g1 ->
  (forall i, (1 <= i <= 2)%Z -> Amul T g1 i = t_alpha T i) /\ g1 1%Z = t_gam T 1%Z /\
  forall i, (1 <= i <= 4)%Z -> close (5 / 10 ^ 16) (Amul T g1 i) (t_alpha T i) /\ close (5 / 10 ^ 16) (g1 i) (t_gam T i).
Proof.
  intros E. destruct (rocoe_dcoef m C E) as (D & ED & ->). pose proof (gamma_pos m D ED) as Hg. assert (Hg' : D2R (rGAMMA D) <> 0) by lra.
  exact (nodes_ok D Hg' (nodes_checked m D ED)).
Qed.
Lemma methods_order m C : @rocoe Rnum m = Ok C ->
  let T := rodas_tab C in
  order4 6 T (t_m T) (4 / 10 ^ 15) /\
  order3 6 T (six (t_m T 1%Z) (t_m T 2%Z) (t_m T 3%Z) (t_m T 4%Z) (t_m T 5%Z) 0) (4 / 10 ^ 15) /\
  consistent 6 T (4 / 10 ^ 15).
Proof.
  intros E. destruct (rocoe_dcoef m C E) as (D & ED & ->). pose proof (gamma_pos m D ED) as Hg. assert (Hg' : D2R (rGAMMA D) <> 0) by lra.
  destruct (orders_checked m D ED) as (K1 & K2 & K3 & K4).
  assert (ET : D2R tol14 = 4 / 10 ^ 15) by (unfold tol14, D2R; cbn [fst snd]; rewrite Rlit_neg; change (10 ^ 15)%Z with 1000000000000000%Z; lra).
  cbv zeta. rewrite <- ET. split; [|split].
  - pose proof (order4_ok D Hg' tol14 K1 K3) as H.
    assert (Ew : forall v, rsum 1 6 (fun i => wts D false i * v i) = rsum 1 6 (fun i => t_m (rodas_tab (rmap D)) i * v i)).
    { intros v. apply rsum_ext. intros i Hi. f_equal. }
    unfold order4, order3 in *. destruct H as [H1 H2]. split.
    + intros g1 gb gbb gaa. cbv zeta. rewrite <- !Ew. exact (H1 g1 gb gbb gaa).
    + intros g1 gb gbb gaa g5 g6 g7 g8. cbv zeta. rewrite <- !Ew. exact (H2 g1 gb gbb gaa g5 g6 g7 g8).
  - exact (order3_ok D Hg' tol14 true K2).
  - exact (consistent_ok D Hg' tol14 K4).
Qed.

(* the linear systems of RodasSpec.Gam have a solution *)
Lemma Gam_solvable T v : t_gamma T <> 0 -> exists w, Gam 6 T v w.
Proof.
  intros Hg.
  pose (w1 := t_gamma T * v 1%Z).
  pose (w2 := t_gamma T * (v 2%Z + t_c T 2%Z 1%Z * w1)).
  pose (w3 := t_gamma T * (v 3%Z + (t_c T 3%Z 1%Z * w1 + t_c T 3%Z 2%Z * w2))).
  pose (w4 := t_gamma T * (v 4%Z + (t_c T 4%Z 1%Z * w1 + t_c T 4%Z 2%Z * w2 + t_c T 4%Z 3%Z * w3))).
  pose (w5 := t_gamma T * (v 5%Z + (t_c T 5%Z 1%Z * w1 + t_c T 5%Z 2%Z * w2 + t_c T 5%Z 3%Z * w3 + t_c T 5%Z 4%Z * w4))).
  pose (w6 := t_gamma T * (v 6%Z + (t_c T 6%Z 1%Z * w1 + t_c T 6%Z 2%Z * w2 + t_c T 6%Z 3%Z * w3 + t_c T 6%Z 4%Z * w4 + t_c T 6%Z 5%Z * w5))).
  exists (six w1 w2 w3 w4 w5 w6). unfold Gam. apply each6; rewrite ?rs0, ?rs1, ?rs2, ?rs3, ?rs4, ?rs5; unfold six; cbn [Z.eqb Pos.eqb].
  - unfold w1. field. exact Hg.
  - unfold w2. field. exact Hg.
  - unfold w3. field. exact Hg.
  - unfold w4. field. exact Hg.
  - unfold w5. field. exact Hg.
  - unfold w6. field. exact Hg.
Qed.
