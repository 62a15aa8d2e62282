(* Facts about one step x := x + h towards an end point e in IEEE double precision, used for the
   drivers of Rodas and Radau5.  Not a model of anything in /repo. *)
From Coq Require Import Reals Lra.
From Flocq Require Import Core BinarySingleNaN Sterbenz Plus_error.
From Verif Require Import Base CMacros F64.
Open Scope R_scope.

Definition nan (x : f64) : Prop := x = B754_nan.
Section S.
Variable pow : f64 -> f64 -> f64.
Notation K := (F64 pow).
Lemma rnd_bound (x y : f64) a : v x <= rnd a <= v y -> Rlt_bool (Rabs (rnd a)) (bpow radix2 1024) = true.
Proof.
  intros [H1 H2]. apply Rlt_bool_true. pose proof (v_lt_max x) as A. pose proof (v_lt_max y) as B. apply Rabs_def2 in A. apply Rabs_def2 in B. apply Rabs_def1; lra.
Qed.
Lemma add_rnd (x y l u : f64) : fin x -> fin y -> v l <= rnd (v x + v y) <= v u -> fin (nadd (n := K) x y) /\ v (nadd (n := K) x y) = rnd (v x + v y).
Proof.
  intros Hx Hy Hb. pose proof (Bplus_correct 53 1024 f64p f64e mode_NE x y Hx Hy) as H. rewrite (rnd_bound l u) in H by exact Hb.
  destruct H as (H1 & H2 & _). split; [exact H2|exact H1].
Qed.
Lemma sub_rnd (x y l u : f64) : fin x -> fin y -> v l <= rnd (v x - v y) <= v u -> fin (nsub (n := K) x y) /\ v (nsub (n := K) x y) = rnd (v x - v y).
Proof.
  intros Hx Hy Hb. pose proof (Bminus_correct 53 1024 f64p f64e mode_NE x y Hx Hy) as H. rewrite (rnd_bound l u) in H by exact Hb.
  destruct H as (H1 & H2 & _). split; [exact H2|exact H1].
Qed.
Lemma mul_rnd (x y l u : f64) : fin x -> fin y -> v l <= rnd (v x * v y) <= v u -> fin (nmul (n := K) x y) /\ v (nmul (n := K) x y) = rnd (v x * v y).
Proof.
  intros Hx Hy Hb. pose proof (Bmult_correct 53 1024 f64p f64e mode_NE x y) as H. rewrite (rnd_bound l u) in H by exact Hb.
  destruct H as (H1 & H2 & _). split; [|exact H1]. unfold fin in *. cbn [nmul F64]. rewrite H2, Hx, Hy. reflexivity.
Qed.
Lemma div_rnd (x y l u : f64) : fin x -> v y <> 0 -> v l <= rnd (v x / v y) <= v u -> fin (ndiv (n := K) x y) /\ v (ndiv (n := K) x y) = rnd (v x / v y).
Proof.
  intros Hx Hy Hb. pose proof (Bdiv_correct 53 1024 f64p f64e mode_NE x y Hy) as H. rewrite (rnd_bound l u) in H by exact Hb.
  destruct H as (H1 & H2 & _). split; [|exact H1]. unfold fin in *. cbn [ndiv F64]. rewrite H2. exact Hx.
Qed.
(* NaN goes through the operations *)
Lemma nan_add_l y : nadd (n := K) (B754_nan : f64) y = B754_nan. Proof. destruct y; reflexivity. Qed.
Lemma nan_add_r x : nadd (n := K) x (B754_nan : f64) = B754_nan. Proof. destruct x; reflexivity. Qed.
Lemma nan_sub_l y : nsub (n := K) (B754_nan : f64) y = B754_nan. Proof. destruct y; reflexivity. Qed.
Lemma nan_mul_l y : nmul (n := K) (B754_nan : f64) y = B754_nan. Proof. destruct y; reflexivity. Qed.
Lemma nan_div_l y : ndiv (n := K) (B754_nan : f64) y = B754_nan. Proof. destruct y; reflexivity. Qed.
Lemma nan_div_r x : ndiv (n := K) x (B754_nan : f64) = B754_nan. Proof. destruct x; reflexivity. Qed.
Lemma nan_lt_r x : nltb (n := K) x (B754_nan : f64) = false. Proof. destruct x as [| | |[]]; reflexivity. Qed.
Lemma nan_lt_l x : nltb (n := K) (B754_nan : f64) x = false. Proof. destruct x as [| | |[]]; reflexivity. Qed.

(* ---- the absolute value and the minimum ---- *)
Lemma zero_lit : nlit (n := K) 0 0 = (B754_zero false : f64). Proof. reflexivity. Qed.
Lemma abs_sign (h : f64) : nan (mABS (K := K) h) \/ (Bsign (mABS (K := K) h) = false \/ exists s, mABS (K := K) h = B754_zero s).
Proof.
  unfold mABS, n0. rewrite zero_lit. destruct h as [s|[]| |[] m e B]; cbn.
  - right. right. destruct s; eexists; reflexivity.
  - right. left. reflexivity.
  - right. left. reflexivity.
  - left. reflexivity.
  - right. left. reflexivity.
  - right. left. reflexivity.
Qed.
Lemma below_fin (a m : f64) : fin m -> nltb (n := K) a m = true -> (nan a \/ (Bsign a = false \/ exists s, a = B754_zero s)) -> fin a /\ 0 <= v a < v m.
Proof.
  intros Fm L S. assert (Fa : fin a).
  { destruct a as [s|[]| |]; try reflexivity; try (destruct m as [[]|[]| |[]]; discriminate L). destruct S as [S|[S|[s S]]]; discriminate S. }
  split; [exact Fa|]. rewrite ltb_ok in L by assumption. unfold Rltb in L. destruct (Rlt_dec (v a) (v m)); [|discriminate L]. split; [|assumption].
  destruct S as [S|[S|[s S]]]; [rewrite S in Fa; discriminate Fa| |rewrite S; apply Rle_refl].
  destruct a as [| | |s m0 e B]; try (apply Rle_refl). cbn in S. subst s. apply F2R_ge_0. cbn. lia.
Qed.
Lemma capped (h m : f64) : fin m -> 0 <= v m -> fin (mMIN (K := K) (mABS (K := K) h) m) /\ 0 <= v (mMIN (K := K) (mABS (K := K) h) m) <= v m.
Proof.
  intros Fm Pm. unfold mMIN. destruct (nltb (n := K) (mABS (K := K) h) m) eqn:E.
  - destruct (below_fin _ m Fm E (abs_sign h)) as (A & B). split; [exact A|lra].
  - split; [exact Fm|lra].
Qed.
Lemma one_val : fin (f_lit 1 0) /\ v (f_lit 1 0) = 1.
Proof. change (f_lit 1 0) with (f_of 1). apply f_of_val. discriminate. Qed.
Lemma times_one (x : f64) : fin x -> fin (nmul (n := K) x (f_lit 1 0)) /\ v (nmul (n := K) x (f_lit 1 0)) = v x.
Proof.
  intros Fx. destruct one_val as [F1 V1]. assert (E : rnd (v x * v (f_lit 1 0)) = v x) by (rewrite V1, Rmult_1_r; apply rnd_v).
  destruct (mul_rnd x (f_lit 1 0) x x Fx F1) as [A B]; [rewrite E; lra|]. split; [exact A|]. now rewrite B.
Qed.
(* the literal 1.0001 *)
Lemma lit_10001 : fin (f_lit 10001 (-4)) /\ 1 + 99999 / 1000000000 <= v (f_lit 10001 (-4)) <= 1 + 1 / 9000.
Proof.
  destruct (val_of (f_lit 10001 (-4)) 4504049987333233 (-52)) as [FL VL]. { vm_compute. reflexivity. }
  split; [exact FL|]. rewrite VL. change (bpow radix2 (-52)) with (/ IZR (2 ^ 52)). change (2 ^ 52)%Z with 4503599627370496%Z. lra.
Qed.

(* ---- the last step ---- *)
Section End.
Variable e : f64.
Hypothesis Fe : fin e.
Hypothesis He : 0 < v e.
Hypothesis Hmax : v e <= bpow radix2 1020.
Notation u := (ulp radix2 fe (v e)).
Lemma succ_fin : fin (Bsucc e) /\ v (Bsucc e) = v e + u.
Proof.
  pose proof (Bsucc_correct 53 1024 f64p f64e e Fe) as C. rewrite Rlt_bool_true in C.
  - destruct C as (C1 & C2 & _). split; [exact C2|]. rewrite C1. apply succ_eq_pos. lra.
  - rewrite succ_eq_pos by lra. apply Rle_lt_trans with (v e + v e).
    + apply Rplus_le_compat_l. apply ulp_le_id; [lra|apply fmt].
    + apply Rle_lt_trans with (2 * bpow radix2 1020); [lra|]. change 2 with (bpow radix2 1). rewrite <- bpow_plus. apply bpow_lt. reflexivity.
Qed.
Lemma pred_fin : fin (Bpred e) /\ v (Bpred e) = pred radix2 fe (v e).
Proof.
  pose proof (Bpred_correct 53 1024 f64p f64e e Fe) as C. rewrite Rlt_bool_true in C.
  - destruct C as (C1 & C2 & _). split; assumption.
  - apply Rlt_le_trans with 0; [|apply pred_ge_0; [apply fe_ok|exact He|apply fmt]]. pose proof (bpow_gt_0 radix2 1024). lra.
Qed.
Lemma u_le : u <= v e. Proof. apply ulp_le_id; [exact He|apply fmt]. Qed.
Lemma u_pos : 0 <= u. Proof. apply ulp_ge_0. Qed.
(* x in [0, succ e]; h = e - x *)
Lemma near (x : f64) : fin x -> 0 <= v x <= v (Bsucc e) ->
  let h := nsub (n := K) e x in
  fin h /\ v (Bpred e) <= rnd (v x + v h) <= v (Bsucc e) /\ (v e <= 2 * v x -> rnd (v x + v h) = v e) /\ (v x <= v e -> 0 <= v h).
Proof.
  cbv zeta. intros Fx Bx. destruct succ_fin as [Fs Vs]. destruct pred_fin as [Fp Vp]. pose proof u_le as UL. pose proof u_pos as UP.
  assert (PL : v (Bpred e) <= v e). { rewrite Vp. apply pred_le_id. }
  assert (EX : v e <= 2 * v x -> rnd (v e - v x) = v e - v x).
  { intros H. apply round_generic; [apply valid_rnd_round_mode|]. apply sterbenz; [apply fe_ok|apply fexp_monotone|apply fmt|apply fmt|lra]. }
  destruct (Rle_lt_dec (v x) (v e)) as [L|L].
  - assert (B0 : 0 <= rnd (v e - v x)). { rewrite <- rnd_0. apply rnd_le. lra. }
    assert (B1 : rnd (v e - v x) <= v e). { apply rnd_upper. lra. }
    destruct (sub_rnd e x (B754_zero false) e Fe Fx) as [A B]; [cbn [B2R]; lra|].
    split; [exact A|]. rewrite B. split; [|split; [intros H; rewrite (EX H); replace (v x + (v e - v x)) with (v e) by ring; apply rnd_v|intros _; exact B0]].
    pose proof (error_le_half_ulp radix2 fe (fun n => negb (Z.even n)) (v e - v x)) as Q.
    change (round radix2 fe (Znearest (fun n => negb (Z.even n))) (v e - v x)) with (rnd (v e - v x)) in Q. apply Rabs_le_inv in Q.
    split.
    + destruct (Rle_lt_dec (v e - v x) (v (Bpred e))) as [C|C].
      * assert (U : ulp radix2 fe (v e - v x) <= ulp radix2 fe (v (Bpred e))).
        { apply ulp_le; [apply fe_ok|apply fexp_monotone|]. rewrite !Rabs_right by lra. lra. }
        assert (P : v (Bpred e) + ulp radix2 fe (v (Bpred e)) = v e).
        { rewrite Vp. apply pred_plus_ulp; [apply fe_ok|exact He|apply fmt]. }
        pose proof (ulp_ge_0 radix2 fe (v (Bpred e))). apply rnd_lower. lra.
      * apply rnd_lower. assert (v (Bpred e) <= rnd (v e - v x)) by (apply rnd_lower; lra). lra.
    + assert (U : ulp radix2 fe (v e - v x) <= u). { apply ulp_le; [apply fe_ok|apply fexp_monotone|]. rewrite !Rabs_right by lra. lra. }
      apply rnd_upper. rewrite Vs. lra.
  - assert (H2 : v e <= 2 * v x) by lra. pose proof (EX H2) as E2.
    assert (v (Bopp e) = - v e) as VO by apply B2R_Bopp.
    destruct (sub_rnd e x (Bopp e) e Fe Fx) as [A B]; [rewrite E2, VO; lra|].
    split; [exact A|]. rewrite B, E2. replace (v x + (v e - v x)) with (v e) by ring. rewrite rnd_v.
    split; [lra|]. split; [intros _; reflexivity|lra].
Qed.
(* the test (x + q*1.0001 - e)*1 > 0 fails *)
Lemma not_past (x q : f64) : fin x -> fin q -> 0 <= v x <= v (Bsucc e) -> 0 <= v q <= v e ->
  nltb (n := K) (nlit 0 0) (nmul (n := K) (nsub (n := K) (nadd (n := K) x (nmul (n := K) q (nlit 10001 (-4)))) e) (f_lit 1 0)) = false ->
  rnd (v x + rnd (v q * v (f_lit 10001 (-4)))) <= v e /\ v q <= rnd (v q * v (f_lit 10001 (-4))) /\ v x <= rnd (v x + v q) <= v e.
Proof.
  intros Fx Fq Bx Bq T. destruct succ_fin as [Fs Vs]. pose proof u_le as UL. destruct lit_10001 as [FL VL]. rewrite zero_lit in T. cbn [nlit F64] in T.
  assert (GE : v q <= rnd (v q * v (f_lit 10001 (-4)))). { apply rnd_lower. rewrite <- (Rmult_1_r (v q)) at 1. apply Rmult_le_compat_l; lra. }
  assert (TW : forall k, (0 <= k <= 1022)%Z -> exists t : f64, fin t /\ v t = bpow radix2 k).
  { intros k Hk. exists (binary_normalize 53 1024 f64p f64e mode_NE 1 k false).
    pose proof (binary_normalize_correct 53 1024 f64p f64e mode_NE 1 k false) as C. cbv zeta in C.
    assert (E : F2R (Float radix2 1 k) = bpow radix2 k) by (unfold F2R; cbn; ring). rewrite E in C.
    rewrite (round_generic radix2 fe (round_mode mode_NE) (bpow radix2 k)) in C. 2:{ apply generic_format_bpow. unfold SpecFloat.fexp, SpecFloat.emin. lia. }
    rewrite Rlt_bool_true in C. 2:{ rewrite Rabs_right by (apply Rle_ge, bpow_ge_0). apply bpow_lt. lia. }
    destruct C as (C1 & C2 & _). split; assumption. }
  destruct (TW 1021%Z) as (t1 & Ft1 & Vt1); [lia|]. destruct (TW 1022%Z) as (t2 & Ft2 & Vt2); [lia|]. clear TW.
  change 1021%Z with (1 + 1020)%Z in Vt1. change 1022%Z with (2 + 1020)%Z in Vt2. rewrite bpow_plus in Vt1, Vt2. change (bpow radix2 1) with 2 in Vt1. change (bpow radix2 2) with 4 in Vt2.
  assert (P1 : rnd (v q * v (f_lit 10001 (-4))) <= v t1). { apply rnd_upper. rewrite Vt1. rewrite (Rmult_comm 2). apply Rmult_le_compat; lra. }
  destruct (mul_rnd q (f_lit 10001 (-4)) (B754_zero false) t1 Fq FL) as [Fp Vp]; [cbn [B2R]; lra|].
  set (p := nmul (n := K) q (f_lit 10001 (-4))) in *. rewrite <- Vp in GE, P1 |- *.
  assert (P2 : v x <= rnd (v x + v p) <= v t2). { split; [apply rnd_lower|apply rnd_upper]; lra. }
  destruct (add_rnd x p x t2 Fx Fp P2) as [Fa Va]. set (a := nadd (n := K) x p) in *. rewrite <- Va in P2 |- *.
  assert (VO : v (Bopp t2) = - v t2) by apply B2R_Bopp.
  assert (P3 : v (Bopp t2) <= rnd (v a - v e) <= v t2). { split; [apply rnd_lower|apply rnd_upper]; lra. }
  destruct (sub_rnd a e (Bopp t2) t2 Fa Fe P3) as [Fd Vd]. set (d := nsub (n := K) a e) in *.
  destruct (times_one d Fd) as [Fd1 Vd1]. rewrite ltb_ok in T; [|reflexivity|exact Fd1]. rewrite Vd1 in T. cbn [B2R] in T.
  unfold Rltb in T. destruct (Rlt_dec 0 (v d)) as [|N]; [discriminate T|]. apply Rnot_lt_le in N.
  assert (LE : v a <= v e).
  { destruct (Rle_lt_dec (v a) (v e)) as [|C]; [assumption|exfalso].
    assert (NZ : rnd (v a + v (Bopp e)) <> 0).
    { apply round_plus_neq_0; try apply fmt; [apply fe_ok|intros k; unfold SpecFloat.fexp, SpecFloat.emin; lia|apply valid_rnd_round_mode|]. rewrite B2R_Bopp. lra. }
    rewrite B2R_Bopp in NZ. change (v a + - v e) with (v a - v e) in NZ. rewrite <- Vd in NZ.
    assert (0 <= v d). { rewrite Vd, <- rnd_0. apply rnd_le. lra. } lra. }
  split; [exact LE|]. split; [exact GE|]. split; [apply rnd_lower; lra|].
  apply Rle_trans with (v a); [|exact LE]. rewrite Va. apply rnd_le. lra.
Qed.
End End.
(* ---- the step is divided by a factor of at least 1 ---- *)
Lemma shrunk (x h f l u : f64) : fin x -> fin h -> 1 <= v f -> v l <= v x <= v u -> v l <= rnd (v x + v h) <= v u ->
  fin (ndiv (n := K) h f) /\ v l <= rnd (v x + v (ndiv (n := K) h f)) <= v u /\ Rabs (v (ndiv (n := K) h f)) <= Rabs (v h).
Proof.
  intros Fx Fh Pf Bx Bh.
  assert (I1 : 0 < / v f <= 1). { split; [apply Rinv_0_lt_compat; lra|]. rewrite <- Rinv_1. apply Rinv_le_contravar; lra. }
  destruct (Rle_lt_dec 0 (v h)) as [S0|S0].
  - assert (Q : 0 <= v h / v f <= v h). { unfold Rdiv. split; [apply Rmult_le_pos; lra|]. rewrite <- (Rmult_1_r (v h)) at 2. apply Rmult_le_compat_l; lra. }
    assert (Z0 : 0 <= rnd (v h / v f) <= v h). { split; [rewrite <- rnd_0; apply rnd_le; lra|apply rnd_upper; lra]. }
    destruct (div_rnd h f (B754_zero false) h Fh) as [A B]; [lra|exact Z0|]. split; [exact A|]. rewrite B. split; [|rewrite !Rabs_right by lra; lra].
    split; [apply rnd_lower; lra|]. apply Rle_trans with (2 := proj2 Bh). apply rnd_le. lra.
  - assert (Q : v h <= v h / v f <= 0). { unfold Rdiv. split; [|assert (0 <= - v h * / v f) by (apply Rmult_le_pos; lra); lra]. assert (- v h * / v f <= - v h * 1) by (apply Rmult_le_compat_l; lra). lra. }
    assert (Z0 : v h <= rnd (v h / v f) <= 0). { split; [apply rnd_lower; lra|rewrite <- rnd_0; apply rnd_le; lra]. }
    destruct (div_rnd h f h (B754_zero false) Fh) as [A B]; [lra|exact Z0|]. split; [exact A|]. rewrite B. split; [|rewrite !Rabs_left1 by lra; lra].
    split; [|apply rnd_upper; lra]. apply Rle_trans with (1 := proj1 Bh). apply rnd_le. lra.
Qed.
End S.
