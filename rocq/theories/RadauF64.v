(* The driver of Radau5 in IEEE double precision: the time variable. *)
From Coq Require Import Reals Lra List.
From Flocq Require Import Core BinarySingleNaN Relative.
From Verif Require Import Base HessModel CMacros RodasProofs RadauModel RadauProofs F64 StepF64 RodasF64.
Open Scope R_scope.

Section N.
Variable pow : f64 -> f64 -> f64.
Notation K := (F64 pow).
Notation one := (f_lit 1 0).
Notation pinf := (B754_infinity false : f64).
(* ---- quotients of positive numbers ---- *)
Definition plus (c : f64) : Prop := (fin c /\ Bsign c = false) \/ c = pinf.
Lemma plus_ge (c : f64) : fin c -> Bsign c = false -> 0 <= v c.
Proof. destruct c as [| | |s m e B]; intros F H; try discriminate F; [apply Rle_refl|]. cbn in H. subst s. apply F2R_ge_0. cbn. lia. Qed.
Lemma inf_of (c : f64) : B2SF c = SpecFloat.S754_infinity false -> c = pinf.
Proof. destruct c as [|[]| |]; intros H; try discriminate H. reflexivity. Qed.
Lemma fin_nonan (c : f64) : fin c -> is_nan c = false. Proof. destruct c; intros F; try discriminate F; reflexivity. Qed.
Lemma plus_mul (a b : f64) : fin a -> fin b -> 0 < v a -> 0 < v b -> plus (nmul (n := K) a b).
Proof.
  intros Fa Fb Pa Pb. pose proof (Bmult_correct 53 1024 f64p f64e mode_NE a b) as C. rewrite (pos_sign a Pa), (pos_sign b Pb) in C. cbn [nmul F64]. destruct (Rlt_bool _ _).
  - left. destruct C as (_ & C2 & C3). assert (F : fin (Bmult mode_NE a b)). { unfold fin in *. rewrite C2, Fa, Fb. reflexivity. } split; [exact F|]. apply C3. now apply fin_nonan.
  - right. apply inf_of. exact C.
Qed.
Lemma plus_div (c d : f64) : plus c -> fin d -> 0 < v d -> plus (ndiv (n := K) c d).
Proof.
  intros Pc Fd Pd. pose proof (pos_sign d Pd) as Sd. destruct Pc as [[Fc Sc]| ->].
  - assert (N : v d <> 0) by lra. pose proof (Bdiv_correct 53 1024 f64p f64e mode_NE c d N) as C. rewrite Sc, Sd in C. cbn [ndiv F64]. destruct (Rlt_bool _ _).
    + left. destruct C as (_ & C2 & C3). assert (F : fin (Bdiv mode_NE c d)). { unfold fin in *. now rewrite C2. } split; [exact F|]. apply C3. now apply fin_nonan.
    + right. apply inf_of. exact C.
  - right. destruct d as [| | |s m e B]; try discriminate Fd; [cbn [B2R] in Pd; lra|]. cbn in Sd. subst s. reflexivity.
Qed.
Lemma min_plus (s z : f64) : fin s -> 0 < v s -> plus z -> let f := mMIN (K := K) s z in fin f /\ Bsign f = false /\ v f <= v s.
Proof.
  cbv zeta. intros Fs Ps Pz. unfold mMIN. destruct (nltb (n := K) s z) eqn:E.
  - split; [exact Fs|]. split; [now apply pos_sign|lra].
  - destruct Pz as [[Fz Sz]| ->].
    + split; [exact Fz|]. split; [exact Sz|]. destruct (Rle_lt_dec (v z) (v s)) as [|L]; [assumption|]. apply (bltb_spec pow) in L; [congruence|assumption|assumption].
    + exfalso. destruct s as [| | |[] ? ? ?]; try discriminate Fs; discriminate E.
Qed.
(* ---- the factor of a rejected step ---- *)
Lemma eighth_val : fin (d_FACR (K := K)) /\ v (d_FACR (K := K)) <= 1.
Proof.
  destruct (val_of (d_FACR (K := K)) 4503599627370496 (-55)) as [A B]. { vm_compute. reflexivity. }
  split; [exact A|]. rewrite B. change (bpow radix2 (-55)) with (/ IZR (2 ^ 55)). change (2 ^ 55)%Z with 36028797018963968%Z. lra.
Qed.
Lemma clamp_rd (z : f64) : (nan z \/ (fin z /\ 1 <= v z) \/ z = pinf) ->
  let f := mMAX (K := K) (d_FACR (K := K)) (mMIN (K := K) (d_FACL (K := K)) z) in nan f \/ (fin f /\ 1 <= v f).
Proof.
  cbv zeta. destruct eighth_val as (F6 & V6). destruct five_val as (F5 & V5). unfold d_FACL. cbn [nlit F64].
  assert (MX : forall y : f64, fin y -> 1 <= v y -> mMAX (K := K) (d_FACR (K := K)) y = y).
  { intros y Fy Vy. unfold mMAX. destruct (nltb (n := K) y (d_FACR (K := K))) eqn:E; [|reflexivity]. apply (bltb_spec pow) in E; [lra|assumption|assumption]. }
  intros [N|[[F V]| ->]].
  - left. rewrite N. unfold mMIN. rewrite nan_lt_r. unfold mMAX. rewrite nan_lt_l. reflexivity.
  - right. unfold mMIN. destruct (nltb (n := K) (f_lit 5 0) z); rewrite MX; try assumption; try lra; split; try assumption; lra.
  - right. assert (E : mMIN (K := K) (f_lit 5 0) pinf = f_lit 5 0). { unfold mMIN. destruct (f_lit 5 0) as [[]|[]| |[]]; try discriminate F5; reflexivity. }
    rewrite E, MX by (assumption || lra). split; [assumption|lra].
Qed.
Lemma big_div (r fac : f64) : (nan r \/ (fin r /\ 1 <= v r) \/ r = pinf) -> fin fac -> Bsign fac = false -> v fac <= 1 ->
  let z := ndiv (n := K) r fac in nan z \/ (fin z /\ 1 <= v z) \/ z = pinf.
Proof.
  cbv zeta. intros Hr Ff Sf Lf. destruct one_val as [_ V1]. destruct Hr as [N|[[Fr Vr]| ->]].
  - left. rewrite N. apply nan_div_l.
  - right. assert (Pr : 0 < v r) by lra. pose proof (pos_sign r Pr) as Sr. pose proof (plus_ge fac Ff Sf) as [Pf|Zf].
    + assert (N : v fac <> 0) by lra. pose proof (Bdiv_correct 53 1024 f64p f64e mode_NE r fac N) as C. cbn [ndiv F64].
      assert (Q : 1 <= v r / v fac). { apply (Rmult_le_reg_r (v fac)); [lra|]. unfold Rdiv. rewrite Rmult_assoc, Rinv_l, Rmult_1_r by lra. lra. }
      destruct (Rlt_bool _ _).
      * left. destruct C as (C1 & C2 & _). split; [unfold fin in *; now rewrite C2|]. rewrite C1, <- V1. apply rnd_lower. rewrite V1. exact Q.
      * right. rewrite Sr, Sf in C. apply inf_of. exact C.
    + right. destruct fac as [s| | |s m e B]; try discriminate Ff.
      * cbn in Sf. subst s. destruct r as [s| | |s m e B]; try discriminate Fr; [cbn [B2R] in Vr; lra|]. cbn in Sr. subst s. reflexivity.
      * exfalso. symmetry in Zf. apply eq_0_F2R in Zf. cbn in Sf. subst s. discriminate Zf.
  - right. right. destruct fac as [s| | |s m e B]; try discriminate Ff; cbn in Sf; subst s; reflexivity.
Qed.
Lemma roots (err : f64) : nltb (n := K) err one = false -> let r := nsqrt (n := K) (nsqrt (n := K) err) in nan r \/ (fin r /\ 1 <= v r) \/ r = pinf.
Proof.
  cbv zeta. intros L. destruct one_val as [F1 V1]. destruct err as [s|s| |s m e B] eqn:EE.
  - exfalso. rewrite ltb_ok in L; [|reflexivity|exact F1]. rewrite V1 in L. unfold Rltb in L. cbn [B2R] in L. destruct (Rlt_dec 0 1); [discriminate L|lra].
  - destruct s; [exfalso; vm_compute in L; discriminate L|]. right. right. reflexivity.
  - left. reflexivity.
  - rewrite <- EE in *. assert (Fr : fin err) by (rewrite EE; reflexivity). clear EE.
    assert (V : 1 <= v err). { rewrite ltb_ok in L by assumption. rewrite V1 in L. unfold Rltb in L. destruct (Rlt_dec (v err) 1); [discriminate L|lra]. }
    destruct (sqrt_big pow err Fr V) as [Fa Va]. destruct (sqrt_big pow _ Fa Va) as [Fb Vb]. right. left. split; assumption.
Qed.
Lemma quot_ge (safe : f64) nit newt (err : f64) : fin safe -> 0 < v safe <= 1 -> (1 <= nit <= 2 ^ 50)%Z -> (0 <= newt <= nit)%Z -> nltb (n := K) err one = false ->
  let fac := mMIN (K := K) safe (ndiv (n := K) (nmul (n := K) safe (nlit (n := K) (1 + 2 * nit) 0)) (nlit (n := K) (newt + 2 * nit) 0)) in
  let q := mMAX (K := K) (d_FACR (K := K)) (mMIN (K := K) (d_FACL (K := K)) (ndiv (n := K) (nsqrt (n := K) (nsqrt (n := K) err)) fac)) in
  nan q \/ (fin q /\ 1 <= v q).
Proof.
  cbv zeta. intros Fs Ps Hn Hw L. cbn [nlit F64].
  assert (LI : forall k, (1 <= k <= 2 ^ 53)%Z -> fin (f_lit k 0) /\ 0 < v (f_lit k 0)).
  { intros k Hk. assert (E : f_lit k 0 = f_of k). { unfold f_lit. cbn [Z.leb Z.compare]. f_equal. change (10 ^ 0)%Z with 1%Z. lia. }
    rewrite E. destruct (f_of_val k) as [A B]; [lia|]. split; [exact A|]. rewrite B. apply IZR_lt. lia. }
  change (2 ^ 50)%Z with 1125899906842624%Z in Hn. change (2 ^ 53)%Z with 9007199254740992%Z in LI.
  destruct (LI (1 + 2 * nit)%Z) as [Fa Va]; [lia|]. destruct (LI (newt + 2 * nit)%Z) as [Fb Vb]; [lia|].
  destruct (min_plus safe _ Fs (proj1 Ps) (plus_div _ _ (plus_mul safe _ Fs Fa (proj1 Ps) Va) Fb Vb)) as (Ff & Sf & Lf).
  apply clamp_rd. apply big_div; [now apply roots|exact Ff|exact Sf|lra].
Qed.
(* ---- keeping the step: fl(b/a) >= 1 means a <= b ---- *)
Lemma ratio_ge (a b : f64) : fin a -> fin b -> 0 <= v a -> 0 <= v b -> nleb (n := K) one (ndiv (n := K) b a) = true -> fin (ndiv (n := K) b a) -> v a <= v b.
Proof.
  intros Fa Fb Pa Pb L Fq. destruct one_val as [F1 V1]. apply (bleb_spec pow) in L; [|assumption|assumption]. rewrite V1 in L.
  destruct (Req_dec (v a) 0) as [->|Na]; [exact Pb|]. destruct (div_val pow b a Na Fq) as [_ Vq].
  destruct (Rle_lt_dec (v a) (v b)) as [|C]; [assumption|exfalso].
  assert (U : v b + ulp radix2 fe (v b) <= v a). { rewrite <- succ_eq_pos by lra. apply succ_le_lt; [apply fe_ok|apply fmt|apply fmt|exact C]. }
  assert (U2 : v b * bpow radix2 (-53) <= ulp radix2 fe (v b)).
  { destruct (Req_dec (v b) 0) as [-> |Nb]; [rewrite Rmult_0_l; apply ulp_ge_0|]. rewrite <- (Rabs_right (v b)) at 1 by lra. apply Rlt_le. apply (ulp_FLT_gt radix2 (-1074) 53). }
  change (bpow radix2 (-53)) with (/ IZR (2 ^ 53)) in U2. change (2 ^ 53)%Z with 9007199254740992%Z in U2.
  set (q := v b / v a) in *. assert (Q : v b = q * v a) by (unfold q; field; lra). assert (Q0 : 0 <= q). { unfold q, Rdiv. apply Rmult_le_pos; [lra|]. apply Rlt_le, Rinv_0_lt_compat. lra. }
  assert (Q1 : q * (1 + / 9007199254740992) <= 1). { apply (Rmult_le_reg_r (v a)); [lra|]. rewrite Rmult_1_l. replace (q * (1 + / 9007199254740992) * v a) with (q * v a + q * v a * / 9007199254740992) by ring. rewrite <- Q. lra. }
  destruct (Rle_lt_dec q (1 / 2)) as [C2|C2].
  - assert (H : exists t : f64, v t = 1 / 2). { destruct (val_of (f_lit 5 (-1)) 4503599627370496 (-53)) as [_ B]; [vm_compute; reflexivity|]. exists (f_lit 5 (-1)). rewrite B. change (bpow radix2 (-53)) with (/ IZR (2 ^ 53)). change (2 ^ 53)%Z with 9007199254740992%Z. lra. }
    destruct H as [t Ht]. assert (rnd q <= v t) by (apply rnd_upper; lra). lra.
  - pose proof (error_le_half_ulp radix2 fe (fun n => negb (Z.even n)) q) as E.
    change (round radix2 fe (Znearest (fun n => negb (Z.even n))) q) with (rnd q) in E. apply Rabs_le_inv in E.
    assert (UQ : ulp radix2 fe q = bpow radix2 (-53)).
    { rewrite ulp_neq_0 by lra. unfold cexp. replace (mag radix2 q : Z) with 0%Z; [reflexivity|]. symmetry. apply mag_unique. rewrite Rabs_right by lra. change (bpow radix2 (0 - 1)) with (/ 2). change (bpow radix2 0) with 1. lra. }
    rewrite UQ in E. change (bpow radix2 (-53)) with (/ IZR (2 ^ 53)) in E. change (2 ^ 53)%Z with 9007199254740992%Z in E. lra.
Qed.

(* ---- the test for the end of the interval ---- *)
Lemma rd_err a : Rabs (rnd a - a) <= Rabs a * / 9007199254740992 + bpow radix2 (-1075).
Proof.
  destruct (error_N_FLT radix2 (-1074) 53 eq_refl (fun n => negb (Z.even n)) a) as (eps & eta & H1 & H2 & _ & H3).
  change (round radix2 (FLT_exp (-1074) 53) (Znearest (fun n => negb (Z.even n))) a) with (rnd a) in H3. rewrite H3.
  replace (a * (1 + eps) + eta - a) with (a * eps + eta) by ring. eapply Rle_trans; [apply Rabs_triang|]. rewrite Rabs_mult. apply Rplus_le_compat.
  - apply Rmult_le_compat_l; [apply Rabs_pos|]. eapply Rle_trans; [exact H1|]. change (bpow radix2 (Z.opp 53 + 1)) with (/ IZR (2 ^ 52)). change (2 ^ 52)%Z with 4503599627370496%Z. lra.
  - eapply Rle_trans; [exact H2|]. change (-1075)%Z with (-1 + -1074)%Z. rewrite bpow_plus. change (bpow radix2 (-1)) with (/ 2). lra.
Qed.
Lemma tenth_val : fin (f_lit 1 (-1)) /\ 999 / 10000 <= v (f_lit 1 (-1)) <= 1001 / 10000.
Proof.
  destruct (val_of (f_lit 1 (-1)) 7205759403792794 (-56)) as [A B]. { vm_compute. reflexivity. }
  split; [exact A|]. rewrite B. change (bpow radix2 (-56)) with (/ IZR (2 ^ 56)). change (2 ^ 56)%Z with 72057594037927936%Z. lra.
Qed.
Lemma uround_val : fin (f_lit 1 (-16)) /\ 0 <= v (f_lit 1 (-16)) <= 1001 / 1000 / 10000000000000000.
Proof.
  destruct (val_of (f_lit 1 (-16)) 8112963841460668 (-106)) as [A B]. { vm_compute. reflexivity. }
  split; [exact A|]. rewrite B. change (bpow radix2 (-106)) with (/ IZR (2 ^ 106)). change (2 ^ 106)%Z with 81129638414606681695789005144064%Z. lra.
Qed.
Section End_.
Variable e : f64.
Hypothesis Fe : fin e.
Hypothesis He : 0 < v e.
Hypothesis Hmax : v e <= bpow radix2 1020.
Lemma big4 : exists t : f64, fin t /\ 4 * v e <= v t.
Proof.
  exists (binary_normalize 53 1024 f64p f64e mode_NE 1 1022 false).
  pose proof (binary_normalize_correct 53 1024 f64p f64e mode_NE 1 1022 false) as C. cbv zeta in C.
  assert (E : F2R (Float radix2 1 1022) = bpow radix2 1022) by (unfold F2R; cbn [Fnum Fexp]; ring). rewrite E in C.
  rewrite (round_generic radix2 fe (round_mode mode_NE) (bpow radix2 1022)) in C. 2:{ apply generic_format_bpow. unfold SpecFloat.fexp, SpecFloat.emin. lia. }
  rewrite Rlt_bool_true in C. 2:{ rewrite Rabs_right by (apply Rle_ge, bpow_ge_0). apply bpow_lt. lia. }
  destruct C as (C1 & C2 & _). split; [exact C2|]. rewrite C1. change 1022%Z with (2 + 1020)%Z. rewrite bpow_plus. change (bpow radix2 2) with 4. lra.
Qed.
Notation endtest x := (nleb (n := K) (nmul (n := K) (nlit (n := K) 1 (-1)) (mABS_diff (K := K) e x)) (nmul (n := K) (mABS (K := K) x) (rd_uround (K := K)))).
Definition close (a : R) : Prop := 0 <= v e - a <= 2 / 1000000000000000 * a + bpow radix2 (-1000).
Lemma abs_pos (x : f64) : fin x -> 0 <= v x -> mABS (K := K) x = x.
Proof.
  intros F P. unfold mABS, n0. rewrite zero_lit. replace (nleb (n := K) (B754_zero false : f64) x) with true; [reflexivity|]. symmetry. apply (bleb_spec pow); [reflexivity|exact F|exact P].
Qed.
Lemma test_close (x : f64) : fin x -> 0 <= v x <= v e -> endtest x = true -> close (v x).
Proof.
  intros Fx Bx T. destruct tenth_val as [Fc Vc]. destruct uround_val as [Fu Vu].
  assert (B0 : 0 <= rnd (v e - v x)). { rewrite <- rnd_0. apply rnd_le. lra. }
  assert (B1 : rnd (v e - v x) <= v e). { apply rnd_upper. lra. }
  destruct (sub_rnd pow e x (B754_zero false) e Fe Fx) as [A B]; [cbn [B2R]; lra|].
  unfold mABS_diff, n0 in T. rewrite zero_lit in T.
  replace (nleb (n := K) (B754_zero false : f64) (nsub (n := K) e x)) with true in T. 2:{ symmetry. apply (bleb_spec pow); [reflexivity|exact A|]. rewrite B. exact B0. }
  rewrite (abs_pos x Fx) in T by lra. unfold rd_uround in T. cbn [nlit F64] in T. set (d := nsub (n := K) e x) in *.
  assert (M1 : 0 <= v (f_lit 1 (-1)) * v d <= v d). { rewrite B. split; [apply Rmult_le_pos; lra|]. rewrite <- (Rmult_1_l (rnd _)) at 2. apply Rmult_le_compat_r; lra. }
  assert (M2 : 0 <= v x * v (f_lit 1 (-16)) <= v x). { split; [apply Rmult_le_pos; lra|]. rewrite <- (Rmult_1_r (v x)) at 2. apply Rmult_le_compat_l; lra. }
  destruct (mul_rnd pow (f_lit 1 (-1)) d (B754_zero false) d Fc A) as [FA VA]. { split; [cbn [B2R]; rewrite <- rnd_0; apply rnd_le|apply rnd_upper]; lra. }
  destruct (mul_rnd pow x (f_lit 1 (-16)) (B754_zero false) x Fx Fu) as [FB VB]. { split; [cbn [B2R]; rewrite <- rnd_0; apply rnd_le|apply rnd_upper]; lra. }
  apply (bleb_spec pow) in T; [|exact FA|exact FB]. rewrite VA, VB in T.
  pose proof (rd_err (v e - v x)) as E1. pose proof (rd_err (v (f_lit 1 (-1)) * v d)) as E2. pose proof (rd_err (v x * v (f_lit 1 (-16)))) as E3.
  rewrite <- B in E1. rewrite (Rabs_right (v e - v x)) in E1 by lra. rewrite (Rabs_right (v (f_lit 1 (-1)) * v d)) in E2 by lra. rewrite (Rabs_right (v x * _)) in E3 by lra.
  apply Rabs_le_inv in E1. apply Rabs_le_inv in E2. apply Rabs_le_inv in E3.
  assert (H1 : 999 / 10000 * v d <= v (f_lit 1 (-1)) * v d) by (apply Rmult_le_compat_r; lra).
  assert (H2 : v x * v (f_lit 1 (-16)) <= v x * (1001 / 1000 / 10000000000000000)) by (apply Rmult_le_compat_l; lra).
  assert (H3 : 0 <= bpow radix2 (-1075) <= bpow radix2 (-1000) / 1000000).
  { split; [apply bpow_ge_0|]. change (-1075)%Z with (-75 + -1000)%Z. rewrite bpow_plus. change (bpow radix2 (-75)) with (/ IZR (2 ^ 75)). change (2 ^ 75)%Z with 37778931862957161709568%Z. pose proof (bpow_ge_0 radix2 (-1000)). lra. }
  unfold close. lra.
Qed.
Lemma test_past (x : f64) : fin x -> v e < v x <= v (Bsucc e) -> endtest x = true.
Proof.
  intros Fx Bx. destruct tenth_val as [Fc Vc]. destruct uround_val as [Fu Vu]. destruct (near pow e Fe He Hmax x Fx) as (Fd & _); [lra|].
  assert (Vd : v (nsub (n := K) e x) < 0).
  { assert (N : rnd (v e + v (Bopp x)) <> 0).
    { apply Plus_error.round_plus_neq_0; try apply fmt; [apply fe_ok|intros k; unfold SpecFloat.fexp, SpecFloat.emin; lia|apply valid_rnd_round_mode|]. rewrite B2R_Bopp. lra. }
    rewrite B2R_Bopp in N. change (v e + - v x) with (v e - v x) in N.
    assert (L : rnd (v e - v x) <= 0). { rewrite <- rnd_0. apply rnd_le. lra. }
    assert (L2 : v (Bopp x) <= rnd (v e - v x)). { apply rnd_lower. rewrite B2R_Bopp. lra. }
    destruct (sub_rnd pow e x (Bopp x) (B754_zero false) Fe Fx) as [A B]; [cbn [B2R]; split; [exact L2|exact L]|]. rewrite B. lra. }
  unfold mABS_diff, n0. rewrite zero_lit. replace (nleb (n := K) (B754_zero false : f64) (nsub (n := K) e x)) with false.
  2:{ symmetry. destruct (nleb _ _) eqn:E; [|reflexivity]. apply (bleb_spec pow) in E; [cbn [B2R] in E; lra|reflexivity|exact Fd]. }
  rewrite (abs_pos x Fx) by lra. unfold rd_uround. cbn [nlit F64 nopp].
  destruct big4 as (t & Ft & Vt). destruct (succ_fin e Fe He Hmax) as [_ VS]. pose proof (u_le e He) as UL.
  assert (VO : v (Bopp t) = - v t) by apply B2R_Bopp. assert (VE : v (Bopp e) = - v e) by apply B2R_Bopp. assert (FO : fin (Bopp e)) by (unfold fin; rewrite is_finite_Bopp; exact Fe).
  destruct (sub_rnd pow (Bopp e) x (Bopp t) (B754_zero false) FO Fx) as [A B]. { rewrite VE. split; [apply rnd_lower|cbn [B2R]; rewrite <- rnd_0; apply rnd_le]; lra. }
  set (g := nsub (n := K) (Bopp e) x) in *. assert (G : v (Bopp t) <= v g <= 0). { rewrite B, VE. split; [apply rnd_lower|rewrite <- rnd_0; apply rnd_le]; lra. }
  assert (M1 : v g <= v (f_lit 1 (-1)) * v g <= 0). { assert (0 <= v (f_lit 1 (-1)) * - v g) by (apply Rmult_le_pos; lra). assert (v (f_lit 1 (-1)) * - v g <= 1 * - v g) by (apply Rmult_le_compat_r; lra). lra. }
  assert (M2 : 0 <= v x * v (f_lit 1 (-16)) <= v x). { split; [apply Rmult_le_pos; lra|]. rewrite <- (Rmult_1_r (v x)) at 2. apply Rmult_le_compat_l; lra. }
  destruct (mul_rnd pow (f_lit 1 (-1)) g g (B754_zero false) Fc A) as [FA VA]. { split; [apply rnd_lower|cbn [B2R]; rewrite <- rnd_0; apply rnd_le]; lra. }
  destruct (mul_rnd pow x (f_lit 1 (-16)) (B754_zero false) x Fx Fu) as [FB VB]. { split; [cbn [B2R]; rewrite <- rnd_0; apply rnd_le|apply rnd_upper]; lra. }
  apply (bleb_spec pow); [exact FA|exact FB|]. rewrite VA, VB. apply Rle_trans with 0; rewrite <- rnd_0; apply rnd_le; lra.
Qed.
(* not (0 <= (x + q - e)*1) *)
Lemma before (x q : f64) : fin x -> fin q -> 0 <= v x <= v e -> 0 <= v q <= v (Bsucc e) ->
  nleb (n := K) (nlit (n := K) 0 0) (nmul (n := K) (nsub (n := K) (nadd (n := K) x q) e) one) = false -> rnd (v x + v q) < v e.
Proof.
  intros Fx Fq Bx Bq T. rewrite zero_lit in T. destruct big4 as (t & Ft & Vt). destruct (succ_fin e Fe He Hmax) as [_ VS]. pose proof (u_le e He) as UL.
  assert (P2 : v x <= rnd (v x + v q) <= v t). { split; [apply rnd_lower|apply rnd_upper]; lra. }
  destruct (add_rnd pow x q x t Fx Fq P2) as [Fa Va]. set (a := nadd (n := K) x q) in *. rewrite <- Va in P2 |- *.
  assert (VO : v (Bopp t) = - v t) by apply B2R_Bopp.
  assert (P3 : v (Bopp t) <= rnd (v a - v e) <= v t). { split; [apply rnd_lower|apply rnd_upper]; lra. }
  destruct (sub_rnd pow a e (Bopp t) t Fa Fe P3) as [Fd Vd]. destruct (times_one pow _ Fd) as [Fd1 Vd1].
  destruct (Rle_lt_dec (v e) (v a)) as [C|]; [exfalso|assumption].
  assert (N : nleb (n := K) (B754_zero false : f64) (nmul (n := K) (nsub (n := K) a e) one) = true). { apply (bleb_spec pow); [reflexivity|exact Fd1|]. rewrite Vd1, Vd. cbn [B2R]. rewrite <- rnd_0. apply rnd_le. lra. }
  rewrite N in T. discriminate T.
Qed.
End End_.
End N.
