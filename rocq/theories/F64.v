(* IEEE double precision as an arithmetic: Flocq's binary_float 53 1024, rounding to nearest,
   ties to even.  Not a model of anything in /repo. *)
From Coq Require Import Reals Lra.
From Flocq Require Import Core BinarySingleNaN Sterbenz.
From Verif Require Import Base.
Open Scope Z_scope.

Definition f64p : Prec_gt_0 53 := eq_refl.
Definition f64e : Prec_lt_emax 53 1024 := eq_refl.
#[global] Existing Instance f64p.
#[global] Existing Instance f64e.
Definition f64 : Type := binary_float 53 1024.
Definition f_of (z : Z) : f64 := binary_normalize 53 1024 f64p f64e mode_NE z 0 false.
(* the literal m*10^e; correctly rounded when |m| < 2^53 and |e| <= 22, as the operands of the
   one operation are then exact *)
Definition f_lit (m e : Z) : f64 :=
  if 0 <=? e then f_of (m * 10 ^ e) else Bdiv mode_NE (f_of m) (f_of (10 ^ (- e))).
(* pow is not specified by IEEE 754: any function *)
Definition F64 (pow : f64 -> f64 -> f64) : num :=
  mkNum f64 f_lit (Bplus mode_NE) (Bminus mode_NE) (Bmult mode_NE) (Bdiv mode_NE) (@Bopp 53 1024) (@Bltb 53 1024) (@Bleb 53 1024) (@Beqb 53 1024)
    (Bsqrt mode_NE) pow.
(* the conversion to a 32-bit int: undefined outside of its range *)
Definition f_toint (x : f64) : out Z :=
  if is_finite x && (- 2 ^ 31 <=? Btrunc x) && (Btrunc x <? 2 ^ 31) then Ok (Btrunc x) else UB "conversion of a double to int".

Open Scope R_scope.
Notation fe := (SpecFloat.fexp 53 1024).
Notation rnd := (round radix2 fe (round_mode mode_NE)).
Definition fin (x : f64) : Prop := is_finite x = true.
Notation v := (@B2R 53 1024).
#[global] Instance fe_ok : Valid_exp fe := fexp_correct 53 1024 f64p.
Lemma fmt (x : f64) : generic_format radix2 fe (v x). Proof. apply generic_format_B2R. Qed.
Lemma rnd_v (x : f64) : rnd (v x) = v x. Proof. apply round_generic; [apply valid_rnd_round_mode|apply fmt]. Qed.
Lemma rnd_le a b : a <= b -> rnd a <= rnd b. Proof. apply round_le; [apply fe_ok|apply valid_rnd_round_mode]. Qed.
Lemma rnd_0 : rnd 0 = 0. Proof. apply round_0. apply valid_rnd_round_mode. Qed.
Lemma v_lt_max (x : f64) : Rabs (v x) < bpow radix2 1024. Proof. apply abs_B2R_lt_emax. Qed.
Lemma rnd_upper a (x : f64) : a <= v x -> rnd a <= v x. Proof. intros H. rewrite <- (rnd_v x). now apply rnd_le. Qed.
Lemma rnd_lower a (x : f64) : v x <= a -> v x <= rnd a. Proof. intros H. rewrite <- (rnd_v x). now apply rnd_le. Qed.
(* a result between two finite numbers is finite *)
Lemma between (x y : f64) a : v x <= a <= v y -> Rlt_bool (Rabs (rnd a)) (bpow radix2 1024) = true.
Proof.
  intros [H1 H2]. apply Rlt_bool_true. apply rnd_lower in H1. apply rnd_upper in H2.
  pose proof (v_lt_max x) as A. pose proof (v_lt_max y) as B. apply Rabs_def2 in A. apply Rabs_def2 in B. apply Rabs_def1; lra.
Qed.
Section Ops.
Variable pow : f64 -> f64 -> f64.
Notation K := (F64 pow).
Lemma add_ok (x y l u : f64) : fin x -> fin y -> v l <= v x + v y <= v u -> fin (nadd (n := K) x y) /\ v (nadd (n := K) x y) = rnd (v x + v y).
Proof.
  intros Hx Hy Hb. pose proof (Bplus_correct 53 1024 f64p f64e mode_NE x y Hx Hy) as H. rewrite (between l u) in H by exact Hb.
  destruct H as (H1 & H2 & _). split; [exact H2|exact H1].
Qed.
Lemma sub_ok (x y l u : f64) : fin x -> fin y -> v l <= v x - v y <= v u -> fin (nsub (n := K) x y) /\ v (nsub (n := K) x y) = rnd (v x - v y).
Proof.
  intros Hx Hy Hb. pose proof (Bminus_correct 53 1024 f64p f64e mode_NE x y Hx Hy) as H. rewrite (between l u) in H by exact Hb.
  destruct H as (H1 & H2 & _). split; [exact H2|exact H1].
Qed.
Lemma ltb_ok (x y : f64) : fin x -> fin y -> nltb (n := K) x y = Rltb (v x) (v y).
Proof.
  intros Hx Hy. cbn [nltb F64]. rewrite Bltb_correct by assumption. unfold Rltb. destruct (Rlt_dec (v x) (v y)); [now apply Rlt_bool_true|apply Rlt_bool_false; lra].
Qed.
Lemma leb_ok (x y : f64) : fin x -> fin y -> nleb (n := K) x y = Rleb (v x) (v y).
Proof.
  intros Hx Hy. cbn [nleb F64]. rewrite Bleb_correct by assumption. unfold Rleb. destruct (Rle_dec (v x) (v y)); [now apply Rle_bool_true|apply Rle_bool_false; lra].
Qed.
End Ops.
(* ---- values of results that are finite ---- *)
Section Vals.
Variable pow : f64 -> f64 -> f64.
Notation K := (F64 pow).
Lemma overflow_fin s : is_finite_SF (binary_overflow 53 1024 mode_NE s) = false. Proof. destruct s; reflexivity. Qed.
Lemma add_val (x y : f64) : fin (nadd (n := K) x y) -> fin x /\ fin y /\ v (nadd (n := K) x y) = rnd (v x + v y).
Proof.
  cbn [nadd F64]. intros H.
  assert (Hx : fin x) by (destruct x as [[]|[]| |[]]; destruct y as [[]|[]| |[]]; try reflexivity; cbn in H; try discriminate H; reflexivity).
  assert (Hy : fin y) by (destruct y as [[]|[]| |[]]; destruct x as [[]|[]| |[]]; try reflexivity; cbn in H; try discriminate H; reflexivity).
  split; [exact Hx|]. split; [exact Hy|]. pose proof (Bplus_correct 53 1024 f64p f64e mode_NE x y Hx Hy) as C.
  destruct (Rlt_bool _ _); [exact (proj1 C)|]. destruct C as [C _]. unfold fin in H. rewrite <- is_finite_SF_B2SF, C, overflow_fin in H. discriminate H.
Qed.
Lemma mul_val (x y : f64) : fin (nmul (n := K) x y) -> fin x /\ fin y /\ v (nmul (n := K) x y) = rnd (v x * v y).
Proof.
  cbn [nmul F64]. intros H.
  assert (Hx : fin x) by (destruct x as [[]|[]| |[]]; destruct y as [[]|[]| |[]]; try reflexivity; cbn in H; try discriminate H; reflexivity).
  assert (Hy : fin y) by (destruct y as [[]|[]| |[]]; destruct x as [[]|[]| |[]]; try reflexivity; cbn in H; try discriminate H; reflexivity).
  split; [exact Hx|]. split; [exact Hy|]. pose proof (Bmult_correct 53 1024 f64p f64e mode_NE x y) as C.
  destruct (Rlt_bool _ _); [exact (proj1 C)|]. unfold fin in H. rewrite <- is_finite_SF_B2SF, C, overflow_fin in H. discriminate H.
Qed.
Lemma div_val (x y : f64) : v y <> 0 -> fin (ndiv (n := K) x y) -> fin x /\ v (ndiv (n := K) x y) = rnd (v x / v y).
Proof.
  cbn [ndiv F64]. intros Hy H. pose proof (Bdiv_correct 53 1024 f64p f64e mode_NE x y Hy) as C.
  destruct (Rlt_bool _ _).
  - destruct C as (C1 & C2 & _). split; [unfold fin in *; rewrite <- C2; exact H|exact C1].
  - unfold fin in H. rewrite <- is_finite_SF_B2SF, C, overflow_fin in H. discriminate H.
Qed.
Lemma sqrt_val (x : f64) : fin (nsqrt (n := K) x) -> fin x /\ v (nsqrt (n := K) x) = rnd (sqrt (v x)).
Proof.
  cbn [nsqrt F64]. intros H. destruct (Bsqrt_correct 53 1024 f64p f64e mode_NE x) as (C1 & C2 & _). split; [|exact C1].
  unfold fin in *. rewrite C2 in H. destruct x as [| | |[]]; try discriminate H; reflexivity.
Qed.
End Vals.
Lemma val_of (x : f64) m e : B2SF x = SpecFloat.S754_finite false m e -> fin x /\ v x = IZR (Zpos m) * bpow radix2 e.
Proof. destruct x; cbn; intros H; try discriminate H. injection H as -> -> ->. split; reflexivity. Qed.
Lemma f_of_val z : (Z.abs z <= 2 ^ 53)%Z -> fin (f_of z) /\ v (f_of z) = IZR z.
Proof.
  intros H. unfold f_of. pose proof (binary_normalize_correct 53 1024 f64p f64e mode_NE z 0 false) as C. cbv zeta in C.
  assert (E : F2R (Float radix2 z 0) = IZR z) by (unfold F2R; cbn; ring). rewrite E in C.
  assert (Fz : generic_format radix2 fe (IZR z)).
  { rewrite <- E. apply (generic_format_FLT radix2 (SpecFloat.emin 53 1024) 53).
    destruct (Z.eq_dec (Z.abs z) (2 ^ 53)) as [Q|Q].
    - exists (Float radix2 (z / 2) 1); cbn [Fnum Fexp].
      + unfold F2R. cbn [Fnum Fexp bpow]. rewrite Rmult_1_r. change (IZR (Z.pow_pos radix2 1)) with 2. change 2 with (IZR 2). rewrite <- mult_IZR. f_equal.
        assert (z = 2 ^ 53 \/ z = - 2 ^ 53)%Z as [-> | ->] by lia; reflexivity.
      + change (radix2 ^ 53)%Z with (2 ^ 53)%Z. assert (z = 2 ^ 53 \/ z = - 2 ^ 53)%Z as [-> | ->] by lia; reflexivity.
      + discriminate.
    - exists (Float radix2 z 0); cbn [Fnum Fexp]; [reflexivity| |discriminate]. change (radix2 ^ 53)%Z with (2 ^ 53)%Z. lia. }
  rewrite (round_generic radix2 fe (round_mode mode_NE) (IZR z) Fz) in C. rewrite Rlt_bool_true in C.
  - destruct C as (C1 & C2 & _). split; assumption.
  - rewrite <- abs_IZR. apply Rle_lt_trans with (IZR (2 ^ 53)); [now apply IZR_le|]. change (IZR (2 ^ 53)) with (bpow radix2 53). apply bpow_lt. reflexivity.
Qed.

(* ---- the last step of an integration from t to e ---- *)
Section Last.
Variable pow : f64 -> f64 -> f64.
Notation K := (F64 pow).
Variables t e : f64.
Hypothesis Ft : fin t.
Hypothesis Fe : fin e.
Hypothesis Fs : fin (Bsucc e).
Hypothesis H0 : 0 <= v t.
Hypothesis H1 : v t < v e.
Notation D := (nsub (n := K) e t).
Lemma succ_val : v (Bsucc e) = v e + ulp radix2 fe (v e).
Proof.
  pose proof (Bsucc_correct 53 1024 f64p f64e e Fe) as C. destruct (Rlt_bool _ _).
  - rewrite (proj1 C). apply succ_eq_pos. lra.
  - unfold fin in Fs. rewrite <- is_finite_SF_B2SF, C in Fs. discriminate Fs.
Qed.
Lemma zero_fin : fin (B754_zero false : f64) /\ v (B754_zero false) = 0. Proof. split; reflexivity. Qed.
Lemma D_val : fin D /\ v D = rnd (v e - v t) /\ 0 <= v D <= v e.
Proof.
  destruct (sub_ok pow e t (B754_zero false) e Fe Ft) as [A B]. { cbn [B2R]. lra. }
  split; [exact A|]. split; [exact B|]. rewrite B. split.
  - rewrite <- rnd_0. apply rnd_le. lra.
  - apply rnd_upper. lra.
Qed.
Lemma advance (h : f64) : fin h -> 0 <= v h <= v D ->
  fin (nadd (n := K) t h) /\ v t <= v (nadd (n := K) t h) <= v (Bsucc e) /\ (v e <= 2 * v t -> v (nadd (n := K) t h) <= v e).
Proof.
  intros Fh Hh. destruct D_val as (FD & VD & BD). pose proof succ_val as SV.
  assert (B1 : v D <= (v e - v t) + / 2 * ulp radix2 fe (v e)).
  { rewrite VD. pose proof (error_le_half_ulp radix2 fe (fun n => negb (Z.even n)) (v e - v t)) as E.
    change (round radix2 fe (Znearest (fun n => negb (Z.even n))) (v e - v t)) with (rnd (v e - v t)) in E.
    assert (U : ulp radix2 fe (v e - v t) <= ulp radix2 fe (v e)).
    { apply ulp_le; [apply fe_ok|apply fexp_monotone|]. rewrite !Rabs_right by lra. lra. }
    apply Rabs_le_inv in E. lra. }
  pose proof (ulp_ge_0 radix2 fe (v e)) as U0.
  destruct (add_ok pow t h t (Bsucc e) Ft Fh) as [A B]. { rewrite SV. lra. }
  split; [exact A|]. rewrite B. split; [split|].
  - apply rnd_lower. lra.
  - apply rnd_upper. rewrite SV. lra.
  - intros H2. apply rnd_upper. assert (E : v D = v e - v t); [|lra].
    rewrite VD. apply round_generic; [apply valid_rnd_round_mode|]. apply sterbenz; [apply fe_ok|apply fexp_monotone|apply fmt|apply fmt|lra].
Qed.
Lemma last_exact : v e <= 2 * v t -> v (nadd (n := K) t D) = v e.
Proof.
  intros H2. destruct D_val as (FD & VD & BD). assert (E : v D = v e - v t).
  { rewrite VD. apply round_generic; [apply valid_rnd_round_mode|]. apply sterbenz; [apply fe_ok|apply fexp_monotone|apply fmt|apply fmt|lra]. }
  destruct (add_ok pow t D e e Ft FD) as [_ B]; [lra|]. rewrite B, E. replace (v t + (v e - v t)) with (v e) by ring. apply rnd_v.
Qed.
(* if(1.01*h >= tend-t) h = tend-t *)
Lemma cut (h : f64) : nleb (n := K) D (nmul (n := K) (f_lit 101 (-2)) h) = false -> fin h -> v h <= v D.
Proof.
  intros H Fh. destruct D_val as (FD & VD & BD). destruct (Rle_lt_dec (v h) (v D)) as [|Hlt]; [assumption|exfalso].
  destruct (val_of (f_lit 101 (-2)) 4548635623644201 (-52)) as [FL VL]. { vm_compute. reflexivity. }
  assert (L1 : 1 <= v (f_lit 101 (-2))). { rewrite VL. change (bpow radix2 (-52)) with (/ IZR (2 ^ 52)). apply (Rmult_le_reg_r (IZR (2 ^ 52))); [apply IZR_lt; reflexivity|].
    rewrite Rmult_assoc, Rinv_l, Rmult_1_l, Rmult_1_r by (apply not_0_IZR; discriminate). apply IZR_le. apply Z.leb_le. vm_compute. reflexivity. }
  pose proof (Bmult_correct 53 1024 f64p f64e mode_NE (f_lit 101 (-2)) h) as C. destruct (Rlt_bool _ _).
  - destruct C as (C1 & C2 & _). rewrite leb_ok in H; [|exact FD|cbn [nmul F64]; unfold fin in *; rewrite C2, FL, Fh; reflexivity].
    destruct (Rleb_spec (v D) (v (nmul (n := K) (f_lit 101 (-2)) h))) as [|N]; [discriminate H|]. apply N. cbn [nmul F64]. rewrite C1. apply Rlt_le.
    apply Rlt_le_trans with (1 := Hlt). apply Rle_trans with (rnd (v h)); [rewrite rnd_v; apply Rle_refl|]. apply rnd_le. rewrite <- (Rmult_1_l (v h)) at 1. apply Rmult_le_compat_r; lra.
  - cbn [nleb nmul F64] in H. unfold Bleb in H. rewrite C in H.
    assert (Bsign h = false) as S1.
    { destruct h as [| | |[]]; cbn [B2R] in Hlt; try lra; try reflexivity. exfalso. assert (F2R (Float radix2 (cond_Zopp true (Z.pos m)) e0) <= 0); [|lra]. apply F2R_le_0. cbn. lia. }
    assert (Bsign (f_lit 101 (-2)) = false) as S2 by (vm_compute; reflexivity).
    rewrite S1, S2 in H. cbn [nsub F64] in *. destruct (Bminus mode_NE e t) as [s| | |[]]; try discriminate FD; vm_compute in H; discriminate H.
Qed.
End Last.
