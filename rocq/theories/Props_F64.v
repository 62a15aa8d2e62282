(* C72-C75: the drivers of ROCK4 in IEEE double precision (rounding to nearest).
   F64 pow: the doubles with any function pow; f_toint: the conversion to a 32-bit int;
   Bsucc x: the next double. *)
From Coq Require Import Reals Lra.
From Flocq Require Import Core BinarySingleNaN.
From Verif Require Import Base HessModel VecFun Rock4Model Rock4Proofs Rock4LModel F64 Rock4F64 Rock4F64Wit Rock4F64Term Rock4F64Top.
Open Scope R_scope.
Definition dbl (x : f64) : R := B2R x.
Definition finite (x : f64) : Prop := is_finite x = true.

(* C72: a run that returns ends at tend or at the next double *)
Theorem C72_end (pow : f64 -> f64 -> f64) W kern init accept rho fuel w (t0 h0 hlast tend : f64) mp1 mp2 st :
  finite t0 -> finite tend -> finite (Bsucc tend) -> 0 <= dbl t0 <= dbl tend ->
  rock4 (K := F64 pow) (W := W) f_toint kern init accept rho tend fuel w t0 h0 hlast mp1 mp2 = Ok st ->
  finite (u_t st) /\ dbl tend <= dbl (u_t st) <= dbl (Bsucc tend).
Proof. intros A B C D E. destruct (ng_call pow W kern init accept rho tend fuel w t0 h0 hlast mp1 mp2 st A B C D E) as (P & Q & _). exact (conj P Q). Qed.
Print Assumptions C72_end.
Theorem C72_L_end (pow : f64 -> f64 -> f64) W kern wrong eigmax fuel w (t0 h0 tend : f64) mp1 mp2 st :
  finite t0 -> finite tend -> finite (Bsucc tend) -> 0 <= dbl t0 <= dbl tend ->
  rock4l (K := F64 pow) (W := W) f_toint kern tend eigmax wrong fuel w t0 h0 mp1 mp2 = Ok st ->
  finite (v_t st) /\ dbl tend <= dbl (v_t st) <= dbl (Bsucc tend).
Proof. intros A B C D E. destruct (l_call pow W kern wrong tend eigmax fuel w t0 h0 mp1 mp2 st A B C D E) as (P & Q & _). exact (conj P Q). Qed.
Print Assumptions C72_L_end.

(* C73: a run that returns ends at tend exactly *)
Definition tables_small (pow : f64 -> f64 -> f64) (RECF FPA FPB FPBE : Z -> F64 pow) : Prop :=
  forall z, sm (RECF z) /\ sm (FPA z) /\ sm (FPB z) /\ sm (FPBE z).
(* y' = 0 with one component, rho() = r, tolerances 1 *)
Definition zero_problem pow (RECF FPA FPB FPBE : Z -> F64 pow) (r : f64) :=
  rock4 (K := F64 pow) f_toint (kernel (K := F64 pow) (zf pow) RECF FPA FPB FPBE 1 (f_lit 1 0) (f_lit 1 0)) (k_init (zf pow)) k_accept (r4_rho (crho pow r)).
(* t0 = 0.06, tend = 0.9, h0 = 1 *)
Theorem C73_exact_end_refuted pow RECF FPA FPB FPBE : tables_small pow RECF FPA FPB FPBE ->
  exists t0 tend h0 : f64, 0 <= dbl t0 < dbl tend /\ forall e0 hlast, caller pow e0 ->
  exists st, zero_problem pow RECF FPA FPB FPBE (f_lit 0 0) tend 1%nat e0 t0 h0 hlast 0%Z 0%Z = Ok st /\ dbl tend < dbl (u_t st).
Proof. exact (past_end pow RECF FPA FPB FPBE). Qed.
Print Assumptions C73_exact_end_refuted.
Theorem C73_L_exact_end_refuted pow Sg opL opLc RECF FPA FPB :
  exists t0 tend h0 : f64, 0 <= dbl t0 < dbl tend /\ forall e0,
  exists st, rock4l (K := F64 pow) f_toint (kernel1 (K := F64 pow) (Sg := Sg) opL opLc RECF FPA FPB 1 2 3 4 5) tend (f_lit 0 0) false 1%nat e0 t0 h0 0%Z 0%Z = Ok st /\
    dbl tend < dbl (v_t st).
Proof. exact (past_end_L pow Sg opL opLc RECF FPA FPB). Qed.
Print Assumptions C73_L_exact_end_refuted.
(* exact when tend <= 2*t0 *)
Theorem C73_exact_end_partial (pow : f64 -> f64 -> f64) W kern init accept rho fuel w (t0 h0 hlast tend : f64) mp1 mp2 st :
  finite t0 -> finite tend -> finite (Bsucc tend) -> 0 <= dbl t0 <= dbl tend -> dbl tend <= 2 * dbl t0 ->
  rock4 (K := F64 pow) (W := W) f_toint kern init accept rho tend fuel w t0 h0 hlast mp1 mp2 = Ok st -> dbl (u_t st) = dbl tend.
Proof. intros A B C D E F. exact (proj2 (proj2 (ng_call pow W kern init accept rho tend fuel w t0 h0 hlast mp1 mp2 st A B C D F)) E). Qed.
Print Assumptions C73_exact_end_partial.
Theorem C73_L_exact_end_partial (pow : f64 -> f64 -> f64) W kern wrong eigmax fuel w (t0 h0 tend : f64) mp1 mp2 st :
  finite t0 -> finite tend -> finite (Bsucc tend) -> 0 <= dbl t0 <= dbl tend -> dbl tend <= 2 * dbl t0 ->
  rock4l (K := F64 pow) (W := W) f_toint kern tend eigmax wrong fuel w t0 h0 mp1 mp2 = Ok st -> dbl (v_t st) = dbl tend.
Proof. intros A B C D E F. exact (proj2 (proj2 (l_call pow W kern wrong tend eigmax fuel w t0 h0 mp1 mp2 st A B C D F)) E). Qed.
Print Assumptions C73_L_exact_end_partial.

(* C74: the steps being accepted, a run returns *)
(* t0 = 1e9, tend = t0 + 1, h0 = 1, rho() = 2e11: no end *)
Theorem C74_ends_refuted pow RECF FPA FPB FPBE : tables_small pow RECF FPA FPB FPBE ->
  exists t0 tend h0 rho : f64, 0 <= dbl t0 < dbl tend /\ dbl h0 = dbl tend - dbl t0 /\ forall e0 hlast, caller pow e0 -> forall fuel,
  zero_problem pow RECF FPA FPB FPBE rho tend fuel e0 t0 h0 hlast 0%Z 0%Z = Diverge.
Proof. exact (no_end pow RECF FPA FPB FPBE). Qed.
Print Assumptions C74_ends_refuted.
(* t0 = 0.13, tend = 1.7, h0 = 2: the step is done, then "step too small" is thrown *)
Theorem C74_no_exception_refuted pow RECF FPA FPB FPBE : tables_small pow RECF FPA FPB FPBE ->
  exists t0 tend h0 : f64, 0 <= dbl t0 < dbl tend /\ forall e0 hlast, caller pow e0 ->
  zero_problem pow RECF FPA FPB FPBE (f_lit 0 0) tend 2%nat e0 t0 h0 hlast 0%Z 0%Z = Throw "Rock4: step too small".
Proof. exact (too_small pow RECF FPA FPB FPBE). Qed.
Print Assumptions C74_no_exception_refuted.
Theorem C74_L_no_exception_refuted pow Sg opL opLc RECF FPA FPB :
  exists t0 tend h0 : f64, 0 <= dbl t0 < dbl tend /\ forall e0,
  rock4l (K := F64 pow) f_toint (kernel1 (K := F64 pow) (Sg := Sg) opL opLc RECF FPA FPB 1 2 3 4 5) tend (f_lit 0 0) false 2%nat e0 t0 h0 0%Z 0%Z = Throw "Rock4: step too small".
Proof. exact (too_small_L pow Sg opL opLc RECF FPA FPB). Qed.
Print Assumptions C74_L_no_exception_refuted.
(* t0 = 1e9, tend = t0 + 1, h0 = 1e-8 *)
Theorem C74_L_ends_refuted pow Sg opL opLc RECF FPA FPB :
  exists t0 tend h0 : f64, 0 <= dbl t0 < dbl tend /\ 0 < dbl h0 /\ forall e0 fuel,
  rock4l (K := F64 pow) f_toint (kernel1 (K := F64 pow) (Sg := Sg) opL opLc RECF FPA FPB 1 2 3 4 5) tend (f_lit 0 0) false fuel e0 t0 h0 0%Z 0%Z = Diverge.
Proof. exact (no_end_L pow Sg opL opLc RECF FPA FPB). Qed.
Print Assumptions C74_L_ends_refuted.
(* Rock4-L ends, by returning or by an exception, when the step size is at least one unit in
   the last place of the double after tend *)
Theorem C74_L_ends_partial (pow : f64 -> f64 -> f64) W kern wrong (tend eigmax : f64) w (t0 h0 : f64) mp1 mp2 :
  (forall d i r w h, kern d i r w h <> Diverge) ->
  finite t0 -> finite tend -> finite (Bsucc tend) -> finite h0 -> 0 <= dbl t0 <= dbl tend ->
  let u := ulp radix2 (FLT_exp (-1074) 53) (dbl (Bsucc tend)) in u <= dbl h0 -> 3 * u <= dbl tend ->
  exists n, forall fuel, (n <= fuel)%nat -> rock4l (K := F64 pow) (W := W) f_toint kern tend eigmax wrong fuel w t0 h0 mp1 mp2 <> Diverge.
Proof. exact (l_call_ends pow W kern wrong tend eigmax w t0 h0 mp1 mp2). Qed.
Print Assumptions C74_L_ends_partial.

(* C75: the number of stages is computed by a defined conversion to int *)
(* rho() = 1e11, h = 1e8 *)
Theorem C75_conversion_refuted pow RECF FPA FPB FPBE :
  exists tend h0 rho : f64, dbl tend = 100000000 /\ dbl h0 = 100000000 /\ dbl rho = 100000000000 /\ forall e0 hlast s,
  zero_problem pow RECF FPA FPB FPBE rho tend 1%nat e0 (f_lit 0 0) h0 hlast 0%Z 0%Z = UB s <-> s = "conversion of a double to int"%string.
Proof. exact (undefined_conversion pow RECF FPA FPB FPBE). Qed.
Print Assumptions C75_conversion_refuted.
Theorem C75_conversion_partial (pow : f64 -> f64 -> f64) (h rho : f64) : finite h -> finite rho -> 0 <= dbl h * dbl rho <= 1000000000000000000 ->
  exists m, f_toint (nsqrt ((nlit 3 0 + (h : F64 pow) * rho) / nlit 353 (-3)) + nlit 1 0)%num = Ok m /\ (3 <= m)%Z.
Proof. exact (deg_defined pow h rho). Qed.
Print Assumptions C75_conversion_partial.

(* the hypotheses can be met *)
Example C73_case : exists pow RECF FPA FPB FPBE e0, tables_small pow RECF FPA FPB FPBE /\ caller pow e0.
Proof. exact tables_and_caller. Qed.
Example C72_case : finite (f_lit 6 (-2)) /\ finite (f_lit 9 (-1)) /\ finite (Bsucc (f_lit 9 (-1))) /\ 0 <= dbl (f_lit 6 (-2)) <= dbl (f_lit 9 (-1)).
Proof. exact case_end. Qed.
(* t0 = 0, tend = 1, h0 = 1/8 *)
Example C74_case : let u := ulp radix2 (FLT_exp (-1074) 53) (dbl (Bsucc (f_lit 1 0))) in u <= dbl (f_lit 125 (-3)) /\ 3 * u <= dbl (f_lit 1 0).
Proof. exact case_unit. Qed.
Example C75_case : finite (f_lit 1 (-2)) /\ finite (f_lit 4 6) /\ 0 <= dbl (f_lit 1 (-2)) * dbl (f_lit 4 6) <= 1000000000000000000.
Proof. exact case_conv. Qed.
