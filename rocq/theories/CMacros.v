(* The preprocessor macros shared by the solvers (Rodascc.hpp:14-17, Radau5cc.hpp:15-18,
   Matrices.hpp:12-13, Hessenberg.hpp:6-7), as they expand on an atomic argument.
   ABS(a) is (((a) >= (0.0)) ? (a) : (-a)): on a compound argument xend-x the negative
   branch reads -xend-x, see [mABS_diff]. *)
From Coq Require Import Reals Lra.
From Verif Require Import Base.
Open Scope Z_scope.

Section M.
Context {K : num}.
Definition mMAX (x y : K) : K := if (y <? x)%num then x else y.
Definition mMIN (x y : K) : K := if (x <? y)%num then x else y.
Definition mABS (a : K) : K := if (n0 <=? a)%num then a else (- a)%num.
Definition mABS_diff (a b : K) : K := if (n0 <=? a - b)%num then (a - b)%num else (- a - b)%num.
Definition mSIGN (a : K) : K := if (n0 <=? a)%num then n1 else (- n1)%num.
End M.

Lemma mMAX_R a b : @mMAX Rnum a b = Rmax a b.
Proof. unfold mMAX; cbn. destruct (Rltb_spec b a); [rewrite Rmax_left|rewrite Rmax_right]; lra. Qed.
Lemma mMIN_R a b : @mMIN Rnum a b = Rmin a b.
Proof. unfold mMIN; cbn. destruct (Rltb_spec a b); [rewrite Rmin_left|rewrite Rmin_right]; lra. Qed.
Lemma mABS_R a : @mABS Rnum a = Rabs a.
Proof.
  unfold mABS, n0; cbn. rewrite Rlit_0. destruct (Rleb_spec 0 a).
  - rewrite Rabs_right; lra.
  - rewrite Rabs_left; lra.
Qed.
Lemma mABS_diff_R a b : @mABS_diff Rnum a b = if Rle_dec 0 (a - b) then (a - b)%R else (- a - b)%R.
Proof. unfold mABS_diff, n0; cbn. rewrite Rlit_0. unfold Rleb. destruct (Rle_dec 0 (a - b)); reflexivity. Qed.
Lemma mSIGN_R a : @mSIGN Rnum a = if Rle_dec 0 a then 1%R else (-1)%R.
Proof.
  unfold mSIGN, n0, n1; cbn. rewrite !Rlit_0. unfold Rleb. destruct (Rle_dec 0 a); lra.
Qed.

(* decimal literals over the reals *)
Lemma Rlit_neg m p : Rlit m (Zneg p) = (IZR m / IZR (10 ^ Zpos p))%R.
Proof.
  unfold Rlit, Rdiv. f_equal. cbn [powerRZ]. f_equal. rewrite <- (positive_nat_Z p). apply pow_IZR.
Qed.
Lemma Rlit_pos10 m p : Rlit m (Zpos p) = IZR (m * 10 ^ Zpos p).
Proof.
  unfold Rlit. cbn [powerRZ]. rewrite mult_IZR. f_equal. rewrite <- (positive_nat_Z p). apply pow_IZR.
Qed.
Lemma Rlit_gt0 m e : 0 < m -> (0 < Rlit m e)%R.
Proof. intros H. unfold Rlit. apply Rmult_lt_0_compat; [apply (IZR_lt 0); exact H|apply powerRZ_lt; lra]. Qed.
(* replace every literal by a fraction of integers *)
Ltac rlit := cbn [nlit nadd nsub nmul ndiv nopp nltb nleb neqb nsqrt Rnum car n0 n1] in *; unfold n0, n1 in *;
  cbn [nlit Rnum] in *;
  rewrite ?Rlit_0, ?Rlit_neg, ?Rlit_pos10 in *;
  repeat match goal with
  | |- context [IZR (10 ^ Zpos ?p)] => let v := eval vm_compute in (10 ^ Zpos p) in change (10 ^ Zpos p) with v
  | H : context [IZR (10 ^ Zpos ?p)] |- _ => let v := eval vm_compute in (10 ^ Zpos p) in change (10 ^ Zpos p) with v in H
  | |- context [IZR (?m * 10 ^ Zpos ?p)] => let v := eval vm_compute in (m * 10 ^ Zpos p) in change (m * 10 ^ Zpos p) with v
  | H : context [IZR (?m * 10 ^ Zpos ?p)] |- _ => let v := eval vm_compute in (m * 10 ^ Zpos p) in change (m * 10 ^ Zpos p) with v in H
  end.
