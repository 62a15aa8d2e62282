From Coq Require Import Reals Lra.
From Flocq Require Import Core BinarySingleNaN.
From Verif Require Import Base HessModel VecFun CMacros Rock4Model Rock4Spec Rock4Proofs Rock4LModel F64 Rock4F64 Rock4F64Wit Rock4F64Term.
Open Scope R_scope.
(* comparisons of given doubles *)
Lemma cmp (x y : f64) : is_finite x && is_finite y && Bltb x y = true -> v x < v y.
Proof.
  intros H. apply andb_true_iff in H as [H H3]. apply andb_true_iff in H as [H1 H2]. rewrite Bltb_correct in H3 by assumption.
  destruct (Rlt_bool_spec (v x) (v y)); [assumption|discriminate].
Qed.
Lemma cmple (x y : f64) : is_finite x && is_finite y && Bleb x y = true -> v x <= v y.
Proof.
  intros H. apply andb_true_iff in H as [H H3]. apply andb_true_iff in H as [H1 H2]. rewrite Bleb_correct in H3 by assumption.
  destruct (Rle_bool_spec (v x) (v y)); [assumption|discriminate].
Qed.
Ltac vb := vm_compute; reflexivity.
Lemma nonneg (x : f64) : is_finite x && Bleb (B754_zero false) x = true -> 0 <= v x.
Proof. intros H. apply (cmple (B754_zero false) x). cbn [is_finite andb]. exact H. Qed.
Section T.
Variable pow : f64 -> f64 -> f64.
Notation K := (F64 pow).
Lemma gt_of (x y : f64) : is_finite x && is_finite y = true -> nltb (n := K) x y = true -> v x < v y.
Proof. intros H H3. apply cmp. rewrite H. exact H3. Qed.
Section NG.
Variables RECF FPA FPB FPBE : Z -> K.
Hypothesis tabs : forall z, sm (RECF z) /\ sm (FPA z) /\ sm (FPB z) /\ sm (FPBE z).
Notation run := (fun r => rock4 (K := K) f_toint (kernel (K := K) (zf pow) RECF FPA FPB FPBE 1 (f_lit 1 0) (f_lit 1 0)) (k_init (zf pow)) k_accept (r4_rho (crho pow r))).
Lemma past_end : exists t0 tend h0 : f64, 0 <= v t0 < v tend /\ forall e0 hlast, caller pow e0 ->
  exists st, run (f_lit 0 0) tend 1%nat e0 t0 h0 hlast 0%Z 0%Z = Ok st /\ v tend < v (u_t st).
Proof.
  exists (f_lit 6 (-2)), (f_lit 9 (-1)), (f_lit 1 0). assert (A : 0 <= v (f_lit 6 (-2))) by (apply nonneg; vb). assert (B : v (f_lit 6 (-2)) < v (f_lit 9 (-1))) by (apply cmp; vb).
  split; [lra|]. intros e0 hl Hc. destruct (ng_past pow RECF FPA FPB FPBE tabs e0 hl Hc) as (st & E & L). exists st. split; [exact E|].
  edestruct ng_call as (F & _ & _); [| | | |exact E|]; [vb|vb|vb|lra|].
  apply gt_of; [|exact L]. unfold fin in F. rewrite F. vb.
Qed.
Lemma no_end : exists t0 tend h0 rho : f64, 0 <= v t0 < v tend /\ v h0 = v tend - v t0 /\ forall e0 hlast, caller pow e0 -> forall fuel,
  run rho tend fuel e0 t0 h0 hlast 0%Z 0%Z = Diverge.
Proof.
  exists (f_lit 1 9), (f_lit 1000000001 0), (f_lit 1 0), eg. split; [|split].
  - split; [apply nonneg; vb|apply cmp; vb].
  - change (f_lit 1 9) with (f_of 1000000000). change (f_lit 1000000001 0) with (f_of 1000000001). change (f_lit 1 0) with (f_of 1).
    rewrite !(fun z H => proj2 (small z H)) by reflexivity. lra.
  - intros e0 hl Hc fuel. exact (ng_forever pow RECF FPA FPB FPBE tabs e0 hl fuel Hc).
Qed.
Lemma too_small : exists t0 tend h0 : f64, 0 <= v t0 < v tend /\ forall e0 hlast, caller pow e0 ->
  run (f_lit 0 0) tend 2%nat e0 t0 h0 hlast 0%Z 0%Z = Throw "Rock4: step too small".
Proof.
  exists (f_lit 13 (-2)), (f_lit 17 (-1)), (f_lit 2 0). split; [split; [apply nonneg; vb|apply cmp; vb]|].
  intros e0 hl Hc. exact (ng_throw pow RECF FPA FPB FPBE tabs e0 hl Hc).
Qed.
End NG.
Lemma undefined_conversion RECF FPA FPB FPBE : exists tend h0 rho : f64, v tend = 100000000 /\ v h0 = 100000000 /\ v rho = 100000000000 /\ forall e0 hlast s,
  rock4 (K := K) f_toint (kernel (K := K) (zf pow) RECF FPA FPB FPBE 1 (f_lit 1 0) (f_lit 1 0)) (k_init (zf pow)) k_accept (r4_rho (crho pow rho)) tend 1%nat e0 (f_lit 0 0) h0 hlast 0%Z 0%Z = UB s <-> s = "conversion of a double to int"%string.
Proof.
  exists (f_lit 1 8), (f_lit 1 8), (f_lit 1 11). change (f_lit 1 11) with (f_of 100000000000) at 1. change (f_lit 1 8) with (f_of 100000000) at 1 2. rewrite !(fun z H => proj2 (small z H)) by reflexivity.
  do 3 (split; [reflexivity|]). intros e0 hl s. rewrite ng_ub. split; [intros H; injection H as <-; reflexivity|intros ->; reflexivity].
Qed.
Section L.
Variable Sg : Type.
Variable opL : Sg -> vec K -> vec K -> K -> K -> Sg * vec K.
Variable opLc : Sg -> vec K -> vec K -> K -> K -> K -> Sg * vec K.
Variables RECF FPA FPB : Z -> K.
Notation kern := (kernel1 (K := K) opL opLc RECF FPA FPB 1 2 3 4 5).
Lemma past_end_L : exists t0 tend h0 : f64, 0 <= v t0 < v tend /\ forall e0,
  exists st, rock4l (K := K) f_toint kern tend (f_lit 0 0) false 1%nat e0 t0 h0 0%Z 0%Z = Ok st /\ v tend < v (v_t st).
Proof.
  exists (f_lit 6 (-2)), (f_lit 9 (-1)), (f_lit 1 0). assert (A : 0 <= v (f_lit 6 (-2))) by (apply nonneg; vb). assert (B : v (f_lit 6 (-2)) < v (f_lit 9 (-1))) by (apply cmp; vb).
  split; [lra|]. intros e0. destruct (l_past pow Sg opL opLc RECF FPA FPB e0) as (st & E & L). exists st. split; [exact E|].
  edestruct l_call as (F & _ & _); [| | | |exact E|]; [vb|vb|vb|lra|].
  apply gt_of; [|exact L]. unfold fin in F. rewrite F. vb.
Qed.
Lemma too_small_L : exists t0 tend h0 : f64, 0 <= v t0 < v tend /\ forall e0,
  rock4l (K := K) f_toint kern tend (f_lit 0 0) false 2%nat e0 t0 h0 0%Z 0%Z = Throw "Rock4: step too small".
Proof.
  exists (f_lit 13 (-2)), (f_lit 17 (-1)), (f_lit 2 0). split; [split; [apply nonneg; vb|apply cmp; vb]|]. intros e0. exact (l_throw pow Sg opL opLc RECF FPA FPB e0).
Qed.
Lemma no_end_L : exists t0 tend h0 : f64, 0 <= v t0 < v tend /\ 0 < v h0 /\ forall e0 fuel,
  rock4l (K := K) f_toint kern tend (f_lit 0 0) false fuel e0 t0 h0 0%Z 0%Z = Diverge.
Proof.
  exists (f_lit 1 9), (f_lit 1000000001 0), (f_lit 1 (-8)). split; [split; [apply nonneg; vb|apply cmp; vb]|]. split; [apply (cmp (B754_zero false)); vb|].
  intros e0 fuel. exact (l_forever pow Sg opL opLc RECF FPA FPB e0 fuel).
Qed.
End L.
End T.
Lemma tables_and_caller : exists (pow : f64 -> f64 -> f64) (RECF FPA FPB FPBE : Z -> F64 pow) e0, (forall z, sm (RECF z) /\ sm (FPA z) /\ sm (FPB z) /\ sm (FPBE z)) /\ caller pow e0.
Proof.
  exists (fun x _ => x), (fun _ => f_lit 1 0), (fun _ => f_lit 1 0), (fun _ => f_lit 1 0), (fun _ => f_lit 1 0), (mkEst (K := F64 (fun x _ => x)) (fun _ _ => B754_zero false) tt 2 3 4 5 6 7 8 1 0%Z).
  split.
  - assert (X : sm (f_lit 1 0)). { change (f_lit 1 0) with (f_of 1). destruct (small 1 eq_refl) as [A B]. split; [exact A|]. rewrite B, Rabs_R1. apply IZR_le. apply Z.leb_le. reflexivity. }
    intros z. repeat split; apply X.
  - split; [|eexists; reflexivity]. unfold ptrs. cbn. repeat (apply NoDup_cons; [cbn; lia|]). apply NoDup_nil.
Qed.
Lemma case_end : fin (f_lit 6 (-2)) /\ fin (f_lit 9 (-1)) /\ fin (Bsucc (f_lit 9 (-1))) /\ 0 <= v (f_lit 6 (-2)) <= v (f_lit 9 (-1)).
Proof. repeat split; try vb; [apply nonneg; vb|apply cmple; vb]. Qed.
Lemma case_unit : let u := ulp radix2 fe (v (Bsucc (f_lit 1 0))) in u <= v (f_lit 125 (-3)) /\ 3 * u <= v (f_lit 1 0).
Proof.
  destruct (val_of (f_lit 125 (-3)) 4503599627370496 (-55)) as [_ V1]; [vb|]. destruct (val_of (Bsucc (f_lit 1 0)) 4503599627370497 (-52)) as [_ V2]; [vb|]. cbv zeta.
  assert (U : ulp radix2 fe (v (Bsucc (f_lit 1 0))) = bpow radix2 (-52)).
  { rewrite ulp_neq_0.
    - f_equal. unfold cexp. rewrite V2. replace (mag radix2 (4503599627370497 * bpow radix2 (-52)) : Z) with 1%Z; [reflexivity|]. symmetry. apply mag_unique.
      rewrite Rabs_right. 2: apply Rle_ge, Rmult_le_pos; [apply IZR_le; lia|apply bpow_ge_0].
      change (bpow radix2 (-52)) with (/ IZR (2 ^ 52)). change (bpow radix2 (1 - 1)) with 1. change (bpow radix2 1) with 2. replace (2 ^ 52)%Z with 4503599627370496%Z by reflexivity. lra.
    - rewrite V2. apply Rgt_not_eq. apply Rmult_lt_0_compat; [apply IZR_lt; lia|apply bpow_gt_0]. }
  rewrite U, V1. change (f_lit 1 0) with (f_of 1). rewrite (proj2 (small 1 eq_refl)).
  change (bpow radix2 (-52)) with (/ IZR (2 ^ 52)). change (bpow radix2 (-55)) with (/ IZR (2 ^ 55)). replace (2 ^ 52)%Z with 4503599627370496%Z by reflexivity. replace (2 ^ 55)%Z with 36028797018963968%Z by reflexivity. lra.
Qed.
Lemma case_conv : fin (f_lit 1 (-2)) /\ fin (f_lit 4 6) /\ 0 <= v (f_lit 1 (-2)) * v (f_lit 4 6) <= 1000000000000000000.
Proof.
  split; [vb|]. split; [vb|]. change (f_lit 4 6) with (f_of 4000000). rewrite (proj2 (small 4000000 eq_refl)).
  assert (0 <= v (f_lit 1 (-2))) by (apply nonneg; vb). assert (v (f_lit 1 (-2)) <= v (f_of 1)) as U by (apply cmple; vb). rewrite (proj2 (small 1 eq_refl)) in U. lra.
Qed.
