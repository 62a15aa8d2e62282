(* AvcF in double precision: states at which it computes NaN. *)
From Coq Require Import Reals Lia Bool.
From Flocq Require Import Core BinarySingleNaN.
From Verif Require Import Base F64 HessModel AvcModel AvcProofs.
Open Scope Z_scope.

Definition nan (x : f64) : Prop := x = B754_nan.
Definition zer (x : f64) : Prop := exists s, x = B754_zero s.
Definition big (x : f64) : Prop := nan x \/ exists s, x = B754_infinity s.
Definition low (x : f64) : Prop := nan x \/ zer x.
Local Opaque avc_store.
Section Nan.
Variable pow : f64 -> f64 -> f64.
Notation K := (F64 pow).
Lemma add_nan_l (a b : f64) : nan a -> nan (nadd (n := K) a b). Proof. intros ->. reflexivity. Qed.
Lemma add_nan_r (a b : f64) : nan b -> nan (nadd (n := K) a b). Proof. intros ->. destruct a as [[]|[]| |[]]; reflexivity. Qed.
Lemma sub_nan_l (a b : f64) : nan a -> nan (nsub (n := K) a b). Proof. intros ->. reflexivity. Qed.
Lemma mul_nan_l (a b : f64) : nan a -> nan (nmul (n := K) a b). Proof. intros ->. reflexivity. Qed.
Lemma mul_nan_r (a b : f64) : nan b -> nan (nmul (n := K) a b). Proof. intros ->. destruct a as [[]|[]| |[]]; reflexivity. Qed.
Lemma div_nan_l (a b : f64) : nan a -> nan (ndiv (n := K) a b). Proof. intros ->. reflexivity. Qed.
Lemma mul_zer (a b : f64) : is_finite a = true -> zer b -> zer (nmul (n := K) a b).
Proof. intros H [s ->]. destruct a as [s'|s'| |s' m e Hm]; try discriminate H; eexists; reflexivity. Qed.
Lemma mul_low (a b : f64) : low a -> low (nmul (n := K) a b).
Proof.
  intros [-> |[s ->]]; [left; reflexivity|]. destruct b as [s'|s'| |s' m e Hm]; [right; eexists; reflexivity|left; reflexivity|left; reflexivity|right; eexists; reflexivity].
Qed.
Lemma div_zer (a b : f64) : zer b -> big (ndiv (n := K) a b).
Proof. intros [s ->]. destruct a as [s'|s'| |s' m e Hm]; [left; reflexivity|right; eexists; reflexivity|left; reflexivity|right; eexists; reflexivity]. Qed.
Lemma low_big (a b : f64) : low a -> big b -> nan (nmul (n := K) a b).
Proof. intros [-> |[s ->]] [-> |[s' ->]]; reflexivity. Qed.
Lemma zer_div (a b : f64) : zer a -> zer b -> nan (ndiv (n := K) a b).
Proof. intros [s ->] [s' ->]. reflexivity. Qed.
Lemma opp_zer (a : f64) : zer a -> zer (nopp (n := K) a).
Proof. intros [s ->]. eexists. reflexivity. Qed.
Lemma zer_div_fin (a b : f64) : zer a -> is_finite_strict b = true -> zer (ndiv (n := K) a b).
Proof. intros [s ->] H. destruct b; try discriminate H; eexists; reflexivity. Qed.
Lemma sub_one : zer (nsub (n := K) (nlit 1 0) (nlit 1 0)).
Proof. exists false. apply B2SF_inj. vm_compute. reflexivity. Qed.
Section Rhs.
Variables fex fl fs : f64 -> f64.
Variable rat : bool.
(* exp(0) = 1 *)
Hypothesis exp0 : forall s, fex (B754_zero s) = nlit (n := K) 1 0.
Lemma exp_zer x : zer x -> fex x = nlit (n := K) 1 0.
Proof. intros [s ->]. apply exp0. Qed.
Notation rhs := (avc_rhs (K := K) fex fl fs rat).
Notation rate := (avc_rate (K := K) fex fl fs rat).
Lemma rhs_val t (x z : vec K) d k : rhs t x z = Ok d -> 0 <= k < 19 -> d k = pval (K := K) (rate t x) (recup_v (K := K) fex x) (recup_r (K := K) fex x) x k.
Proof.
  intros H Hk. destruct (avc_store_eval (K := K) (rate t x) (recup_v (K := K) fex x) (recup_r (K := K) fex x) x z) as (d' & E & Hd).
  change (avc_store (K := K) (rate t x) (recup_v (K := K) fex x) (recup_r (K := K) fex x) x z = Ok d) in H. rewrite E in H. apply ok_inj in H. subst d'. apply Hd. lia.
Qed.
Lemma nHVA_nan t (x : vec K) : zer (x 15) -> nan (v_nSommeCourantsCa (K := K) fex t x).
Proof.
  intros H. unfold v_nSommeCourantsCa. do 3 apply add_nan_l. unfold v_nICaHVA.
  assert (P : zer (v_nCurlyPhi (K := K) x)) by (apply mul_zer; [vm_compute; reflexivity|exact H]).
  apply low_big.
  - do 2 apply mul_low. right. apply mul_zer; [vm_compute; reflexivity|exact P].
  - unfold v_nA1. rewrite !exp_zer by (apply mul_zer; [vm_compute; reflexivity|exact P]). apply div_zer, sub_one.
Qed.
Lemma aHVA_nan t (x : vec K) : zer (x 16) -> nan (v_aSommeCourantsCa (K := K) fex t x).
Proof.
  intros H. unfold v_aSommeCourantsCa. do 2 apply add_nan_l. unfold v_aICaHVA.
  assert (P : zer (v_aCurlyPhi (K := K) x)) by (apply mul_zer; [vm_compute; reflexivity|exact H]).
  apply low_big.
  - do 2 apply mul_low. right. apply mul_zer; [vm_compute; reflexivity|exact P].
  - unfold v_aA1. rewrite !exp_zer by (apply mul_zer; [vm_compute; reflexivity|exact P]). apply div_zer, sub_one.
Qed.
(* (V - 8)/(1 - exp(-(V-8)/12)) at V = 8 *)
Lemma nKDR_nan t (x : vec K) : x 15 = nlit (n := K) 8 0 -> nan (v_nSommeCourantsK (K := K) fex fl fs t x).
Proof.
  intros H. unfold v_nSommeCourantsK. do 5 apply add_nan_l. unfold v_nIKDR. do 2 apply mul_nan_l. apply mul_nan_r. unfold v_nmeqKDR, v_nVm. rewrite H.
  assert (P : zer (nsub (n := K) (nlit 8 0) (nlit 8 0))) by (exists false; apply B2SF_inj; vm_compute; reflexivity).
  apply div_nan_l, zer_div; [apply mul_zer; [vm_compute; reflexivity|exact P]|].
  rewrite exp_zer; [apply sub_one|]. apply zer_div_fin; [apply opp_zer, P|vm_compute; reflexivity].
Qed.
Lemma n_nan t (x z : vec K) d : zer (x 15) -> rhs t x z = Ok d -> nan (d 2) /\ nan (d 15).
Proof.
  intros H E. rewrite (rhs_val t x z d 2 E), (rhs_val t x z d 15 E) by lia. pose proof (nHVA_nan t x H) as N. unfold pval. cbn [Z.ltb Z.compare Pos.compare Pos.compare_cont]. split.
  - apply div_nan_l, sub_nan_l. change (rate t x 2) with (rate2 (K := K) fex rat t x). unfold rate2. apply div_nan_l, mul_nan_r, N.
  - change (rate t x 15) with (rate15 (K := K) fex fl fs rat t x). unfold rate15. apply mul_nan_r. do 2 apply add_nan_l. apply add_nan_r, N.
Qed.
Lemma a_nan t (x z : vec K) d : zer (x 16) -> rhs t x z = Ok d -> nan (d 7) /\ nan (d 16).
Proof.
  intros H E. rewrite (rhs_val t x z d 7 E), (rhs_val t x z d 16 E) by lia. pose proof (aHVA_nan t x H) as N. unfold pval. cbn [Z.ltb Z.compare Pos.compare Pos.compare_cont]. split.
  - apply div_nan_l, sub_nan_l. change (rate t x 7) with (rate7 (K := K) fex rat t x). unfold rate7. apply div_nan_l, mul_nan_r, N.
  - change (rate t x 16) with (rate16 (K := K) fex fl fs rat t x). unfold rate16. apply mul_nan_r. do 2 apply add_nan_l. apply add_nan_r, N.
Qed.
Lemma n8_nan t (x z : vec K) d : x 15 = nlit (n := K) 8 0 -> rhs t x z = Ok d -> nan (d 0) /\ nan (d 15).
Proof.
  intros H E. rewrite (rhs_val t x z d 0 E), (rhs_val t x z d 15 E) by lia. pose proof (nKDR_nan t x H) as N. unfold pval. cbn [Z.ltb Z.compare Pos.compare Pos.compare_cont]. split.
  - apply div_nan_l, sub_nan_l. change (rate t x 0) with (rate0 (K := K) fex fl fs rat t x). unfold rate0. apply mul_nan_r, N.
  - change (rate t x 15) with (rate15 (K := K) fex fl fs rat t x). unfold rate15. apply mul_nan_r. do 3 apply add_nan_l. apply add_nan_r, N.
Qed.
End Rhs.
End Nan.
Lemma avc_nan pow (fex fl fs : f64 -> f64) rat : (forall s, fex (B754_zero s) = f_of 1) -> forall t (x z : Z -> f64),
  (forall s, x 15 = B754_zero s -> wp (avc_rhs (K := F64 pow) fex fl fs rat t x z) (fun d => d 2 = B754_nan /\ d 15 = B754_nan)) /\
  (forall s, x 16 = B754_zero s -> wp (avc_rhs (K := F64 pow) fex fl fs rat t x z) (fun d => d 7 = B754_nan /\ d 16 = B754_nan)) /\
  (x 15 = f_of 8 -> wp (avc_rhs (K := F64 pow) fex fl fs rat t x z) (fun d => d 0 = B754_nan /\ d 15 = B754_nan)).
Proof.
  intros E0 t x z.
  assert (L1 : forall n, nlit (n := F64 pow) n 0 = f_of n) by (intros n; cbn [nlit F64]; unfold f_lit; cbn [Z.leb Z.compare]; rewrite Z.pow_0_r, Z.mul_1_r; reflexivity).
  assert (E1 : forall s, fex (B754_zero s) = nlit (n := F64 pow) 1 0) by (intros s; rewrite E0, L1; reflexivity).
  destruct (avc_store_eval (K := F64 pow) (avc_rate (K := F64 pow) fex fl fs rat t x) (recup_v (K := F64 pow) fex x) (recup_r (K := F64 pow) fex x) x z) as (d & E & _).
  change (avc_rhs (K := F64 pow) fex fl fs rat t x z = Ok d) in E. rewrite E. cbn [wp]. split; [|split].
  - intros s Hs. exact (n_nan pow fex fl fs rat E1 t x z d (ex_intro _ s Hs) E).
  - intros s Hs. exact (a_nan pow fex fl fs rat E1 t x z d (ex_intro _ s Hs) E).
  - intros Hs. rewrite <- L1 in Hs. exact (n8_nan pow fex fl fs rat E1 t x z d Hs E).
Qed.
