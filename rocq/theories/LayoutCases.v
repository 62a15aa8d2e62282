(* Small instances of the LAPACK contracts of Spec.v, used as examples. *)
From Coq Require Import Reals Lra.
From Coq Require Import ZArith Lia.
From Verif Require Import Base Spec FieldLU HessModel HessProofs HessPathProofs.
Open Scope Z_scope.

Definition trf2 (A : Z -> R) : (Z -> R) * (Z -> Z) * Z :=
  (A, fun _ => 0, if Req_EM_T (A 0 * A 3 - A 1 * A 2) 0 then 1 else 0)%Z.
Definition trs2 (A : Z -> R) (ip : Z -> Z) (b : Z -> R) : (Z -> R) * Z :=
  let d := (A 0%Z * A 3%Z - A 1%Z * A 2%Z)%R in
  (fun k => if k =? 0 then ((b 0%Z * A 3%Z - A 2%Z * b 1%Z) / d)%R
            else ((A 0%Z * b 1%Z - A 1%Z * b 0%Z) / d)%R, 0).
Lemma rsum12 f : rsum 1 2 f = (f 1%Z + f 2%Z)%R.
Proof. rewrite rsum_lo by lia. rewrite rsum_lo by lia. rewrite rsum_empty by lia. cbn. ring. Qed.
Lemma rsum11 f : rsum 1 1 f = f 1%Z.
Proof. rewrite rsum_lo by lia. rewrite rsum_empty by lia. ring. Qed.
Lemma lapack2 : lapack_real 2 (mat_ge 2) trf2 trs2.
Proof.
  intros A LU ip info E. unfold trf2 in E. inversion E; subst; clear E.
  set (d := (LU 0%Z * LU 3%Z - LU 1%Z * LU 2%Z)%R) in *.
  assert (Hsol : forall x b, solution 2 (mat_ge 2 LU) x b <->
     (LU 0%Z * x 1%Z + LU 2%Z * x 2%Z = b 1%Z)%R /\ (LU 1%Z * x 1%Z + LU 3%Z * x 2%Z = b 2%Z)%R).
  { intros x b. split.
    - intros H. pose proof (H 1 ltac:(lia)) as A1. pose proof (H 2 ltac:(lia)) as A2.
      rewrite rsum12 in A1, A2. unfold mat_ge, lapack_ge in A1, A2. cbn in A1, A2. auto.
    - intros [A1 A2] i Hi. rewrite rsum12. assert (Hc : i = 1 \/ i = 2) by lia.
      destruct Hc as [-> | ->]; unfold mat_ge, lapack_ge; cbn; assumption. }
  destruct (Req_EM_T d 0) as [Hd|Hd].
  - split; [|discriminate]. split; [discriminate|]. intros Hns. exfalso.
    destruct (Req_EM_T (LU 0%Z) 0) as [H0|H0]; [destruct (Req_EM_T (LU 1%Z) 0) as [H1|H1]|].
    + assert (H := Hns (fun i => if i =? 1 then 1%R else 0%R)). specialize (H ltac:(apply Hsol; cbn; lra) 1 ltac:(lia)). cbn in H. lra.
    + assert (H := Hns (fun i => if i =? 1 then LU 3%Z else (- LU 1%Z)%R)).
      specialize (H ltac:(apply Hsol; cbn; unfold d in Hd; lra) 2 ltac:(lia)). cbn in H. lra.
    + assert (H := Hns (fun i => if i =? 1 then (- LU 2%Z)%R else LU 0%Z)).
      specialize (H ltac:(apply Hsol; cbn; unfold d in Hd; lra) 2 ltac:(lia)). cbn in H. lra.
  - split.
    + split; [|reflexivity]. intros _ x Hx. apply Hsol in Hx. destruct Hx as [H1 H2].
      assert (E1 : (d * x 1%Z = 0)%R).
      { replace (d * x 1%Z)%R with (LU 3%Z * (LU 0%Z * x 1%Z + LU 2%Z * x 2%Z) - LU 2%Z * (LU 1%Z * x 1%Z + LU 3%Z * x 2%Z))%R by (unfold d; ring).
        rewrite H1, H2; ring. }
      assert (E2 : (d * x 2%Z = 0)%R).
      { replace (d * x 2%Z)%R with (LU 0%Z * (LU 1%Z * x 1%Z + LU 3%Z * x 2%Z) - LU 1%Z * (LU 0%Z * x 1%Z + LU 2%Z * x 2%Z))%R by (unfold d; ring).
        rewrite H1, H2; ring. }
      intros i Hi. assert (Hc : i = 1 \/ i = 2) by lia.
      destruct Hc as [-> | ->]; [apply Rmult_integral in E1|apply Rmult_integral in E2]; tauto.
    + intros _ b. eexists. split; [reflexivity|]. apply Hsol. cbn. unfold d in *. split; field; exact Hd.
Qed.

Definition ctrf1 (A : Z -> R) : (Z -> R) * (Z -> Z) * Z :=
  (A, fun _ => 0, if Req_EM_T (A 0 * A 0 + A 1 * A 1) 0 then 1 else 0)%Z.
Definition ctrs1 (A : Z -> R) (ip : Z -> Z) (b : Z -> R) : (Z -> R) * Z :=
  let d := (A 0%Z * A 0%Z + A 1%Z * A 1%Z)%R in
  (fun k => if k =? 0 then ((b 0%Z * A 0%Z + b 1%Z * A 1%Z) / d)%R
            else ((b 1%Z * A 0%Z - b 0%Z * A 1%Z) / d)%R, 0).
Lemma clapack1 : lapack_complex 1 (mat_ge 1) ctrf1 ctrs1.
Proof.
  intros A LU ip info E. unfold ctrf1 in E. inversion E; subst; clear E.
  set (d := (LU 0%Z * LU 0%Z + LU 1%Z * LU 1%Z)%R) in *.
  assert (Hsol : forall xr xi br bi, csolution 1 (mat_ge 1 (re_part LU)) (mat_ge 1 (im_part LU)) xr xi br bi <->
     (LU 0%Z * xr 1%Z - LU 1%Z * xi 1%Z = br 1%Z)%R /\ (LU 1%Z * xr 1%Z + LU 0%Z * xi 1%Z = bi 1%Z)%R).
  { intros. split.
    - intros H. pose proof (H 1 ltac:(lia)) as [A1 A2].
      rewrite rsum11 in A1, A2. unfold mat_ge, lapack_ge, re_part, im_part in A1, A2. cbn in A1, A2. auto.
    - intros [A1 A2] i Hi. rewrite !rsum11. replace i with 1 by lia.
      unfold mat_ge, lapack_ge, re_part, im_part; cbn; auto. }
  destruct (Req_EM_T d 0) as [Hd|Hd].
  - split; [|discriminate]. split; [discriminate|]. intros Hns. exfalso.
    assert (A0 : LU 0%Z = 0%R) by (unfold d in Hd; nra). assert (A1 : LU 1%Z = 0%R) by (unfold d in Hd; nra).
    assert (H := Hns (fun _ => 1%R) (fun _ => 1%R)). specialize (H ltac:(apply Hsol; cbn; rewrite A0, A1; lra) 1 ltac:(lia)). lra.
  - split.
    + split; [|reflexivity]. intros _ xr xi Hx. apply Hsol in Hx. destruct Hx as [H1 H2].
      assert (E1 : (d * xr 1%Z = 0)%R).
      { replace (d * xr 1%Z)%R with (LU 0%Z * (LU 0%Z * xr 1%Z - LU 1%Z * xi 1%Z) + LU 1%Z * (LU 1%Z * xr 1%Z + LU 0%Z * xi 1%Z))%R by (unfold d; ring).
        rewrite H1, H2; ring. }
      assert (E2 : (d * xi 1%Z = 0)%R).
      { replace (d * xi 1%Z)%R with (LU 0%Z * (LU 1%Z * xr 1%Z + LU 0%Z * xi 1%Z) - LU 1%Z * (LU 0%Z * xr 1%Z - LU 1%Z * xi 1%Z))%R by (unfold d; ring).
        rewrite H1, H2; ring. }
      intros i Hi. replace i with 1 by lia. apply Rmult_integral in E1, E2. tauto.
    + intros _ b. eexists. split; [reflexivity|]. apply Hsol. unfold re_part, im_part. cbn. unfold d in *. split; field; exact Hd.
Qed.
