(* Concrete cases for the theorems on Rodas steps and runs. *)
From Coq Require Import Reals Lra Psatz.
From Verif Require Import Base Spec FieldLU HessModel CMacros VecFun HessPathProofs LayoutModel LayoutProofs LayoutCases JacModel JacProofs
  RodasModel RodasProofs RodasReal RodasTop RodasTerm RodasWitness RodasFinal RodasSpec RodasStep RodasStab RodasStab2 RodasOrder RodasLinear.
Open Scope R_scope.

(* y' = -4 y with its Jacobian, and division as linear algebra *)
Definition de_F (s : unit) (t : R) (y : Z -> R) : unit * (Z -> R) := (s, fun i => -4 * y i).
Definition de_J (s : unit) (t : R) (y Fy J : Z -> R) : unit * (Z -> R) := (s, fun _ => -4).
Definition de_Dt (s : unit) (t : R) (y : Z -> R) : unit * (Z -> R) := (s, fun _ => 0).
Definition de_decomr (la fac : R) (J : Z -> R) : out (R * (Z -> R)) :=
  if Req_EM_T (fac - J 0%Z) 0 then Throw "singular" else Ok (fac - J 0%Z, J).
Definition de_solve (la : R) (b J : Z -> R) : out (Z -> R) := Ok (fun i => b i / la).
Definition de_prep := @r_prep Rnum unit R de_F de_J de_Dt (fun l => l) 1 Full false true false r_uround (fun _ => 0).
Definition de_attempt (C : rcoef Rnum) := @r_attempt Rnum unit R de_F de_decomr de_solve 1 true C (fun _ => 1) (fun _ => 0).
Definition de_world : @world Rnum unit R := @mkW Rnum unit R (tt, nil) 0 (fun _ => 0).
Lemma de_algebra : algebra R de_decomr de_solve (fun l => l) 1 Full (fun _ jac M => M = mat_ge 1 jac).
Proof.
  split; [reflexivity|]. intros la jac M fac la' jac' -> E. unfold de_decomr in E. destruct (Req_EM_T _ _) as [|N]; [discriminate E|].
  injection E as <- <-. split; [reflexivity|]. intros b u Eu. injection Eu as <-. intros k Hk. assert (k = 1)%Z as -> by lia.
  rewrite rsum_hi, rsum_empty by lia. unfold newton_matrix, mat_ge, lapack_ge. cbn. field. exact N.
Qed.
Lemma de_step (w : @world Rnum unit R) (DY1 FX : Z -> R) : w_jac w 0%Z = -4 -> (forall k, DY1 k = -4) -> exists w' Y' err,
  de_attempt meth1 w (DY1, FX) 0 1 (fun _ => 1) = Ok (w', Y', err) /\ err <= 1.
Proof.
  intros HJ HD.
  assert (E4 : (nlit 1 0 / (1 * rGAMMA meth1))%num = 4 :> R).
  { unfold meth1, rocoe. cbn [Z.eqb Pos.eqb rGAMMA]. reals. rlit. field. }
  assert (HO : exists w' Y' err, de_attempt meth1 w (DY1, FX) 0 1 (fun _ => 1) = Ok (w', Y', err)).
  { unfold de_attempt, r_attempt, de_decomr. rewrite HJ. change (car Rnum) with R in *. rewrite E4.
    destruct (Req_EM_T (4 - -4) 0) as [N|_]; [lra|]. cbn [bind]. do 3 eexists. reflexivity. }
  destruct HO as (w' & Y' & err & HO). exists w', Y', err. split; [exact HO|].
  pose proof (attempt_step unit R de_F de_decomr de_solve (fun l => l) 1 Full false true false meth1 (fun _ => 1) (fun _ => 0)
    (fun _ y k => -4 * y k) (fun _ _ _ _ => -4) (fun _ _ _ => 0) (fun _ _ _ _ => eq_refl) (fun _ jac M => M = mat_ge 1 jac) de_algebra ltac:(lia)
    w (DY1, FX) 0 1 (fun _ => 1)) as HS.
  change (r_attempt _ _ _ _ _ _ _ _ _ _ _ _ _) with (de_attempt meth1 w (DY1, FX) 0 1 (fun _ => 1)) in HS. rewrite HO in HS. cbn [pc] in HS.
  destruct HS as [_ (J & fx & u & HJu & Hfx & [HS _] & ->)].
  { exists (mat_ge 1 (w_jac w)). split; [reflexivity|]. split.
    - intros i k [Hi Hk]. assert (i = 1)%Z as -> by lia. assert (k = 1)%Z as -> by lia. exact HJ.
    - split; [intros k; cbn [fst]; rewrite HD; ring|discriminate]. }
  pose proof (HJu 1%Z 1%Z ltac:(split; lia)) as EJ. cbn beta in EJ. pose proof (Hfx 1%Z ltac:(lia)) as Ex. cbn beta iota in Ex.
  assert (K : forall i s, (1 <= i <= 6)%Z -> rsum 1 (i - 1) (fun j => (-4 * t_a (rodas_tab meth1) i j + t_c (rodas_tab meth1) i j) * u j 1%Z) = s -> 8 * u i 1%Z = -4 + s).
  { intros i s Hi <-. destruct (HS i Hi) as (g & Hg & Hu). specialize (Hg 1%Z ltac:(lia)). specialize (Hu 1%Z ltac:(lia)).
    rewrite Hg, Ex in Hu. rewrite (rsum_hi 1 1), rsum_empty, EJ in Hu by lia.
    assert (Eg : t_gamma (rodas_tab meth1) = / 4). { cbn [rodas_tab t_gamma]. unfold meth1, rocoe. cbn [Z.eqb Pos.eqb rGAMMA]. reals. rlit. lra. }
    rewrite Eg in Hu. rewrite (rsum_ext 1 (i - 1) _ (fun j => -4 * (t_a (rodas_tab meth1) i j * u j 1%Z) + t_c (rodas_tab meth1) i j / 1 * u j 1%Z)) by (intros; field).
    rewrite rsum_add, rsum_scal. lra. }
  pose proof (K 1%Z _ ltac:(lia) (rs0 _)) as F1. pose proof (K 2%Z _ ltac:(lia) (rs1 _)) as F2.
  pose proof (K 3%Z _ ltac:(lia) (rs2 _)) as F3. pose proof (K 4%Z _ ltac:(lia) (rs3 _)) as F4.
  pose proof (K 5%Z _ ltac:(lia) (rs4 _)) as F5. pose proof (K 6%Z _ ltac:(lia) (rs5 _)) as F6.
  clear K HS HO. revert F1 F2 F3 F4 F5 F6. unfold rodas_tab. cbn [t_a t_c]. unfold six. cbn [Z.eqb Pos.eqb].
  unfold meth1, rocoe. cbn [Z.eqb Pos.eqb]. cbn [rC2 rC3 rC4 rD1 rD2 rD3 rD4 rA21 rA31 rA32 rA41 rA42 rA43 rA51 rA52 rA53 rA54 rC21 rC31 rC32 rC41 rC42 rC43 rC51 rC52 rC53 rC54 rC61 rC62 rC63 rC64 rC65 rGAMMA].
  reals. rlit. intros.
  assert (-1 <= u 6%Z 1%Z <= 1) as B by lra.
  unfold error_norm. rewrite (rsum_hi 1 1), rsum_empty by lia.
  rewrite <- sqrt_1. apply sqrt_le_1_alt. cbv beta.
  rewrite Rmult_0_l, !Rplus_0_r, Rplus_0_l. rewrite sqrt_1. unfold Rdiv. rewrite Rinv_1, !Rmult_1_r. nra.
Qed.
Lemma de_run : exists st y, @rodas Rnum _ _ de_prep (de_attempt meth1) (opts false) 2 1 de_world 1 0 1 (fun _ => 1) 0 0 0 = Ok (st, y) /\
  s_x st = 1 /\ map tri (s_hist st) = (0, 1, true) :: nil.
Proof.
  unfold rodas. rewrite posneg_fwd, hmaxn_fwd by lra.
  edestruct (de_step (@mkW Rnum unit R (tt, (0 : Rnum) :: nil) 0 (fun _ => -4)) (fun _ => -4 * 1) (fun _ => 0)) as (w' & Y' & err & E1 & E2);
    [reflexivity|intros; ring|].
  do 2 eexists. split.
  - apply bind_ok.
    eapply outer_one; [reflexivity| | | |reflexivity|].
    + apply head_run with (h1 := 1) (stop := true).
      * rewrite Rabs_R0, Rabs_R1. lra.
      * rewrite Rabs_R1. destruct (Rlt_dec _ _); [lra|]. rewrite Rmin_left; lra.
      * lra.
      * reflexivity.
    + eapply inner_acc.
      * replace (1 - 0) with 1 by lra. eapply accept_run; [reflexivity|exact E1|exact E2|reflexivity].
      * reflexivity.
    + cbn. lia.
    + apply outer_end. reflexivity.
  - cbn [s_x s_Y s_hist map tri a_x a_h a_acc]. split; [lra|reflexivity].
Qed.
Lemma de_eigen : left_eigen 1 (fun _ _ => -4) (fun _ => 1) (fun _ => 0) (-4) 0.
Proof. intros l Hl. rewrite !(rsum_hi 1 1), !rsum_empty by lia. split; ring. Qed.
Lemma de_rhs t y k : (1 <= k <= 1)%Z -> -4 * y k = linear_rhs 1 (fun _ _ => -4) t y k.
Proof. intros Hk. assert (k = 1)%Z as -> by lia. unfold linear_rhs. rewrite (rsum_hi 1 1), rsum_empty by lia. ring. Qed.
