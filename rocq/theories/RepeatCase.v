(* Instances of the hypotheses of C91 *)
From Coq Require Import ZArith Reals Lra Lia Bool List.
From Verif Require Import Base Spec HessModel VecFun CMacros JacModel JacProofs LayoutModel LayoutCases RodasModel RodasCase RadauModel RadauCount RepeatSpec RepeatProofs RepeatRadau RodasProofs RepeatLapack RepeatWitness.
Open Scope Z_scope.
Lemma local2 : @lapack_local Rnum 2 (@same_entries Rnum (in_full 2) (lapack_ge 2)) trf2 trs2.
Proof.
  intros A A' H.
  assert (E0 : A 0 = A' 0) by (apply (H 1 1); split; lia). assert (E1 : A 1 = A' 1) by (apply (H 2 1); split; lia).
  assert (E2 : A 2 = A' 2) by (apply (H 1 2); split; lia). assert (E3 : A 3 = A' 3) by (apply (H 2 2); split; lia).
  unfold trf2, trs2. cbn [fst snd]. rewrite E0, E1, E2, E3. split; [reflexivity|]. intros b b' Hb.
  rewrite (Hb 0) by lia. rewrite (Hb 1) by lia. split; [reflexivity|]. intros k Hk. reflexivity.
Qed.
Lemma clocal1 : @lapack_local Rnum (2 * 1) (@same_centries Rnum (in_full 1) (lapack_ge 1)) ctrf1 ctrs1.
Proof.
  intros A A' H. destruct (H 1 1) as [E0 E1]; [split; lia|]. cbn in E0, E1.
  unfold ctrf1, ctrs1. cbn [fst snd]. rewrite E0, E1. split; [reflexivity|]. intros b b' Hb.
  rewrite (Hb 0) by lia. rewrite (Hb 1) by lia. split; [reflexivity|]. intros k Hk. reflexivity.
Qed.
(* the problem of C65_case, Rodas *)
Lemma de_anew : @reads_n Rnum 1 unit de_F /\ @writes_jac Rnum 1 Full unit de_J /\ @reads_n Rnum 1 unit de_Dt /\
  @starts_anew Rnum 1 Full R (fun l => l) (fun _ J _ J' => J 0 = J' 0) /\ @real_anew Rnum 1 R de_decomr de_solve (fun _ J _ J' => J 0 = J' 0).
Proof.
  split; [intros s t y y' H; split; [reflexivity|]; intros i Hi; cbn; rewrite (H i Hi); reflexivity|].
  split; [intros s t y y' fy fy' A A' _ _; split; [reflexivity|]; intros i j _; reflexivity|].
  split; [intros s t y y' H; split; [reflexivity|]; intros i Hi; reflexivity|].
  split; [intros la la' J J' H; apply (H 1 1); split; lia|].
  intros la la' J J' a E. unfold de_decomr. rewrite E. destruct (Req_EM_T _ _); [reflexivity|]. cbn [both fst snd].
  split; [exact E|]. intros r r' Hr. cbn. intros i Hi. rewrite (Hr i Hi). reflexivity.
Qed.
(* the problem of C91_radau_refuted *)
Lemma rp_anew : @reads_n Rnum 1 Z rp_F /\ @writes_jac Rnum 1 Full Z rp_J /\
  @starts_anew Rnum 1 Full rg_La (fun l => l) (fun _ J _ J' => J 0 = J' 0) /\
  @complex_anew Rnum 1 rg_La rg_decomr rg_decomc rg_sr rg_sc (fun _ J _ J' => J 0 = J' 0).
Proof.
  split; [intros s t y y' H; split; [reflexivity|]; intros i Hi; cbn; rewrite (H 1) by lia; reflexivity|].
  split; [intros s t y y' fy fy' A A' H _; split; [reflexivity|]; intros i j _; cbn; rewrite (H 1) by lia; reflexivity|].
  split; [intros la la' J J' H; apply (H 1 1); split; lia|].
  intros la la' J J' a al be E. unfold rg_decomr. rewrite E. destruct (Req_EM_T _ _); [reflexivity|]. cbn [both fst snd].
  unfold rg_decomc. rewrite E. cbn [fst snd]. destruct (Req_EM_T _ _); [reflexivity|]. cbn [both fst snd]. split; [reflexivity|]. split.
  - intros r r' Hr. cbn. intros i Hi. rewrite (Hr i Hi). reflexivity.
  - intros r r' s s' Hr Hs. cbn. split; intros i Hi; rewrite (Hr i Hi), (Hs i Hi); reflexivity.
Qed.
Open Scope R_scope.
Lemma repeat_lemma fuel ifuel a b d e e' : exists st st2,
  rp_radau (S fuel) (S ifuel) rp_new (1 : R) (0 : R) (1 : R) (fun _ => -3) a b d e e' = Ok st /\ q_x st = 1 /\
  rp_radau (S fuel) (S ifuel) (q_w st) (1 : R) (0 : R) (1 : R) (fun _ => 0) (q_hacc st) (q_erracc st) (q_theta st) (q_firstacc st) (q_hopt st) = Ok st2 /\
  q_x st2 = 1 /\ q_Y st2 1%Z < 1 + 2 / 10 ^ 6 /\ k_f (q_w st2) = (k_f (q_w st) + 4)%Z /\
  (forall fuel ifuel a b d e e', pc (rp_radau fuel ifuel rp_new (1 : R) (0 : R) (1 : R) (fun _ => 0) a b d e e') (fun s => (k_f rp_new + 7 <= k_f (q_w s))%Z)) /\
  (forall v : R -> R, v 0 = 0 -> (forall t, 0 <= t <= 1 -> derivable_pt_lim v t (rp_f (v t))) -> 4 / 3 <= v 1).
Proof.
  destruct (call_linear fuel ifuel a b d e e') as (st & E & Ex & _ & Ec & _).
  destruct (call_after (q_w st) fuel ifuel (q_hacc st) (q_erracc st) (q_theta st) (q_firstacc st) (q_hopt st) Ec) as (st2 & E2 & A & B & D).
  exists st, st2. split; [exact E|]. split; [exact Ex|]. split; [exact E2|]. split; [exact A|]. split; [lra|]. split; [exact D|].
  split; [intros; apply call_fresh|]. intros; apply exact_far; assumption.
Qed.
