(* Properties C85 and C86: the life of the arrays.  aligned: the program is built with ALIGN_BLOCKED. *)
From Coq Require Import List ZArith.
From Verif Require Import Base AllocModel AllocSpec AllocProofs.
Import ListNotations.
Open Scope Z_scope.

(* matrices of any sizes, constructed and destroyed around any code that cleans up after itself *)
Theorem C85_no_copies_partial : forall aligned sizes junk body, (forall m, wf m -> wp (body m) (clean m)) ->
  forall m, wf m -> wp (block aligned sizes junk m body) (clean m).
Proof. exact block_clean. Qed.
Print Assumptions C85_no_copies_partial.
Example C85_no_copies_case : wf start /\ (forall m, wf m -> wp (Ok m) (clean m)) /\
  block true [full_size 3; complex_size 3; band_size 3 1 1] (fun _ => 0) start (fun m => Ok m) <> Ok start.
Proof.
  split; [intros q _; reflexivity|split; [intros m H; exact (clean_refl m H)|]].
  intros H. apply (f_equal (fun o => match o with Ok m => knext m | _ => -1 end)) in H. discriminate H.
Qed.
(* fortranArray: the copy constructor copies into an array that it has not allocated; x0: the
   uninitialised pointer.  Whatever it contains, the program is wrong: *)
Theorem C85_full_copy_refuted : forall aligned n x0 junk, is_UB (full_copy_block aligned n x0 junk start).
Proof. exact copy_UB. Qed.
Print Assumptions C85_full_copy_refuted.
(* ... and if it happens to point to memory of another object, that memory is lost *)
Theorem C85_full_copy_spoils_refuted : forall aligned n x0 junk m, wf m -> ~ wp (full_copy_block aligned n x0 junk m) (clean m).
Proof. exact copy_not_clean. Qed.
Print Assumptions C85_full_copy_spoils_refuted.
(* the three other classes: the copy shares the array, which is released twice *)
Theorem C85_implicit_copy_refuted : forall aligned n kl ku junk m,
  is_UB (implicit_copy_block aligned (complex_size n) junk m) /\ is_UB (implicit_copy_block aligned (band_size n kl ku) junk m) /\
  is_UB (implicit_copy_block aligned (complex_band_size n kl ku) junk m).
Proof. exact (fun a n kl ku junk m => conj (implicit_UB a _ junk m) (conj (implicit_UB a _ junk m) (implicit_UB a _ junk m))). Qed.
Print Assumptions C85_implicit_copy_refuted.

(* opts: the work sizes that dgehrd_ asks for in successive calls of decomr *)
Theorem C86_work_array_partial : forall aligned n opts g junk m, wf m -> 1 <= n -> aligned = false \/ Forall (fun o => o <= n) opts ->
  wp (hm_block aligned n opts g junk m) (clean m).
Proof. exact work_clean. Qed.
Print Assumptions C86_work_array_partial.
(* ALIGN_BLOCKED: undefined as soon as dgehrd_ asks for more than n *)
Theorem C86_work_array_refuted : forall n opts g junk m, wf m -> 1 <= n -> ~ Forall (fun o => o <= n) opts ->
  is_UB (hm_block true n opts g junk m).
Proof. exact work_mismatch. Qed.
Print Assumptions C86_work_array_refuted.
(* dgehrd_ with a block size of 32 asks for 33*n or more *)
Example C86_case : wf start /\ ~ Forall (fun o => o <= 4) [132] /\ hm_block true 4 [132] (fun _ => 0) (fun _ => 0) start = UB "released with the wrong function".
Proof.
  split; [intros q _; reflexivity|split; [intros H; apply Forall_inv in H; apply H; reflexivity|reflexivity]].
Qed.
