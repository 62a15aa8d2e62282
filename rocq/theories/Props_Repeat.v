(* C91: the result of a call does not depend on earlier calls of the same object *)
From Coq Require Import ZArith Reals Lra Lia Bool List.
From Verif Require Import Base Spec HessModel VecFun CMacros JacModel JacProofs LayoutModel LayoutCases RodasModel RodasCase RadauModel RadauCount RepeatSpec RepeatProofs RepeatRadau RodasProofs RepeatLapack RepeatWitness RepeatCase.
Open Scope R_scope.

(* Radau5, y' = 1 + max(y,0)^2 with its Jacobian, tolerances 1e-3 (C91_case_policy), 0 to 1 in one
   step.  A new object; a call from y=-3; then a call of the same object from y=0 stops after one
   Newton iteration (4 evaluations of F), at a value more than 1/4 from every solution; the same call
   of a new object makes at least 7 evaluations.  k_f counts the calls of F. *)
Theorem C91_radau_refuted : forall fuel ifuel a b d e e', exists st st2,
  rp_radau (S fuel) (S ifuel) rp_new (1 : R) (0 : R) (1 : R) (fun _ => -3) a b d e e' = Ok st /\ q_x st = 1 /\
  rp_radau (S fuel) (S ifuel) (q_w st) (1 : R) (0 : R) (1 : R) (fun _ => 0) (q_hacc st) (q_erracc st) (q_theta st) (q_firstacc st) (q_hopt st) = Ok st2 /\
  q_x st2 = 1 /\ q_Y st2 1%Z < 1 + 2 / 10 ^ 6 /\ k_f (q_w st2) = (k_f (q_w st) + 4)%Z /\
  (forall fuel ifuel a b d e e', pc (rp_radau fuel ifuel rp_new (1 : R) (0 : R) (1 : R) (fun _ => 0) a b d e e') (fun s => (k_f rp_new + 7 <= k_f (q_w s))%Z)) /\
  (forall v : R -> R, v 0 = 0 -> (forall t, 0 <= t <= 1 -> derivable_pt_lim v t (rp_f (v t))) -> 4 / 3 <= v 1).
Proof. exact repeat_lemma. Qed.
Print Assumptions C91_radau_refuted.
Example C91_case_solution : exists v : R -> R, v 0 = 0 /\ forall t, 0 <= t <= 1 -> derivable_pt_lim v t (rp_f (v t)).
Proof. exact exact_exists. Qed.
Example C91_case_policy : forall a r : Z -> R, exists a' r',
  @rd_setTestPolicy Rnum 1 true 1 1 (fun _ => 1 / 1000) (fun _ => 1 / 1000) a r = Ok (a', r', (1 / 1000 : R), (3 / 100 : R)) /\ a' 1%Z = 1 / 1000 /\ r' 1%Z = 1 / 1000.
Proof. exact rp_policy. Qed.
Open Scope Z_scope.

(* Rodas, in every arithmetic: two calls with the same arguments and settings and the same state of
   the user's object give the same result and statistics, whatever the members hold. *)
Theorem C91_rodas : forall (K : num) (Sg La : Type)
  (userF : Sg -> K -> (Z -> K) -> Sg * (Z -> K)) (userJ : Sg -> K -> (Z -> K) -> (Z -> K) -> (Z -> K) -> Sg * (Z -> K)) (userDt : Sg -> K -> (Z -> K) -> Sg * (Z -> K))
  (decomr : La -> K -> (Z -> K) -> out (La * (Z -> K))) (solvereal : La -> (Z -> K) -> (Z -> K) -> out (Z -> K)) (set_calhes : La -> La)
  n sh numjac autonms use_DF_t uround (C : rcoef K) (atol rtol : Z -> K) (o : ropts K) (Rep : La -> (Z -> K) -> La -> (Z -> K) -> Prop)
  fuel ifuel w w' junk junk' h x xend y ha er fi ha' er' fi',
  1 <= n -> shape_ok sh -> reads_n n userF -> writes_jac n sh userJ -> reads_n n userDt ->
  starts_anew n sh La set_calhes Rep -> real_anew n La decomr solvereal Rep -> fst (w_f w) = fst (w_f w') ->
  both (fun r r' => snd r = snd r' /\ s_x (fst r) = s_x (fst r') /\ s_h (fst r) = s_h (fst r') /\ vagree n (s_Y (fst r)) (s_Y (fst r')) /\
      fst (w_f (s_w (fst r))) = fst (w_f (s_w (fst r'))) /\ s_naccpt (fst r) = s_naccpt (fst r') /\ s_nrejct (fst r) = s_nrejct (fst r') /\
      s_njac (fst r) = s_njac (fst r') /\ s_nstep (fst r) = s_nstep (fst r') /\ s_ndec (fst r) = s_ndec (fst r') /\ s_nsol (fst r) = s_nsol (fst r') /\
      s_nfcn (fst r) = s_nfcn (fst r') /\ s_hist (fst r) = s_hist (fst r') /\ (s_naccpt (fst r) <> 0 -> s_first (fst r) = s_first (fst r')))
    (rodas (r_prep userF userJ userDt set_calhes n sh numjac autonms use_DF_t uround junk) (r_attempt userF decomr solvereal n autonms C atol rtol) o fuel ifuel w h x xend y ha er fi)
    (rodas (r_prep userF userJ userDt set_calhes n sh numjac autonms use_DF_t uround junk') (r_attempt userF decomr solvereal n autonms C atol rtol) o fuel ifuel w' h x xend y ha' er' fi').
Proof. exact (@rodas_both). Qed.
Print Assumptions C91_rodas.
Example C91_case_rodas : @reads_n Rnum 1 unit de_F /\ @writes_jac Rnum 1 Full unit de_J /\ @reads_n Rnum 1 unit de_Dt /\
  @starts_anew Rnum 1 Full R (fun l => l) (fun _ J _ J' => J 0 = J' 0) /\ @real_anew Rnum 1 R de_decomr de_solve (fun _ J _ J' => J 0 = J' 0).
Proof. exact de_anew. Qed.

(* Radau5, in every arithmetic: the same if faccon agrees.  The returned step size also depends on
   hopt unless two steps were accepted.  Full statement: without the hypothesis on faccon (refuted above). *)
Theorem C91_radau_partial : forall (K : num) (Sg La : Type)
  (userF : Sg -> K -> (Z -> K) -> Sg * (Z -> K)) (userJ : Sg -> K -> (Z -> K) -> (Z -> K) -> (Z -> K) -> Sg * (Z -> K))
  (decomr : La -> K -> (Z -> K) -> out (La * (Z -> K))) (decomc : La -> K -> K -> (Z -> K) -> out La)
  (solvereal : La -> (Z -> K) -> (Z -> K) -> out (Z -> K)) (solvecomplex : La -> (Z -> K) -> (Z -> K) -> (Z -> K) -> out ((Z -> K) * (Z -> K))) (set_calhes : La -> La)
  n sh numjac (c : rdc K) (atol rtol : Z -> K) nit thet fnewt nfuel (o : dopts K) (Rep : La -> (Z -> K) -> La -> (Z -> K) -> Prop)
  fuel ifuel (w w' : wrk Sg La) h x xend Y ha er th fi hp ha' er' th' fi' hp',
  1 <= n -> shape_ok sh -> reads_n n userF -> writes_jac n sh userJ ->
  starts_anew n sh La set_calhes Rep -> complex_anew n La decomr decomc solvereal solvecomplex Rep ->
  k_f w = k_f w' -> k_faccon w = k_faccon w' -> k_nfc w = k_nfc w' ->
  let call := radau (k_jacob userF userJ set_calhes n sh numjac) (k_mats decomr decomc c) (k_evalF userF) (k_doscal atol rtol)
    (k_newton userF solvereal solvecomplex n c nit thet fnewt nfuel) (k_estrad userF solvereal n c) (@k_adv K Sg La) (k_save c) o in
  both (fun s s' => q_x s = q_x s' /\ vagree n (q_Y s) (q_Y s') /\ k_f (q_w s) = k_f (q_w s') /\ k_faccon (q_w s) = k_faccon (q_w s') /\ k_nfc (q_w s) = k_nfc (q_w s') /\
      q_naccpt s = q_naccpt s' /\ q_nrejct s = q_nrejct s' /\ q_njac s = q_njac s' /\ q_nstep s = q_nstep s' /\ q_ndec s = q_ndec s' /\
      q_newt s = q_newt s' /\ q_theta s = q_theta s' /\ q_hist s = q_hist s' /\ (hp = hp' \/ 1 < q_naccpt s \/ d_onestep o = true -> q_h s = q_h s'))
    (call fuel ifuel w h x xend Y ha er th fi hp) (call fuel ifuel w' h x xend Y ha' er' th' fi' hp').
Proof. exact (@radau_both). Qed.
Print Assumptions C91_radau_partial.
Example C91_case_radau : @reads_n Rnum 1 Z rp_F /\ @writes_jac Rnum 1 Full Z rp_J /\
  @starts_anew Rnum 1 Full rg_La (fun l => l) (fun _ J _ J' => J 0 = J' 0) /\
  @complex_anew Rnum 1 rg_La rg_decomr rg_decomc rg_sr rg_sc (fun _ J _ J' => J 0 = J' 0).
Proof. exact rp_anew. Qed.

(* the full and banded classes Matrices meet the hypotheses, whatever their arrays hold, if LAPACK
   reads only the entries of the matrix *)
Theorem C91_full_matrices : forall (K : num) n (trf ctrf : (Z -> K) -> (Z -> K) * (Z -> Z) * Z) (trs ctrs : (Z -> K) -> (Z -> Z) -> (Z -> K) -> (Z -> K) * Z), 1 <= n ->
  lapack_local n (same_entries (in_full n) (lapack_ge n)) trf trs -> lapack_local (2 * n) (same_centries (in_full n) (lapack_ge n)) ctrf ctrs ->
  starts_anew (K := K) n Full (@mats K) (fun la => la) (same_jac (K := K) n Full) /\ real_anew n (@mats K) (m_decomr_full trf n) (m_solvereal trs) (same_jac (K := K) n Full) /\
  complex_anew n (@mats K) (m_decomr_full trf n) (m_decomc_full ctrf n) (m_solvereal trs) (m_solvecomplex ctrs n) (same_jac (K := K) n Full).
Proof. exact (@anew_full). Qed.
Print Assumptions C91_full_matrices.
Theorem C91_band_matrices : forall (K : num) n kl ku (trf ctrf : (Z -> K) -> (Z -> K) * (Z -> Z) * Z) (trs ctrs : (Z -> K) -> (Z -> Z) -> (Z -> K) -> (Z -> K) * Z), 1 <= n -> 0 <= kl -> 0 <= ku ->
  lapack_local n (same_entries (in_band n kl ku) (lapack_gb kl ku)) trf trs -> lapack_local (2 * n) (same_centries (in_band n kl ku) (lapack_gb kl ku)) ctrf ctrs ->
  starts_anew (K := K) n (Band kl ku) (@mats K) (fun la => la) (same_jac (K := K) n (Band kl ku)) /\ real_anew n (@mats K) (m_decomr_band trf n kl ku) (m_solvereal trs) (same_jac (K := K) n (Band kl ku)) /\
  complex_anew n (@mats K) (m_decomr_band trf n kl ku) (m_decomc_band ctrf n kl ku) (m_solvereal trs) (m_solvecomplex ctrs n) (same_jac (K := K) n (Band kl ku)).
Proof. exact (@anew_band). Qed.
Print Assumptions C91_band_matrices.
Example C91_case_lapack : @lapack_local Rnum 2 (@same_entries Rnum (in_full 2) (lapack_ge 2)) trf2 trs2 /\
  @lapack_local Rnum (2 * 1) (@same_centries Rnum (in_full 1) (lapack_ge 1)) ctrf1 ctrs1.
Proof. exact (conj local2 clocal1). Qed.
