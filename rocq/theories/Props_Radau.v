(* Properties C19 to C26 and C52 to C56 (Radau5).  [rs_radau f nit fnewt o] is the solver
   with its real step code on the scalar problem y' = f(t).  [pc m Q]: if m returns
   normally, its result satisfies Q, whatever the fuel. *)
From Coq Require Import Reals Lra QArith.
From Verif Require Import Base CMacros Spec HessModel JacModel RodasProofs RodasWitness RadauModel RadauProofs RadauReal RadauTop RadauStep RadauAlg RadauFinal RadauGuard RadauWitness RadauWitness2 RadauWitness3.
Open Scope R_scope.

(* y' = 0 from x0 back to xend, with x0 + xend > 0: the call returns normally at 2*x0+xend *)
Theorem C19_radau_backward_refuted : forall (x0 xend h0 : R) (o : dopts Rnum) (Y : Z -> R) a b d e e',
  d_onestep o = false -> (0 <= d_nmax o)%Z -> xend < x0 -> 0 < x0 + xend -> 1 / 10 ^ 15 <= Rabs h0 ->
  exists st, @rs_radau Rnum (fun _ => 0) 7 (3 / 100) o 1 1 rs_w h0 x0 xend Y a b d e e' = Ok st /\
    q_x st = 2 * x0 + xend /\ forall i, q_Y st i = Y i.
Proof. exact backward_wrong. Qed.
Print Assumptions C19_radau_backward_refuted.
Theorem C19_radau_backward_partial : forall (Sg La : Type) userF userJ decomr decomc solvereal solvecomplex set_calhes n sh numjac atol rtol nit thet fnewt nfuel x0 xend
    (o : dopts Rnum), 0 < (d_safe o : R) < 1 -> (1 <= d_nit o)%Z -> (d_quot1 o : R) = 1 ->
  forall fuel ifuel w h0 Y a b d e e', xend < x0 -> xend + x0 * (1 + 1 / 10 ^ 15) < 0 -> x0 + xend < 0 -> snd (k_f w) = nil ->
  pc (full_call Sg La userF userJ decomr decomc solvereal solvecomplex set_calhes n sh numjac atol rtol nit thet fnewt nfuel o fuel ifuel w h0 x0 xend Y a b d e e')
   (fun st =>
    (forall t, In t (snd (k_f (q_w st))) -> xend <= t <= x0) /\ xend <= q_x st <= x0 /\
    (forall p, In p (q_hist st) -> g_h p < 0) /\
    (d_onestep o = false -> q_x st = xend \/ exists p, In p (q_hist st) /\ g_reason p = didNotConverge)).
Proof. exact radau_backward. Qed.
Print Assumptions C19_radau_backward_partial.
Example C19_radau_case : (-5 : R) < 1 /\ -5 + 1 * (1 + 1 / 10 ^ 15) < 0 /\ 1 + -5 < 0.
Proof. lra. Qed.

(* y' = f20(t) from 0 to 1 with at most two Newton iterations: normal return at 1/2 *)
Theorem C20_reaches_end_refuted : forall (o : dopts Rnum) a b d e e', d_onestep o = false -> (0 <= d_nmax o)%Z ->
  exists st, @rs_radau Rnum f20 2 (3 / 100) o 1 2 rs_w 1 0 1 (fun _ => 0) a b d e e' = Ok st /\ q_x st = 1 / 2.
Proof. exact stops_halfway. Qed.
Print Assumptions C20_reaches_end_refuted.
(* what holds, with any problem and any linear algebra: xend up to the end test of line 647,
   unless some Newton iteration used up its nit iterations *)
Theorem C20_reaches_end_partial : forall (Sg La : Type) userF userJ decomr decomc solvereal solvecomplex set_calhes n sh numjac atol rtol nit thet fnewt nfuel x0 xend
    (o : dopts Rnum), 0 < (d_safe o : R) < 1 -> (1 <= d_nit o)%Z -> (d_quot1 o : R) = 1 ->
  forall fuel ifuel w h0 Y a b d e e', x0 < xend -> snd (k_f w) = nil ->
  pc (full_call Sg La userF userJ decomr decomc solvereal solvecomplex set_calhes n sh numjac atol rtol nit thet fnewt nfuel o fuel ifuel w h0 x0 xend Y a b d e e')
   (fun st =>
    (forall t, In t (snd (k_f (q_w st))) -> x0 <= t <= xend) /\ x0 <= q_x st <= xend /\
    (forall p, In p (q_hist st) -> x0 <= g_x p < g_x p + g_h p /\ g_x p + g_h p <= xend) /\
    (forall b a older, next (q_hist st) b a older -> g_x b = if accepted a then g_x a + g_h a else g_x a) /\
    (d_onestep o = false ->
      q_x st = match q_hist st with nil => x0 | a :: _ => if accepted a then g_x a + g_h a else g_x a end /\
      (q_x st = xend \/ xend - q_x st <= 1 / 10 ^ 15 * Rabs (q_x st) \/
       exists p, In p (q_hist st) /\ g_reason p = didNotConverge))).
Proof. exact radau_forward. Qed.
Print Assumptions C20_reaches_end_partial.
Example C20_case : 0 < (d_safe (@ctor_opts Rnum) : R) < 1 /\ (1 <= d_nit (@ctor_opts Rnum))%Z /\ (d_quot1 (@ctor_opts Rnum) : R) = 1.
Proof. cbn [d_safe d_nit d_quot1 ctor_opts]. rlit. split; [lra|]. split; [lia|reflexivity]. Qed.

(* a step accepted although its Newton iteration did not converge: the iteration ran with
   the step size 2, the estimate was made with 1, the abscissa was advanced by 2 *)
Theorem C21_accepts_only_converged_refuted : forall a b d e e',
  exists st p l, @rs_radau Rnum f21 2 (1 / 1000) o21 2 1 rs_w 1 0 3 (fun _ => 0) a b d e e' = Ok st /\ q_x st = 3 /\
    q_hist st = p :: l /\ g_test p = Some true /\ g_reason p = didNotConverge /\ g_h p = 2 /\ g_h2 p = 1.
Proof. exact accepts_unconverged. Qed.
Print Assumptions C21_accepts_only_converged_refuted.
(* what holds: an accepted pass converged at the step size tested, or it exhausted nit
   iterations after an earlier pass of the same call had converged *)
Theorem C21_accepts_only_converged_partial : forall (K : num) W (jacob : W -> K -> (Z -> K) -> out W) mats evalF doscal newton estrad adv save (o : dopts K)
    fuel ifuel w h x xend Y a b c d e,
  pc (radau jacob mats evalF doscal newton estrad adv save o fuel ifuel w h x xend Y a b c d e) (fun st =>
    forall newer p older, q_hist st = (newer ++ p :: older)%list -> g_test p = Some true ->
      g_reason p = converged /\ g_h2 p = g_h p \/ g_reason p = didNotConverge /\ exists q, In q older /\ g_reason q = converged).
Proof. exact (@acc_final). Qed.
Print Assumptions C21_accepts_only_converged_partial.

(* one iteration allowed: never returns, whatever the problem and the arithmetic *)
Theorem C22_terminates_refuted : forall (K : num) (Sg La : Type) userF userJ
    (decomr : La -> K -> (Z -> K) -> out (La * (Z -> K))) decomc solvereal solvecomplex set_calhes n sh c atol rtol thet fnewt nfuel (o : dopts K)
    fuel ifuel (w : @wrk K Sg La) h x xend Y a b d e e',
  (forall la fac J, exists r, decomr la fac J = Ok r) -> (forall la al be J, exists r, decomc la al be J = Ok r) ->
  (forall la r J, exists X, solvereal la r J = Ok X) ->
  (forall la r1 r2 J, exists X1 X2, solvecomplex la r1 r2 J = Ok (X1, X2)) -> (0 <= d_nmax o)%Z ->
  radau (k_jacob userF userJ set_calhes n sh false) (k_mats decomr decomc c) (k_evalF userF) (k_doscal atol rtol)
    (k_newton userF solvereal solvecomplex n c 1 thet fnewt (S nfuel)) (k_estrad userF solvereal n c)
    (k_adv (La:=La)) (k_save c) o fuel ifuel w h x xend Y a b d e e' = Diverge.
Proof. exact nit1_spins. Qed.
Print Assumptions C22_terminates_refuted.
(* a right-hand side answering NaN: never returns, whatever nmax *)
Theorem C22_nan_refuted : forall nit fnewt (o : dopts NanQ) fuel ifuel (w : @wrk NanQ unit rs_La) h x xend Y a b d e e',
  (3 <= nit)%Z -> (0 <= d_nmax o)%Z ->
  rs_radau (fun _ : NanQ => None) nit fnewt o fuel ifuel w h x xend Y a b d e e' = Diverge.
Proof. exact radau_nan_spins. Qed.
Print Assumptions C22_nan_refuted.
(* what holds: if Newton converges for all small enough steps, every call ends; nmax bounds
   the number of iterations of the outer loop *)
Theorem C22_terminates_partial : forall x0 xend s, (s = 1 /\ x0 < xend) \/ (s = -1 /\ xend < x0 /\ x0 + xend < 0) ->
  forall W (jacob : W -> R -> (Z -> R) -> out W) mats evalF doscal newton estrad adv save (o : dopts Rnum),
  0 < (d_safe o : R) < 1 -> (1 <= d_nit o)%Z -> (d_quot1 o : R) = 1 ->
  (forall w z x h hold Y, 0 < s * h ->
     pc (newton w z x h hold Y) (fun p : W * nres Rnum => (0 <= nr_newt (snd p))%Z /\
       match nr_reason (snd p) with willNotConverge => s * h / 10 <= s * nr_h (snd p) <= 4 / 5 * (s * h) | _ => nr_h (snd p) = h end)) ->
  forall hmin, 0 < hmin ->
  (forall w z x h hold Y, Rabs h <= hmin -> pc (newton w z x h hold Y) (fun p => nr_reason (snd p) = converged)) ->
  (forall w z x h hold Y, newton w z x h hold Y <> Diverge) -> (forall w x Y, jacob w x Y <> Diverge) ->
  (forall w h, mats w h <> Diverge) -> (forall w x h Y f r, estrad w x h Y f r <> Diverge) ->
  exists k, forall fuel ifuel w h0 Y a b c d e, (k <= ifuel)%nat -> (Z.of_nat fuel > d_nmax o + 1)%Z -> (1 <= fuel)%nat ->
  radau jacob mats evalF doscal newton estrad adv save o fuel ifuel w h0 x0 xend Y a b c d e <> Diverge.
Proof. exact radau_ends_any. Qed.
Print Assumptions C22_terminates_partial.
Example C22_case : forall (w : unit) (z : bool) (x h hold : R) (Y : Z -> R), 0 < 1 * h ->
  let r := if Rle_dec h 1 then mkNres converged (h : Rnum) 2 (0 : Rnum) else mkNres willNotConverge (h / 2 : Rnum) 2 (0 : Rnum) in
  (0 <= nr_newt r)%Z /\ match nr_reason r with willNotConverge => 1 * h / 10 <= 1 * nr_h r <= 4 / 5 * (1 * h) | _ => nr_h r = h end.
Proof. intros. destruct (Rle_dec h 1); cbn; repeat split; try easy; lra. Qed.
(* the Newton iteration itself stops after at most nit iterations *)
Theorem C22_newton_bounded_partial : forall (K : num) (Sg La : Type) userF solvereal solvecomplex n (c : rdc K) nit fnewt,
  (forall la r J, solvereal la r J <> Diverge) -> (forall la r1 r2 J, solvecomplex la r1 r2 J <> Diverge) ->
  forall fl x h xph Y newt theta (w : @wrk K Sg La), (newt < nit)%Z -> (nit - newt <= Z.of_nat fl)%Z ->
  newton_loop userF solvereal solvecomplex n c nit fnewt fl x h xph Y newt theta w <> Diverge.
Proof. exact (@newton_ends). Qed.
Print Assumptions C22_newton_bounded_partial.

(* setFacrFacl has no effect at all on an integration *)
Theorem C23_setters_refuted : forall (K : num) W (jacob : W -> K -> (Z -> K) -> out W) mats evalF doscal newton estrad adv save (o : dopts K) r l
    fuel ifuel w h x xend Y a b c d e,
  radau jacob mats evalF doscal newton estrad adv save (set_FacrFacl o r l) fuel ifuel w h x xend Y a b c d e =
  radau jacob mats evalF doscal newton estrad adv save o fuel ifuel w h x xend Y a b c d e.
Proof. exact (@facr_lemma). Qed.
Print Assumptions C23_setters_refuted.
(* the safety factor and the maximum number of iterations do enter the next step size *)
Theorem C23_setters_partial : forall W (jacob : W -> R -> (Z -> R) -> out W) mats evalF doscal estrad adv save (o : dopts Rnum) xend posneg hmaxn
    st xph w err st',
  estrad (q_w st) (q_x st) (q_h st) (q_Y st) (q_first st) (q_reject st) = Ok (w, err) ->
  1 <= err -> q_first st = false ->
  @d_control Rnum W jacob mats evalF doscal estrad adv save o xend posneg hmaxn st xph = Ok st' ->
  q_h (fst st') = (q_h st : R) / Rmax (1 / 8) (Rmin 5 (sqrt (sqrt err) /
    Rmin (d_safe o) (d_safe o * (1 + 2 * IZR (d_nit o)) / (IZR (q_newt st) + 2 * IZR (d_nit o))))).
Proof. exact reject_step. Qed.
Print Assumptions C23_setters_partial.
Theorem C23_nmax_partial : forall W (jacob : W -> R -> (Z -> R) -> out W) mats evalF doscal newton estrad adv save (o : dopts Rnum) xend posneg hmaxn f i st,
  (d_nmax o < q_nstep st)%Z ->
  exists msg, @d_loop Rnum W jacob mats evalF doscal newton estrad adv save o xend posneg hmaxn (S f) i st = Throw msg.
Proof. exact nmax_stops. Qed.
Print Assumptions C23_nmax_partial.

(* one Newton correction, transformed right-hand sides F, current W = Z1, Z2, Z3 *)
Theorem C24_block_system : forall La (c : rdc Rnum) solvereal solvecomplex n (la : La) Jv J h (F1 F2 F3 Z1 Z2 Z3 X1 X2 X3 : Z -> R),
  h <> 0 ->
  (forall b X, solvereal la b Jv = Ok X -> solution n (newton_matrix (U1 c / h) J) X b) ->
  (forall b1 b2 X Y, solvecomplex la b1 b2 Jv = Ok (X, Y) ->
     csolution n (newton_matrix (ALPH c / h) J) (newton_matrix (BETA c / h) (fun _ _ => 0)) X Y b1 b2) ->
  slvrad solvereal solvecomplex c la Jv h F1 F2 F3 Z1 Z2 Z3 = Ok (X1, X2, X3) ->
  let Lambda := fun k l => three (three (U1 c) 0 0 l) (three 0 (ALPH c) (- BETA c) l) (three 0 (BETA c) (ALPH c) l) k in
  block_solution n h Lambda J (three X1 X2 X3)
    (fun k i => three Z1 Z2 Z3 k i - rsum 1 3 (fun l => Lambda k l / h * three F1 F2 F3 l i)).
Proof. exact slvrad_block. Qed.
Print Assumptions C24_block_system.
(* for n = 1, J = 0: exact solves *)
Example C24_case : forall u a be, u <> 0 -> a * a + be * be <> 0 ->
  (forall b X : Z -> R, Ok (fun i => b i / u) = Ok X -> solution 1 (newton_matrix u (fun _ _ => 0)) X b) /\
  (forall b1 b2 X Y : Z -> R,
     Ok ((fun i => (a * b1 i + be * b2 i) / (a * a + be * be)), fun i => (a * b2 i - be * b1 i) / (a * a + be * be)) = Ok (X, Y) ->
     csolution 1 (newton_matrix a (fun _ _ => 0)) (newton_matrix be (fun _ _ => 0)) X Y b1 b2).
Proof.
  intros u a be Hu Hd. split.
  - intros b X E. injection E as <-. intros i Hi. rewrite diag_sum by lia. field. exact Hu.
  - intros b1 b2 X Y E. injection E as <- <-. intros i Hi.
    rewrite HessPathProofs.rsum_sub, HessPathProofs.rsum_add, !diag_sum by lia. split; field; exact Hd.
Qed.

Theorem C25_statistics : forall (K : num) W (jacob : W -> K -> (Z -> K) -> out W) mats evalF doscal newton estrad adv save (o : dopts K)
    fuel ifuel w h x xend Y a b c d e,
  pc (radau jacob mats evalF doscal newton estrad adv save o fuel ifuel w h x xend Y a b c d e) (fun st =>
    (q_nstep st = Z.of_nat (List.length (q_hist st)) /\
    q_naccpt st + (if d_onestep o then 1 else 0) = Z.of_nat (List.length (filter is_acc (q_hist st))) /\
    q_nrejct st = counted_rej (q_hist st) /\ q_naccpt st + q_nrejct st <= q_nstep st)%Z).
Proof. exact (@stat_lemma). Qed.
Print Assumptions C25_statistics.
Theorem C25_rejected_step_unchanged : forall (K : num) W (jacob : W -> K -> (Z -> K) -> out W) mats evalF doscal estrad adv save (o : dopts K) xend posneg hmaxn st xph,
  pc (@d_control K W jacob mats evalF doscal estrad adv save o xend posneg hmaxn st xph) (fun r =>
    (exists p l, q_hist (fst r) = p :: l /\ g_test p = Some false) -> q_Y (fst r) = q_Y st /\ q_x (fst r) = q_x st).
Proof. exact (@control_keeps). Qed.
Print Assumptions C25_rejected_step_unchanged.

Theorem C26_scalar_vector_tolerances : forall (K : num) n (A B : Z -> K) a r atol rtol, (1 <= n)%Z ->
  (forall i, (0 <= i < n)%Z -> A i = a /\ B i = r) ->
  exists at1 rt1 at2 rt2 tolst fnewt,
    @rd_setTestPolicy K n true 1 1 (fun _ => a) (fun _ => r) atol rtol = Ok (at1, rt1, tolst, fnewt) /\
    @rd_setTestPolicy K n false n n A B atol rtol = Ok (at2, rt2, tolst, fnewt) /\
    forall i, (1 <= i <= n)%Z -> at1 i = at2 i /\ rt1 i = rt2 i.
Proof. exact radau_tolerances. Qed.
Print Assumptions C26_scalar_vector_tolerances.
Example C26_case : forall i, (0 <= i < 3)%Z -> (fun _ : Z => 1 / 100) i = 1 / 100 /\ (fun _ : Z => 1 / 1000) i = 1 / 1000.
Proof. auto. Qed.

(* a step of size 1 was used; getLastTimeStep answers what hopt held before the call *)
Theorem C52_last_step_refuted : forall (garbage : R) (o : dopts Rnum), d_onestep o = false -> (0 <= d_nmax o)%Z ->
  exists st, @rs_radau Rnum (fun _ => 0) 7 (3 / 100) o 1 1 rs_w 1 0 1 (fun _ => 0) 0 0 0 0 garbage = Ok st /\
    q_x st = 1 /\ q_h st = garbage /\ exists p, q_hist st = (p :: nil)%list /\ g_h p = 1.
Proof. exact last_step_garbage. Qed.
Print Assumptions C52_last_step_refuted.

(* one-step mode: the solution is advanced, the abscissa is not, nothing is counted *)
Theorem C53_one_step_refuted : forall (K : num) W (jacob : W -> K -> (Z -> K) -> out W) mats evalF doscal newton estrad adv save (o : dopts K)
    fuel ifuel w h x xend Y a b c d e, d_onestep o = true ->
  pc (radau jacob mats evalF doscal newton estrad adv save o fuel ifuel w h x xend Y a b c d e) (fun st =>
    q_x st = x /\ q_naccpt st = 0%Z /\ exists w', q_Y st = adv w' Y).
Proof. exact (@onestep_x). Qed.
Print Assumptions C53_one_step_refuted.

Theorem C54_step_ratios : forall (Sg La : Type) userF userJ decomr decomc solvereal solvecomplex set_calhes n sh numjac atol rtol nit thet fnewt nfuel x0 xend
    (o : dopts Rnum), 0 < (d_safe o : R) < 1 -> (1 <= d_nit o)%Z -> (d_quot1 o : R) = 1 ->
  forall s fuel ifuel w h0 Y a b d e e',
  (s = 1 /\ x0 < xend) \/ (s = -1 /\ xend < x0 /\ x0 + xend < 0) -> snd (k_f w) = nil ->
  pc (full_call Sg La userF userJ decomr decomc solvereal solvecomplex set_calhes n sh numjac atol rtol nit thet fnewt nfuel o fuel ifuel w h0 x0 xend Y a b d e e')
   (fun st => forall b a older, next (q_hist st) b a older ->
    0 < s * g_h b <= 8 * (s * g_h a) /\ (s * g_h a / 20 <= s * g_h b \/ g_h b = xend - g_x b) /\
    (accepted a = false -> s * g_h a / 20 <= s * g_h b < s * g_h a)).
Proof. exact radau_ratios. Qed.
Print Assumptions C54_step_ratios.

(* guarding each use of the factorizations by "they are those of the current Jacobian matrix
   and step size" changes nothing, in any arithmetic *)
Theorem C55_factorizations_current : forall (K : num) (Sg La : Type) userF userJ
    (decomr : La -> K -> (Z -> K) -> out (La * (Z -> K))) decomc solvereal solvecomplex set_calhes n sh numjac c atol rtol nit thet fnewt nfuel o
    (PL : La -> (Z -> K) -> K -> bool),
  (forall la la' la'' J J' h, decomr la (ndiv (U1 c) h) J = Ok (la', J') ->
     decomc la' (ndiv (ALPH c) h) (ndiv (BETA c) h) J' = Ok la'' -> PL la'' J' h = true) ->
  let ok := fun (w : @wrk K Sg La) h => PL (k_la w) (k_jac w) h in
  let newton := k_newton userF solvereal solvecomplex n c nit thet fnewt nfuel in
  let estrad := k_estrad userF solvereal n c in
  let run newton estrad := radau (k_jacob userF userJ set_calhes n sh numjac) (k_mats decomr decomc c) (k_evalF userF) (k_doscal atol rtol)
    newton estrad (@k_adv K Sg La) (k_save c) o in
  forall fuel ifuel w h x xend Y a b d e e',
  run (fun w z x h hold Y => if ok w h then newton w z x h hold Y else UB "stale factorization")
      (fun w x h Y f r => if ok w h then estrad w x h Y f r else UB "stale factorization") fuel ifuel w h x xend Y a b d e e' =
  run newton estrad fuel ifuel w h x xend Y a b d e e'.
Proof. exact (@real_same). Qed.
Print Assumptions C55_factorizations_current.
(* linear algebra remembering the shift it was given *)
Example C55_case : forall (c : rdc QNum) (la la' la'' : Q) (J J' : Z -> Q) h,
  Ok ((U1 c / h)%Q, J) = Ok (la', J') -> Ok la' = Ok la'' -> Qeq_bool la'' (U1 c / h)%Q = true.
Proof. intros c la la' la'' J J' h E1 E2. injection E1 as <- <-. injection E2 as <-. apply Qeq_bool_iff. reflexivity. Qed.
