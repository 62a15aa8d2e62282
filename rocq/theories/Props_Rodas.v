(* Properties C13 to C19 (Rodas).  The driver is run with fuel bounds; [pc m Q]: if m
   returns normally, its result satisfies Q, whatever the fuel. *)
From Coq Require Import Reals Lra QArith.
From Verif Require Import Base JacModel RodasModel RodasProofs RodasReal RodasTop RodasTerm RodasFinal RodasWitness.
Open Scope R_scope.

(* y' = 1, y(0) = 0, from 0 to 1, with the real step code and the coefficients of method 1:
   the solver's solution is beyond 1/2, the caller's array still holds 0 *)
Theorem C13_result_delivered_refuted : exists st,
  @rodas Rnum _ _ (@sc_prep Rnum 1) (@sc_attempt Rnum 1 meth1) (opts false) 2 1 (@sc_world Rnum) 1 0 1 (fun _ => 0) 0 0 0
    = Ok (st, fun _ => 0) /\ s_x st = 1 /\ 1 / 2 < s_Y st 1%Z.
Proof. exact undelivered. Qed.
Print Assumptions C13_result_delivered_refuted.

Theorem C14_vector_tolerances_refuted : forall (K : num) n (_atol _rtol atol rtol : Z -> K), (1 <= n)%Z ->
  exists msg, setTestPolicy n false n n _atol _rtol atol rtol = UB msg.
Proof. exact vector_tolerances. Qed.
Print Assumptions C14_vector_tolerances_refuted.
Theorem C14_scalar_tolerances_partial : forall (K : num) n lenA lenR (_atol _rtol atol rtol : Z -> K),
  (0 <= n)%Z -> (1 <= lenA)%Z -> (1 <= lenR)%Z ->
  wp (setTestPolicy n true lenA lenR _atol _rtol atol rtol) (fun r =>
    forall i, (1 <= i <= n)%Z -> fst r i = _atol 0%Z /\ snd r i = _rtol 0%Z).
Proof. exact scalar_tolerances. Qed.
Print Assumptions C14_scalar_tolerances_partial.

Theorem C15_forward : forall (Sg La : Type)
    (userF : Sg -> R -> (Z -> R) -> Sg * (Z -> R))
    (userJ : Sg -> R -> (Z -> R) -> (Z -> R) -> (Z -> R) -> Sg * (Z -> R))
    (userDt : Sg -> R -> (Z -> R) -> Sg * (Z -> R))
    (decomr : La -> R -> (Z -> R) -> out (La * (Z -> R)))
    (solvereal : La -> (Z -> R) -> (Z -> R) -> out (Z -> R))
    (set_calhes : La -> La) n sh numjac autonms use_DF_t meth (C : rcoef Rnum) (atol rtol junk : Z -> R)
    (o : ropts Rnum) x0 xend h0 fuel ifuel s0 la0 jac0 y a b c,
  @rocoe Rnum meth = Ok C -> 0 < (o_safe o : R) <= 1 -> x0 < xend ->
  pc (rodas (@r_prep Rnum Sg La userF userJ userDt set_calhes n sh numjac autonms use_DF_t r_uround junk)
            (@r_attempt Rnum Sg La userF decomr solvereal n autonms C atol rtol)
            o fuel ifuel (mkW (s0, nil) la0 jac0) h0 x0 xend y a b c)
    (fun r => let st := fst r in
      (o_onestep o = false -> s_x st = xend) /\ x0 <= s_x st <= xend /\
      s_x st = match s_hist st with nil => x0 | a :: _ => if a_acc a then a_x a + a_h a else a_x a end /\
      (forall a, In a (s_hist st) -> x0 <= a_x a < a_x a + a_h a /\ a_x a + a_h a <= xend) /\
      (forall b a older, follows (s_hist st) b a older -> a_x b = if a_acc a then a_x a + a_h a else a_x a) /\
      (forall t, In t (snd (w_f (s_w st))) -> x0 <= t <= xend \/
         (autonms = false /\ use_DF_t = false /\ exists x, x0 <= x <= xend /\
          t = x + sqrt (1 / 10 ^ 16 * Rmax (1 / 10 ^ 5) (Rabs x))))).
Proof. exact forward_lemma. Qed.
Print Assumptions C15_forward.
(* a run that returns normally, with the real step code *)
Example C15_case : exists C, @rocoe Rnum 1 = Ok C /\ 0 < (o_safe (opts false) : R) <= 1 /\
  exists r, @rodas Rnum _ _ (@sc_prep Rnum 1) (@sc_attempt Rnum 1 meth1) (opts false) 2 1 (@sc_world Rnum) 1 0 1 (fun _ => 0) 0 0 0 = Ok r.
Proof.
  eexists. split; [reflexivity|]. split; [cbn; lra|]. destruct undelivered as (st & H & _). eexists. exact H.
Qed.

(* after a rejection and an acceptance the step is multiplied by 24 *)
Theorem C16_step_factors_refuted : exists st older,
  @rodas Rnum _ _ sp_prep sp_attempt (opts false) 2 3 (false :: false :: true :: true :: nil) 1 0 tiny (fun _ => 0) 0 0 0
    = Ok (st, fun _ => 0) /\
  exists b a r, s_hist st = b :: a :: r :: older /\ a_acc r = false /\ a_acc a = true /\
    a_x b = a_x a + a_h a /\ a_h b = 24 * a_h a /\ 0 < a_h a.
Proof. exact jump. Qed.
Print Assumptions C16_step_factors_refuted.
(* what holds: a follows b in time; s = 1 forward, s = -1 backward *)
Theorem C16_step_factors_partial : forall W Ax (prep : W -> R -> (Z -> R) -> out (W * Ax)) attempt (o : ropts Rnum) x0 h0 xend s,
  0 < (o_safe o : R) <= 1 ->
  (s = 1 /\ x0 < xend) \/ (s = -1 /\ xend < x0 /\ x0 + xend < 0) ->
  forall fuel ifuel w y a b c,
  pc (rodas prep attempt o fuel ifuel w h0 x0 xend y a b c) (fun r => forall b a older,
    follows (s_hist (fst r)) b a older ->
    (0 < s * a_h b <= s * (xend - x0) /\
    (s * a_h b <= 60006 / 10000 * (s * a_h a) \/ s * a_h a < 5 / 10 ^ 15) /\
    (s * a_h a / 5 <= s * a_h b \/ a_h b = xend - a_x b) /\
    (a_acc a = false -> s * a_h b < s * a_h a) /\
    (a_acc a = true -> after_rejection older = true ->
       s * a_h b <= 10001 / 10000 * (s * a_h a) \/ s * a_h a < 5 / 10 ^ 15))).
Proof. exact factors_lemma. Qed.
Print Assumptions C16_step_factors_partial.
Theorem C16_rejected_step_unchanged : forall (K : num) W Ax attempt (o : ropts K) posneg hmaxn (aux : Ax) (st : @rst K W),
  pc (r_body attempt o posneg hmaxn aux st) (fun st' => s_reject st' = true ->
    s_Y st' = s_Y st /\ s_x st' = s_x st).
Proof. exact reject_keeps. Qed.
Print Assumptions C16_rejected_step_unchanged.

(* four attempts, three accepted, no rejection counted *)
Theorem C17_statistics_refuted : exists st,
  @rodas Rnum _ _ sp_prep sp_attempt (opts false) 4 2 (false :: true :: true :: true :: nil) 1 0 1 (fun _ => 0) 0 0 0
    = Ok (st, fun _ => 0) /\ s_naccpt st = 3%Z /\ s_nrejct st = 0%Z /\ s_nstep st = 4%Z.
Proof. exact miscount. Qed.
Print Assumptions C17_statistics_refuted.
(* the other counters are exact; late_rej counts the rejections after the second acceptance *)
Theorem C17_statistics_partial : forall (K : num) W Ax (prep : W -> K -> (Z -> K) -> out (W * Ax)) attempt (o : ropts K) fuel ifuel w h x xend y a b c,
  pc (rodas prep attempt o fuel ifuel w h x xend y a b c) (fun r => let st := fst r in
    let attempted := Z.of_nat (List.length (s_hist st)) in
    let accepted := Z.of_nat (List.length (filter (@a_acc K) (s_hist st))) in
    (s_nstep st = attempted /\ s_ndec st = attempted /\ s_nsol st = 6 * attempted /\
    s_naccpt st = accepted /\ s_njac st = accepted /\ s_naccpt st + s_nrejct st <= attempted /\
    s_nrejct st = late_rej (s_hist st))%Z).
Proof. exact statistics_lemma. Qed.
Print Assumptions C17_statistics_partial.

(* a right-hand side answering NaN: the real step code never comes back, whatever nmax *)
Theorem C18_terminates_refuted : forall (C : rcoef NanQ) (o : ropts NanQ) fuel ifuel,
  @rodas NanQ _ _ (@sc_prep NanQ None) (@sc_attempt NanQ None C) o fuel ifuel (@sc_world NanQ)
     (Some 1%Q) (Some 0%Q) (Some 1%Q) (fun _ => Some 0%Q) (Some 0%Q) (Some 0%Q) (Some 0%Q) = Diverge.
Proof. exact nan_spins. Qed.
Print Assumptions C18_terminates_refuted.
(* more generally, any arithmetic and any estimator that never passes the test *)
Theorem C18_never_accepted_never_ends : forall (K : num) W Ax (prep : W -> K -> (Z -> K) -> out (W * Ax)) attempt (o : ropts K) w h x xend y a b c,
  (forall w aux x h Y, exists r w' Y', attempt w aux x h Y = Ok (w', Y', r) /\ nleb r (nlit 1 0) = false) ->
  (forall w x y, exists w' aux, prep w x y = Ok (w', aux)) ->
  nleb (nmul (nlit 1 (-1)) (CMacros.mABS h)) (nmul (CMacros.mABS x) r_uround) = false ->
  forall fuel ifuel, rodas prep attempt o fuel ifuel w h x xend y a b c = Diverge.
Proof. exact rodas_spins. Qed.
Print Assumptions C18_never_accepted_never_ends.
(* what holds: if small enough steps pass the error test, every call ends *)
Theorem C18_terminates_partial : forall W Ax (prep : W -> R -> (Z -> R) -> out (W * Ax)) attempt (o : ropts Rnum),
  0 < (o_safe o : R) < 1 -> forall x0 h0 xend s hmin,
  (s = 1 /\ x0 < xend) \/ (s = -1 /\ xend < x0 /\ x0 + xend < 0) -> 0 < hmin ->
  (forall w x y, prep w x y <> Diverge) ->
  (forall w aux x h Y, Rabs h <= hmin -> pc (attempt w aux x h Y) (fun r => snd r <= 1)) ->
  (forall w aux x h Y, attempt w aux x h Y <> Diverge) ->
  forall w y a b c, exists k, forall fuel ifuel, (k <= ifuel)%nat ->
  (Z.of_nat fuel > o_nmax o)%Z -> (1 <= fuel)%nat ->
  rodas prep attempt o fuel ifuel w h0 x0 xend y a b c <> Diverge.
Proof. exact rodas_ends. Qed.
Print Assumptions C18_terminates_partial.
Example C18_case : forall (w : unit) (aux : unit) (x h : R) (Y : Z -> R), Rabs h <= 1 / 2 ->
  pc (Ok (tt, Y, 2 * Rabs h)) (fun r => snd r <= 1).
Proof. intros. cbn. lra. Qed.

(* from 2 to 1: the default mode never returns; a single step leads to 5 *)
Theorem C19_rodas_backward_refuted :
  (exists st, @rodas Rnum _ _ sp_prep sp_attempt (opts true) 1 1 (true :: nil) 1 2 1 (fun _ => 0) 0 0 0 = Ok (st, fun _ => 0) /\
     s_x st = 5) /\
  (forall W Ax (prep : W -> R -> (Z -> R) -> out (W * Ax)) attempt h0 fuel ifuel w y a b c r,
     rodas prep attempt (opts false) fuel ifuel w h0 2 1 y a b c <> Ok r).
Proof. exact backward_two_one. Qed.
Print Assumptions C19_rodas_backward_refuted.
(* backward from x0 with x0 + xend >= 0 (for instance from 2 to 1): never a normal return,
   every step goes away from xend *)
Theorem C19_rodas_backward_never_returns : forall W Ax (prep : W -> R -> (Z -> R) -> out (W * Ax)) attempt (o : ropts Rnum) x0 h0 xend,
  xend < x0 -> 0 <= x0 + xend -> forall fuel ifuel w y a b c,
  pc (rodas prep attempt o fuel ifuel w h0 x0 xend y a b c) (fun r =>
    o_onestep o = true /\ x0 <= s_x (fst r) /\ List.Forall (fun a : att Rnum => 0 <= a_h a) (s_hist (fst r))).
Proof. exact backward_never. Qed.
Print Assumptions C19_rodas_backward_never_returns.
Theorem C19_rodas_backward_partial : forall W Ax (prep : W -> R -> (Z -> R) -> out (W * Ax)) attempt (o : ropts Rnum) x0 h0 xend fuel ifuel w y a b c,
  0 < (o_safe o : R) <= 1 -> xend < x0 -> x0 + xend < 0 ->
  pc (rodas prep attempt o fuel ifuel w h0 x0 xend y a b c) (fun r => let st := fst r in
    (o_onestep o = false -> s_x st = xend) /\ xend <= s_x st <= x0 /\
    (forall a, In a (s_hist st) -> a_h a < 0)).
Proof. exact backward_ok. Qed.
Print Assumptions C19_rodas_backward_partial.
