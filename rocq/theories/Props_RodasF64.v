(* C92, C93: the driver of Rodas in IEEE double precision (round to nearest, ties to even).
   F64 pow is the arithmetic, pow any function; v is the real number that a finite double stands
   for, Bpred and Bsucc the neighbouring doubles. *)
From Coq Require Import ZArith Reals Lra Lia List.
From Flocq Require Import Core BinarySingleNaN.
From Verif Require Import Base HessModel VecFun RodasModel RodasProofs RodasWitness F64 Rock4F64 StepF64 RodasF64 RodasF64Wit.
Open Scope R_scope.

(* C92: for any right-hand side, matrices and step: if the call returns, the abscissa reached is
   between the double before and the double after xend, and exactly xend if xend <= 2 x0; every step
   attempted starts and ends between x0 and the double after xend *)
Theorem C92_end : forall pow W Ax (prep : W -> f64 -> (Z -> f64) -> out (W * Ax)) (attempt : W -> Ax -> f64 -> f64 -> (Z -> f64) -> out (W * (Z -> f64) * f64))
  (o : ropts (F64 pow)) (x0 xend h0 : f64) fuel ifuel w y na nr nf st Y,
  is_finite x0 = true -> is_finite xend = true -> 0 <= v x0 < v xend -> v xend <= bpow radix2 1020 ->
  is_finite (o_safe o) = true -> 0 < v (o_safe o) <= 1 -> o_onestep o = false ->
  rodas (K := F64 pow) prep attempt o fuel ifuel w h0 x0 xend y na nr nf = Ok (st, Y) ->
  (is_finite (s_x st) = true /\ v (Bpred xend) <= v (s_x st) <= v (Bsucc xend) /\ v x0 <= v (s_x st)) /\
  (v xend <= 2 * v x0 -> v (s_x st) = v xend) /\
  (forall a, In a (s_hist st) -> is_finite (a_x a) = true /\ is_finite (a_h a) = true /\ v x0 <= v (a_x a) <= v (Bsucc xend) /\
     v x0 <= round radix2 (SpecFloat.fexp 53 1024) (round_mode mode_NE) (v (a_x a) + v (a_h a)) <= v (Bsucc xend)).
Proof.
  intros pow W Ax prep attempt o x0 xend h0 fuel ifuel w y na nr nf st Y F1 F2 H1 H2 F3 H3 H4 R.
  pose proof (rodas_f pow W Ax prep attempt o x0 xend F1 F2 H1 H2 F3 H3 H4 fuel ifuel w h0 y na nr nf) as P. rewrite R in P. destruct P as ((G1 & G2 & G3) & P2 & P3 & P4). cbn [fst] in *.
  split; [|split; [exact P4|]].
  - split; [exact G1|]. split; [split; assumption|assumption].
  - intros a Ha. destruct (P2 a Ha) as ((A1 & A2) & A3 & A4). split; [exact A1|]. split; [exact A3|]. split; [exact A2|exact A4].
Qed.
Print Assumptions C92_end.
(* an interval that meets the hypotheses, and a run that returns (see C92_exact_end_refuted) *)
Example C92_case : is_finite (f_lit 6 (-2)) = true /\ is_finite (f_lit 9 (-1)) = true /\ is_finite (o_safe (std_opts (fun x _ => x))) = true /\
  nltb (n := F64 (fun x _ => x)) (f_lit 6 (-2)) (f_lit 9 (-1)) = true.
Proof. repeat split; vm_compute; reflexivity. Qed.

(* "x is xend when a call returns" is false: y' = 0 from 0.06 to 0.9, first step 1, any of the three
   methods, ends beside 0.9 *)
Theorem C92_exact_end_refuted : exists x0 xend h0 : f64, forall pow meth C na nr nf, rocoe (K := F64 pow) meth = Ok C ->
  exists st Y, rodas (K := F64 pow) (sc_prep (K := F64 pow) (B754_zero false)) (sc_attempt (K := F64 pow) (B754_zero false) C) (std_opts pow) 1 1
     (zworld pow) h0 x0 xend (fun _ => B754_zero false) na nr nf = Ok (st, Y) /\ neqb (n := F64 pow) (s_x st) xend = false.
Proof.
  exists (f_lit 6 (-2)), (f_lit 9 (-1)), (f_lit 1 0). intros pow meth C na nr nf HC.
  destruct (off pow C _ _ na nr nf (misses_09 pow meth C HC)) as (st & R & E). exists st, (zY pow). split; [exact R|exact E].
Qed.
Print Assumptions C92_exact_end_refuted.
(* true if xend <= 2 x0 *)
Theorem C92_exact_end_partial : forall pow W Ax (prep : W -> f64 -> (Z -> f64) -> out (W * Ax)) (attempt : W -> Ax -> f64 -> f64 -> (Z -> f64) -> out (W * (Z -> f64) * f64))
  (o : ropts (F64 pow)) (x0 xend h0 : f64) fuel ifuel w y na nr nf st Y,
  is_finite x0 = true -> is_finite xend = true -> v x0 < v xend <= 2 * v x0 -> v xend <= bpow radix2 1020 ->
  is_finite (o_safe o) = true -> 0 < v (o_safe o) <= 1 -> o_onestep o = false ->
  rodas (K := F64 pow) prep attempt o fuel ifuel w h0 x0 xend y na nr nf = Ok (st, Y) -> v (s_x st) = v xend.
Proof.
  intros pow W Ax prep attempt o x0 xend h0 fuel ifuel w y na nr nf st Y F1 F2 H1 H2 F3 H3 H4 R.
  assert (H5 : 0 <= v x0 < v xend) by lra.
  destruct (C92_end pow W Ax prep attempt o x0 xend h0 fuel ifuel w y na nr nf st Y F1 F2 H5 H2 F3 H3 H4 R) as (_ & P & _). apply P. lra.
Qed.
Print Assumptions C92_exact_end_partial.

(* C93: "a call on which every step of nonzero size is accepted returns or throws" is false: y' = 0 from
   1000000000 to 1000000000.0001, any of the three methods, the default options: no number of passes
   is enough.  (The step goes to xend; it is not recognised as the last; the next step has size 0, its
   error estimate is 0/0, and the inner loop has no bound.) *)
Theorem C93_returns_refuted : exists x0 xend h0 : f64, nltb (n := F64 (fun x _ => x)) x0 xend = true /\
  forall pow meth C na nr nf, rocoe (K := F64 pow) meth = Ok C -> forall fuel ifuel,
  rodas (K := F64 pow) (sc_prep (K := F64 pow) (B754_zero false)) (sc_attempt (K := F64 pow) (B754_zero false) C) (std_opts pow) fuel ifuel
     (zworld pow) h0 x0 xend (fun _ => B754_zero false) na nr nf = Diverge.
Proof.
  exists (f_lit 1 9), (f_lit 10000000000001 (-4)), (f_lit 1 0). split; [vm_compute; reflexivity|]. intros pow meth C na nr nf HC fuel ifuel.
  exact (hangs pow meth C HC _ _ fuel ifuel na nr nf (lands_1e9 pow meth C HC)).
Qed.
Print Assumptions C93_returns_refuted.
Example C93_case : exists C, rocoe (K := F64 (fun x _ => x)) 2 = Ok C.
Proof. eexists. reflexivity. Qed.
