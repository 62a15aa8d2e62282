(* Properties C87 to C90: the test problems E5 and AvcF.  rat: the program is built with RAT; fe, fl, fs: any functions for exp, log, sinh. *)
From Coq Require Import Reals Lra.
From Flocq Require Import BinarySingleNaN.
From Verif Require Import Base F64 HessModel E5Model AvcModel FlowSpec AvcProofs AvcNan.
Open Scope R_scope.

(* E5 is the problem of Hairer & Wanner *)
Theorem C87_e5_field : forall t y res, wp (e5_rhs (K := Rnum) t y res) (fun d => forall k, (0 <= k < 4)%Z ->
  d k = e5_field (789 / 10 ^ 12) (11 * 10 ^ 6) (10 ^ 6) 1130 y k).
Proof. exact e5_is_field. Qed.
Print Assumptions C87_e5_field.
Example C87_e5_case : e5_field 2 3 5 7 (fun k => IZR k) 2 = 2 * 0 - 3 * 0 * 2 - 5 * 7 * 1 * 2 + 7 * 3.
Proof. reflexivity. Qed.
(* the invariant that the code relies on to compute its third component *)
Theorem C87_e5_invariant : forall y a b, a <= b -> solves 4 (e5_rhs (K := Rnum)) y a b ->
  y b 1%Z - y b 2%Z - y b 3%Z = y a 1%Z - y a 2%Z - y a 3%Z.
Proof. exact e5_invariant. Qed.
Print Assumptions C87_e5_invariant.
Example C87_e5_invariant_case : solves 4 (e5_rhs (K := Rnum)) e5_decay 0 1 /\ e5_decay 0 3%Z = 1 /\ e5_decay 1 3%Z < 1.
Proof.
  split; [exact e5_decay_solves|]. unfold e5_decay. cbn [Z.eqb Pos.eqb]. split; [rewrite Rmult_0_r; exact exp_0|]. apply Rlt_le_trans with (exp 0); [apply exp_increasing; lra|rewrite exp_0; apply Rle_refl].
Qed.
Theorem C87_e5_positive : keeps_positive 4 (e5_rhs (K := Rnum)).
Proof. exact e5_positive. Qed.
Print Assumptions C87_e5_positive.
(* AvcF: the amounts of the five species *)
Theorem C88_amounts : forall fe fl fs rat y a b i, a <= b -> solves 21 (avc_rhs (K := Rnum) fe fl fs rat) y a b -> (forall t, a <= t <= b -> nonempty (y t)) ->
  (0 <= i < 5)%Z -> amount i (y b) = amount i (y a).
Proof. exact avc_amount. Qed.
Print Assumptions C88_amounts.
(* the membrane of the neurons, then that of the astrocytes, carries the charge that left the cells *)
Theorem C88_neuron_charge : forall fe fl fs rat y a b, a <= b -> solves 21 (avc_rhs (K := Rnum) fe fl fs rat) y a b -> (forall t, a <= t <= b -> nonempty (y t)) ->
  cap 10000 * cells rat * y b 15%Z - 9648530929 / 10 ^ 8 * 25000 * charge 0 17 (y b) =
  cap 10000 * cells rat * y a 15%Z - 9648530929 / 10 ^ 8 * 25000 * charge 0 17 (y a).
Proof. exact avc_charge_n. Qed.
Print Assumptions C88_neuron_charge.
Theorem C88_astrocyte_charge : forall fe fl fs rat y a b, a <= b -> solves 21 (avc_rhs (K := Rnum) fe fl fs rat) y a b -> (forall t, a <= t <= b -> nonempty (y t)) ->
  cap 9000 * (ratio rat * cells rat) * y b 16%Z - 9648530929 / 10 ^ 8 * 25000 * charge 5 18 (y b) =
  cap 9000 * (ratio rat * cells rat) * y a 16%Z - 9648530929 / 10 ^ 8 * 25000 * charge 5 18 (y a).
Proof. exact avc_charge_a. Qed.
Print Assumptions C88_astrocyte_charge.
(* the initial state has volumes that are not empty; through every state goes a curve that solves at one instant *)
Example C88_case : (forall rat x, wp (avc_init (K := Rnum) rat x) (fun y => nonempty y /\ 1 - y 18%Z - y 17%Z = 2 / 10 /\ y 7%Z = 6 / 10 ^ 4 /\ y 20%Z = 0)) /\
  (forall fe fl fs rat (x : Z -> R), exists y, (forall k, y 0 k = x k) /\ solves 21 (avc_rhs (K := Rnum) fe fl fs rat) y 0 0).
Proof. split; [exact init_nonempty|exact avc_instant]. Qed.
(* E5 and AvcF are declared autonomous; E5 is *)
Theorem C89_e5_autonomous : autonomous 4 (e5_rhs (K := Rnum)).
Proof. exact e5_autonomous. Qed.
Print Assumptions C89_e5_autonomous.
(* AvcF is not: at every state like the initial one, calls with different t differ in the calcium of the astrocytes *)
Theorem C89_avc_depends_on_t_refuted : avc_autonomous = true /\ forall fl fs rat (x z : Z -> R) t s, x 18%Z <> 0 -> x 7%Z <> 0 -> x 7%Z + 2 / 10 ^ 4 <> 0 -> x 20%Z = 0 -> t <> s ->
  wp (avc_rhs (K := Rnum) exp fl fs rat t x z) (fun d => wp (avc_rhs (K := Rnum) exp fl fs rat s x z) (fun e => d 7%Z <> e 7%Z)).
Proof. exact avc_t_wp. Qed.
Print Assumptions C89_avc_depends_on_t_refuted.
Theorem C89_avc_autonomous_refuted : forall fl fs rat, ~ autonomous 21 (avc_rhs (K := Rnum) exp fl fs rat).
Proof. exact avc_not_autonomous. Qed.
Print Assumptions C89_avc_autonomous_refuted.
(* AvcF in double precision, any pow, log and sinh, any exp with exp(0) = 1: NaN at a membrane potential of 0 (and of 8) *)
Theorem C90_avc_finite_refuted : forall pow (fe fl fs : f64 -> f64) rat, (forall s, fe (B754_zero s) = f_of 1) -> forall t (x z : Z -> f64),
  (forall s, x 15%Z = B754_zero s -> wp (avc_rhs (K := F64 pow) fe fl fs rat t x z) (fun d => d 2%Z = B754_nan /\ d 15%Z = B754_nan)) /\
  (forall s, x 16%Z = B754_zero s -> wp (avc_rhs (K := F64 pow) fe fl fs rat t x z) (fun d => d 7%Z = B754_nan /\ d 16%Z = B754_nan)) /\
  (x 15%Z = f_of 8 -> wp (avc_rhs (K := F64 pow) fe fl fs rat t x z) (fun d => d 0%Z = B754_nan /\ d 15%Z = B754_nan)).
Proof. exact avc_nan. Qed.
Print Assumptions C90_avc_finite_refuted.
(* one of these states: all concentrations and volumes positive, the membrane potential of the neurons 0 *)
Example C90_case : let x k := if (k =? 15)%Z then B754_zero false : f64 else if (k =? 16)%Z then f_of (-73) else f_of 1 in
  x 15%Z = B754_zero false /\ (forall k, (k =? 15)%Z = false -> (k =? 16)%Z = false -> x k = f_of 1).
Proof. cbv zeta. split; [reflexivity|]. intros k H1 H2. rewrite H1, H2. reflexivity. Qed.
