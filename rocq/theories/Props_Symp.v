(* Properties C44 to C47, C56, C57, C60 (symplectic integrator).  idR, id: the conversion of a
   Double to double, exact here; ta, tb, tq: the tables of the class GaussianMethod and Extrap. *)
From Coq Require Import Reals Lra Lia QArith.
From Verif Require Import Base HessModel Spec SympModel SympSpec SympTables SympProofs SympTop SympQuad SympTabProofs SympTabTop SympEnd.
Open Scope R_scope.

Theorem C44_failure_keeps : forall (K : num) n s long nar f ta tb tq itermax (h : K) fs o u o' u',
  step n s long nar f ta tb tq itermax h fs o u = Ok (false, o', u') -> u' = u /\ oe o' = oe o.
Proof. exact @failure_keeps. Qed.
Print Assumptions C44_failure_keeps.
(* after any number of steps of the same object, whatever its uninitialised members contain *)
Theorem C44_gauss_step : forall n s long f ta tb tq, (1 <= n)%Z -> (1 <= s)%Z ->
  forall itermax h fs o u, reachable n s long idR f ta tb tq o -> can_start n s h fs o ->
  wp (step n s long idR f ta tb tq itermax h fs o u) (fun x => let '(ok, _, u') := x in
    if ok : bool then exists Y, residual n s (TA s ta) h f u Y <= thr (K := Rnum) long /\ forall l, (0 <= l < n)%Z -> u' l = advanced s tb h f u Y l
    else u' = u).
Proof. exact (fun n s long f ta tb tq Hn Hs itermax h fs o u => gauss n s long f ta tb tq (Z.le_trans 0 1 n Z.le_0_1 Hn) Hs itermax h fs o u Hn). Qed.
Print Assumptions C44_gauss_step.
(* q' = p, p' = 0 with the two-stage method: five sweeps allowed, it converges; then a second, extrapolated, step *)
Definition free (u : vec QNum) : vec QNum := fun i => if (i =? 0)%Z then u 1%Z else 0%Q.
Definition start2 : out (obj (K := QNum)) := construct (K := QNum) 2 (tabv (tab_la false 2)) (tabv (tab_lb false 2)) (tabv (tab_lc false 2))
  (fun _ => 7%Q) (fun _ => 7%Q) (fun _ => 7%Q) (fun _ => 7%Q) (fun _ => 7%Q) (fun _ => 7%Q) 0.
Definition step2 fs (x : obj (K := QNum) * vec QNum) := step (K := QNum) 2 2 false (fun x => x) free (tabv (tab_la false 2)) (tabv (tab_lb false 2)) (tabv (tab_lc false 2)) 5 (1 # 4)%Q fs (fst x) (snd x).
Example C44_case : match bind start2 (fun o => step2 true (o, fun i => if (i =? 0)%Z then 1%Q else 2%Q)) with
  | Ok (ok, o, u) => ok = true /\ oiter o = 2%Z /\ (u 0%Z == 3 # 2)%Q /\ (u 1%Z == 2)%Q /\
      match step2 false (o, u) with Ok (ok, o, u) => ok = true /\ (u 0%Z == 2)%Q /\ (u 1%Z == 2)%Q | _ => False end
  | _ => False end.
Proof. vm_compute. repeat split. Qed.

(* C: the symmetric matrix of the invariant.  The increment of the invariant is the defect of the
   stages, minus the defect of Cooper's condition *)
Theorem C45_quadratic_invariants : forall n s long f ta tb tq C itermax h fs o u, (1 <= n)%Z -> (1 <= s)%Z -> quad_invariant n C f ->
  reachable n s long idR f ta tb tq o -> can_start n s h fs o ->
  wp (step n s long idR f ta tb tq itermax h fs o u) (fun x => let '(ok, _, u') := x in ok = true ->
    exists Y, residual n s (TA s ta) h f u Y <= thr (K := Rnum) long /\
      bil n C u' u' - bil n C u u =
        2 * h * rsum 0 (s - 1) (fun i => tb i * bil n C (fun l => stage_eq s (TA s ta) h f u Y i l - Y i l) (f (Y i)))
        - h * h * rsum 0 (s - 1) (fun i => rsum 0 (s - 1) (fun j => cooper (TA s ta) tb i j * bil n C (f (Y i)) (f (Y j)))) /\
      (residual n s (TA s ta) h f u Y = 0 -> (forall i j, (0 <= i < s)%Z -> (0 <= j < s)%Z -> cooper (TA s ta) tb i j = 0) -> bil n C u' u' = bil n C u u)).
Proof. exact quad_step. Qed.
Print Assumptions C45_quadratic_invariants.
(* rotation: y' = (y2, -y1), invariant y1^2 + y2^2; the midpoint rule satisfies Cooper's condition *)
Example C45_case : quad_invariant 2 (fun p q => if (p =? q)%Z then 1 else 0) (fun y i => if (i =? 0)%Z then y 1%Z else - y 0%Z) /\
  cooper (fun _ _ => 1 / 2) (fun _ => 1) 0 0 = 0.
Proof.
  split; [split|].
  - intros p q Hp Hq. rewrite Z.eqb_sym. reflexivity.
  - intros y. cbv -[Rplus Rmult Ropp IZR]. lra.
  - unfold cooper. lra.
Qed.
(* the second term of C45_quadratic_invariants, for the tables of the code *)
Theorem C45_table_drift : forall (long : bool) s n C h (F : Z -> vec Rnum), (2 <= s <= 16)%Z ->
  Rabs (h * h * rsum 0 (s - 1) (fun i => rsum 0 (s - 1) (fun j => cooper (tab_a long s) (tab_b long s) i j * bil n C (F i) (F j))))
  <= h * h * (if long then 3 / IZR (10 ^ 34) else 3 / IZR (10 ^ 13)) * rsum 0 (s - 1) (fun i => rsum 0 (s - 1) (fun j => Rabs (bil n C (F i) (F j)))).
Proof. exact table_drift. Qed.
Print Assumptions C45_table_drift.

(* with at least two stages the extrapolation is right exactly when the problem has as many
   components as there are stages *)
Theorem C46_extrapolation_refuted : forall n s, (2 <= s)%Z -> (1 <= n)%Z -> n <> s ->
  exists q F Y u : vec Rnum, ~ wp (extrap n s idR q F Y u) (extrapolated n s q F u).
Proof. exact not_square. Qed.
Print Assumptions C46_extrapolation_refuted.
(* fewer components than stages: every second step of the same size accesses elements outside the arrays *)
Theorem C46_outside_refuted : forall (K : num) n s long nar f ta tb tq itermax (h : K) o u, (1 <= n < s)%Z -> (oldh o =? h)%num = true ->
  exists msg, step n s long nar f ta tb tq itermax h false o u = UB msg.
Proof. exact @step_ub. Qed.
Print Assumptions C46_outside_refuted.
Example C46_case : match construct (K := QNum) 1 (fun _ => 0%Q) (fun _ => 0%Q) (fun _ => 0%Q) (fun _ => 0%Q) (fun _ => 0%Q) (fun _ => 0%Q) (fun _ => 0%Q) (fun _ => 0%Q) (fun _ => 0%Q) 0 with
  | Ok o => (oldh o =? nlit 1 0)%num = true | _ => False end.
Proof. reflexivity. Qed.
Theorem C46_square_partial : forall n (q F Y u : vec Rnum), (1 <= n)%Z -> wp (extrap n n idR q F Y u) (extrapolated n n q F u).
Proof. exact square. Qed.
Print Assumptions C46_square_partial.
(* missing: n <> s, where it is false; there is no undefined behaviour as long as s <= n *)
Theorem C46_inside_partial : forall (K : num) n s nar (q F Y u : vec K), (1 <= s <= n)%Z ->
  wp (extrap n s nar q F Y u) (fun Y' => forall p, (s * (s - 1) + n <= p)%Z -> Y' p = Y p).
Proof. exact @extrap_safe. Qed.
Print Assumptions C46_inside_partial.

Theorem C47_bounded : forall (K : num) n s long nar f ta tb tq, (0 <= n)%Z -> (1 <= s)%Z ->
  forall itermax (h : K) fs o u, can_start n s h fs o ->
  wp (step n s long nar f ta tb tq itermax h fs o u) (fun x => let '(ok, o', _) := x in
    (onev o' - onev o <= Z.max 0 itermax * s)%Z /\ (onev o' - onev o = (if ok : bool then oiter o' + 1 else oiter o') * s)%Z).
Proof. exact @step_bounded. Qed.
Print Assumptions C47_bounded.
(* the bound is attained by a right-hand side for which the iteration does not converge *)
Example C47_case : match bind (construct (K := QNum) 1 (fun _ => 1%Q) (fun _ => 1%Q) (fun _ => 0%Q) (fun _ => 0%Q) (fun _ => 0%Q) (fun _ => 0%Q) (fun _ => 0%Q) (fun _ => 0%Q) (fun _ => 0%Q) 0)
  (fun o => step (K := QNum) 1 1 false (fun x => x) (fun u i => (u i + 1)%Q) (fun _ => 1%Q) (fun _ => 1%Q) (fun _ => 0%Q) 6 1%Q true o (fun _ => 1%Q)) with
  | Ok (ok, o, u) => ok = false /\ onev o = 6%Z | _ => False end.
Proof. vm_compute. auto. Qed.

Theorem C56_cooper_double : forall s, (2 <= s <= 16)%Z -> forall i j, (0 <= i < s)%Z -> (0 <= j < s)%Z ->
  Rabs (cooper (tab_a false s) (tab_b false s) i j) <= 3 / IZR (10 ^ 13).
Proof. exact cooper_double. Qed.
Print Assumptions C56_cooper_double.
Theorem C56_cooper_long : forall s, (2 <= s <= 16)%Z -> forall i j, (0 <= i < s)%Z -> (0 <= j < s)%Z ->
  Rabs (cooper (tab_a true s) (tab_b true s) i j) <= 3 / IZR (10 ^ 34).
Proof. exact cooper_long. Qed.
Print Assumptions C56_cooper_long.
(* the sums of b_i c_i^(k-1) and a_ij c_j^(k-1) of the Gauss methods: order 2s *)
Theorem C56_order : forall (long : bool) s, (2 <= s <= 16)%Z -> let eps := if long then 1 / IZR (10 ^ 16) else 2 / IZR (10 ^ 12) in
  (forall k, (1 <= k <= 2 * s)%Z -> Rabs (defect_B s (tab_a long s) (tab_b long s) k) <= eps) /\
  (forall i k, (0 <= i < s)%Z -> (1 <= k <= s)%Z -> Rabs (defect_C s (tab_a long s) i k) <= eps).
Proof. exact order_cond. Qed.
Print Assumptions C56_order.
(* the "double" tables have 12 digits: the condition does not hold to double precision (2^-53 is about 1.1e-16) *)
Theorem C56_double_precision_refuted : forall s, (2 <= s <= 16)%Z ->
  exists i j, (0 <= i < s)%Z /\ (0 <= j < s)%Z /\ 1 / IZR (10 ^ 14) <= Rabs (cooper (tab_a false s) (tab_b false s) i j).
Proof. exact cooper_inexact. Qed.
Print Assumptions C56_double_precision_refuted.
(* the tables are filled in: the two-stage coefficients 1/4, 1/2 *)
Example C56_case : tab_a false 2 0%Z 0%Z = 1 / 4 /\ tab_a false 2 0%Z 1%Z = - 386751345948 / IZR (10 ^ 13).
Proof. split; unfold tab_a, tabv; cbn [nlit Rnum]; rewrite Rlit_div by reflexivity; [cbn; lra|reflexivity]. Qed.

(* constant slopes are extrapolated wrongly, whether the extrapolation starts from the old or from the new value *)
Theorem C57_extrapolation_tables_refuted : forall (long : bool) s, (2 <= s <= 16)%Z -> exists i, (0 <= i < s)%Z /\
  4 / IZR (10 ^ 2) <= Rabs (row_sum s (tab_q long s) i - row_sum s (tab_a long s) i) /\
  4 / IZR (10 ^ 2) <= Rabs (row_sum s (tab_q long s) i - (1 + row_sum s (tab_a long s) i)).
Proof. exact extrap_rows. Qed.
Print Assumptions C57_extrapolation_tables_refuted.

(* maxIter(), "number of iterations performed", is one too small whenever the step succeeds *)
Theorem C60_maxIter_refuted : forall (K : num) n s long nar f ta tb tq, (0 <= n)%Z -> (1 <= s)%Z -> forall itermax (h : K) fs o u, can_start n s h fs o ->
  wp (step n s long nar f ta tb tq itermax h fs o u) (fun x => let '(ok, o', _) := x in
    if ok : bool then (onev o' - onev o <> oiter o' * s)%Z else (onev o' - onev o = oiter o' * s)%Z).
Proof. exact off_by_one. Qed.
Print Assumptions C60_maxIter_refuted.
(* see also C44_case: three sweeps, maxIter() = 2 *)
Example C60_case : match bind start2 (fun o => step2 true (o, fun i => if (i =? 0)%Z then 1%Q else 2%Q)) with
  | Ok (ok, o, u) => ok = true /\ oiter o = 2%Z /\ onev o = (3 * 2)%Z | _ => False end.
Proof. vm_compute. auto. Qed.
