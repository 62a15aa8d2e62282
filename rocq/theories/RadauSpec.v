(* The three-stage Radau IIA method, without reference to the code.  E. Hairer and
   G. Wanner, Solving ODEs II, sections IV.5 and IV.8. *)
From Coq Require Import ZArith Reals Lra List Bool.
From Verif Require Import Spec.
Open Scope R_scope.

(* three values indexed by 1, 2, 3: Spec.three *)
(* the nodes 0 < c1 < c2 < 1 of the quadrature formula with node 1 that is exact on
   polynomials of degree 4 *)
Definition radau_nodes (c1 c2 : R) : Prop :=
  0 < c1 < c2 /\ c2 < 1 /\
  exists b1 b2 b3, forall k : nat, (k <= 4)%nat -> b1 * c1 ^ k + b2 * c2 ^ k + b3 * 1 ^ k = / INR (k + 1).
(* the polynomial t -> a t + b t^2 + d t^3 and its derivative *)
Definition cubic (a b d t : R) : R := a * t + b * t ^ 2 + d * t ^ 3.
Definition cubic' (a b d t : R) : R := a + 2 * b * t + 3 * d * t ^ 2.
(* B maps the values at the nodes of a cubic that vanishes at 0 to the values of its
   derivative at the nodes, up to tol for each of t, t^2, t^3: B is the inverse of the
   Runge-Kutta matrix of the collocation method *)
Definition derivation (c : Z -> R) (B : Z -> Z -> R) (tol : R) : Prop :=
  forall i, (1 <= i <= 3)%Z -> forall a b d,
    Rabs (rsum 1 3 (fun j => B i j * cubic a b d (c j)) - cubic' a b d (c i)) <= tol * (Rabs a + Rabs b + Rabs d).
Definition mul3 (A B : Z -> Z -> R) : Z -> Z -> R := fun i j => rsum 1 3 (fun k => A i k * B k j).
Definition near_identity (A : Z -> Z -> R) (tol : R) : Prop :=
  forall i j, (1 <= i <= 3)%Z -> (1 <= j <= 3)%Z -> Rabs (A i j - (if (i =? j)%Z then 1 else 0)) <= tol.

(* ---- the method as an iteration ---------------------------------------------------- *)
(* nodes c, the real transformation T, its inverse TI, the matrix L = TI A^-1 T, the weights
   d of the error estimate and the real eigenvalue u of A^-1 *)
Record rmethod := mkRM { m_c : Z -> R; m_T : Z -> Z -> R; m_TI : Z -> Z -> R; m_L : Z -> Z -> R; m_d : Z -> R; m_u : R }.
(* stage values: stage k, component i *)
Definition stages := Z -> Z -> R.
Definition trans (A : Z -> Z -> R) (V : stages) : stages := fun k i => rsum 1 3 (fun l => A k l * V l i).

Section Method.
Variables (M : rmethod) (n : Z) (f : R -> (Z -> R) -> Z -> R).
Variables (nit : Z) (thet fnewt : R).
Variables (scal : (Z -> R) -> Z -> R).

(* One simplified Newton iteration for the collocation equations of the step from (x,y) with
   step size h, in the transformed variables W; V are the increments of the stages *)
Definition newton_iter (J : Z -> Z -> R) (x h : R) (y : Z -> R) (W V D W' V' : stages) : Prop :=
  block_solution n h (m_L M) J D (fun k i =>
    trans (m_TI M) (fun l j => f (x + m_c M l * h) (fun p => y p + V l p) j) k i - rsum 1 3 (fun l => m_L M k l / h * W l i)) /\
  (forall k i, (1 <= k <= 3)%Z -> W' k i = W k i + D k i) /\
  (forall k i, (1 <= k <= 3)%Z -> V' k i = trans (m_T M) W' k i).
Definition stage_norm (y : Z -> R) (D : stages) : R :=
  sqrt (rsum 1 3 (fun k => rsum 1 n (fun i => (D k i / scal y i) ^ 2)) / (3 * IZR n)).
(* contraction rate: from two quotients of norms, one only in the second iteration *)
Definition rate (m : Z) (q qold : R) : R := if (m =? 1)%Z then q else sqrt (q * qold).
(* the estimated error after the remaining iterations, relative to fnewt *)
Definition outlook (m : Z) (th d : R) : R := th / (1 - th) * d * th ^ Z.to_nat (nit - 2 - m) / fnewt.

(* m iterations done: W, V, norm of the last correction, eta, rate, last quotient *)
Inductive iterates (J : Z -> Z -> R) (x h : R) (y : Z -> R) (W0 V0 : stages) (eta0 : R) :
    Z -> stages -> stages -> R -> R -> R -> R -> Prop :=
| iter_0 d q : iterates J x h y W0 V0 eta0 0 W0 V0 d eta0 thet q
| iter_1 W V D W' V' d e th q : iterates J x h y W0 V0 eta0 0 W V d e th q -> (1 < nit)%Z ->
    newton_iter J x h y W V D W' V' -> iterates J x h y W0 V0 eta0 1 W' V' (stage_norm y D) e th q
| iter_S m W V D W' V' d e th q q' th' : iterates J x h y W0 V0 eta0 m W V d e th q -> (1 <= m)%Z -> (m + 1 < nit)%Z ->
    ~ e * d < fnewt ->
    newton_iter J x h y W V D W' V' ->
    q' = stage_norm y D / Rmax d (/ 10 ^ 16) -> th' = rate m q' q ->
    th' < 99 / 100 -> outlook m th' (stage_norm y D) <= 1 ->
    iterates J x h y W0 V0 eta0 (m + 1) W' V' (stage_norm y D) (th' / (1 - th')) th' q'.
(* the three ways to stop.  Converged: *)
Definition newton_ok (J : Z -> Z -> R) (x h : R) (y : Z -> R) (W0 V0 : stages) (eta0 : R) (V : stages) (eta theta : R) : Prop :=
  exists m W d q, iterates J x h y W0 V0 eta0 m W V d eta theta q /\ (1 <= m < nit)%Z /\ eta * d < fnewt.
(* the last allowed iteration was made: *)
Definition newton_exhausted (J : Z -> Z -> R) (x h : R) (y : Z -> R) (W0 V0 : stages) (eta0 : R) (V : stages) (eta : R) : Prop :=
  exists W V1 D W' d q th, iterates J x h y W0 V0 eta0 (nit - 1) W V1 d eta th q /\ ((1 < nit)%Z -> ~ eta * d < fnewt) /\ newton_iter J x h y W V1 D W' V.
(* too slow, with the step size h' to try next: *)
Definition newton_slow (J : Z -> Z -> R) (x h : R) (y : Z -> R) (W0 V0 : stages) (eta0 : R) (eta h' : R) : Prop :=
  exists m W V D W' V' d e th q q' th', iterates J x h y W0 V0 eta0 m W V d e th q /\ (1 <= m)%Z /\ (m + 1 < nit)%Z /\ ~ e * d < fnewt /\
    newton_iter J x h y W V D W' V' /\ q' = stage_norm y D / Rmax d (/ 10 ^ 16) /\ th' = rate m q' q /\
    (99 / 100 <= th' /\ eta = e /\ h' = h / 2 \/
     th' < 99 / 100 /\ 1 < outlook m th' (stage_norm y D) /\ eta = th' / (1 - th') /\
     h' = h * (8 / 10 * Rpower (Rmax (/ 10 ^ 4) (Rmin 20 (outlook m th' (stage_norm y D)))) (- 1 / (4 + IZR nit - 1 - IZR (m + 1))))).

(* error estimate, section IV.8 (8.19) and (8.20) *)
Definition est_norm (y e : Z -> R) : R := Rmax (sqrt (rsum 1 n (fun i => (e i / scal y i) ^ 2) / IZR n)) (/ 10 ^ 10).
Definition estimate (again : bool) (J : Z -> Z -> R) (x h : R) (y : Z -> R) (V : stages) (err : R) : Prop :=
  exists e1, solution n (newton_matrix (m_u M / h) J) e1 (fun i => f x y i + rsum 1 3 (fun k => m_d M k / h * V k i)) /\
  if again then
    (est_norm y e1 < 1 /\ err = est_norm y e1) \/
    (1 <= est_norm y e1 /\ exists g e2, (forall i, g i = y i + e1 i) /\
      solution n (newton_matrix (m_u M / h) J) e2 (fun i => f x g i + rsum 1 3 (fun k => m_d M k / h * V k i)) /\ err = est_norm y e2)
  else err = est_norm y e1.

(* where the integration stands: abscissa, value, step size and stages of the last accepted
   step, was the last attempt a failure, eta, the points reached so far *)
Record rstate := mkRS { r_x : R; r_y : Z -> R; r_prev : option (R * stages); r_rej : bool; r_eta : R; r_seen : list (R * (Z -> R)) }.
Variable jac : R -> (Z -> R) -> (Z -> Z -> R) -> Prop.   (* the third argument is the Jacobian at ... *)
(* the Jacobian may be that of an earlier point *)
Definition usable_jac (s : rstate) (J : Z -> Z -> R) : Prop := exists p, List.In p (r_seen s) /\ jac (fst p) (snd p) J.
(* starting values: zero, or P(1+c_k h/hold) - P(1) with cubics P (one for each component)
   through the stages of the last accepted step.  P(0) should be 0; that it is a multiple of
   the first stage is the finding of C68 *)
Definition start (s : rstate) (h : R) (W V : stages) : Prop :=
  match r_prev s with
  | None => (forall k i, W k i = 0) /\ (forall k i, V k i = 0)
  | Some (hold, Vo) =>
      (forall i, exists p1 p2 p3,
        let P t := Vo 1%Z i / (1 - m_c M 1%Z) + p1 * t + p2 * t ^ 2 + p3 * t ^ 3 in
        forall k, (1 <= k <= 3)%Z -> P (m_c M k) = Vo k i /\ V k i = P (1 + m_c M k * (h / hold)) - P 1) /\
      (forall k i, (1 <= k <= 3)%Z -> W k i = trans (m_TI M) V k i)
  end.
Definition eta_start (s : rstate) : R := Rpower (Rmax (r_eta s) (/ 10 ^ 16)) (8 / 10).
Definition is_first (s : rstate) : bool := match r_prev s with None => true | Some _ => false end.

(* an attempt: abscissa, step size, converged?, accepted? (None: Newton is redone) *)
Inductive radau_run (x0 : R) (y0 : Z -> R) (eta00 : R) : list (R * R * bool * option bool) -> rstate -> Prop :=
| run_start : radau_run x0 y0 eta00 nil (mkRS x0 y0 None false eta00 (cons (x0, y0) nil))
| run_slow l s h W0 V0 J eta h' : radau_run x0 y0 eta00 l s -> start s h W0 V0 -> usable_jac s J ->
    newton_slow J (r_x s) h (r_y s) W0 V0 (eta_start s) eta h' ->
    radau_run x0 y0 eta00 (cons (r_x s, h, false, None) l) (mkRS (r_x s) (r_y s) (r_prev s) true eta (r_seen s))
| run_exhausted l s h W0 V0 J V eta : radau_run x0 y0 eta00 l s -> start s h W0 V0 -> usable_jac s J ->
    newton_exhausted J (r_x s) h (r_y s) W0 V0 (eta_start s) V eta ->
    radau_run x0 y0 eta00 (cons (r_x s, h, false, None) l) (mkRS (r_x s) (r_y s) (r_prev s) (r_rej s) eta (r_seen s))
| run_tested l s h conv W0 V0 J V eta h2 J2 err : radau_run x0 y0 eta00 l s -> start s h W0 V0 -> usable_jac s J -> usable_jac s J2 ->
    (if conv : bool then (exists th, newton_ok J (r_x s) h (r_y s) W0 V0 (eta_start s) V eta th) /\ h2 = h /\ J2 = J
     else newton_exhausted J (r_x s) h (r_y s) W0 V0 (eta_start s) V eta /\ h2 = h / 2) ->
    estimate (is_first s || r_rej s) J2 (r_x s) h2 (r_y s) V err ->
    forall s', (err < 1 /\ s' = (let y' := fun i => r_y s i + V 3%Z i in
                                 mkRS (r_x s + h) y' (Some (h2, V)) false eta (cons (r_x s + h, y') (r_seen s))) \/
                1 <= err /\ s' = mkRS (r_x s) (r_y s) (r_prev s) true eta (r_seen s)) ->
    radau_run x0 y0 eta00 (cons (r_x s, h, conv, Some (if Rlt_dec err 1 then true else false)) l) s'.
End Method.
