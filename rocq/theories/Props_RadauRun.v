(* Properties C67 to C70 (the method behind Radau5cc, the starting values of its Newton
   iterations, its runs, its count of evaluations).  RadauSpec.v holds the specification. *)
From Coq Require Import ZArith Reals Lra Lia List.
From Verif Require Import Base Spec FieldLU LayoutModel LayoutCases JacModel JacProofs RodasProofs RodasStep RadauModel RadauAlg RadauSpec RadauConst RadauRun RadauStart RadauLinear RadauCount RadauColl RadauCase.
Open Scope R_scope.

(* ---- C67: the constants ------------------------------------------------------------- *)
(* The nodes are those of the Radau quadrature formula of order 5. *)
Theorem C67_nodes : radau_nodes (C1 (@rd_const Rnum)) (C2 (@rd_const Rnum)).
Proof. exact nodes_ok. Qed.
Print Assumptions C67_nodes.

(* The eigenvalues are exactly those of the inverse of the Runge-Kutta matrix, whose
   characteristic polynomial is x^3 - 9 x^2 + 36 x - 60. *)
Theorem C67_eigenvalues : forall x : R,
  (x - U1 (@rd_const Rnum)) * ((x - ALPH (@rd_const Rnum)) ^ 2 + BETA (@rd_const Rnum) ^ 2) = x ^ 3 - 9 * x ^ 2 + 36 * x - 60.
Proof. exact eigen_ok. Qed.
Print Assumptions C67_eigenvalues.

(* T Lambda TI is that inverse, and T and TI are inverse to each other, up to 1e-19. *)
Theorem C67_transformation :
  derivation (nodes_of (@rd_const Rnum)) (mul3 (T_of rd_const) (mul3 (Lambda_of rd_const) (TI_of rd_const))) (1 / 10 ^ 19) /\
  near_identity (mul3 (T_of (@rd_const Rnum)) (TI_of rd_const)) (1 / 10 ^ 19) /\
  near_identity (mul3 (TI_of (@rd_const Rnum)) (T_of rd_const)) (1 / 10 ^ 19).
Proof. exact (conj derivation_ok inverse_ok). Qed.
Print Assumptions C67_transformation.

(* The weights of the error estimate annihilate the collocation polynomial exactly: applied
   to its values at the nodes they give minus its derivative at 0. *)
Theorem C67_estimate_weights : forall a b d : R,
  DD1 (@rd_const Rnum) * cubic a b d (C1 (@rd_const Rnum)) + DD2 (@rd_const Rnum) * cubic a b d (C2 (@rd_const Rnum)) +
  DD3 (@rd_const Rnum) * cubic a b d 1 = - cubic' a b d 0.
Proof. exact dd_ok. Qed.
Print Assumptions C67_estimate_weights.

(* Where the Newton iteration stands still, the cubic through 0 and the stages satisfies the
   collocation equations u'(c_k) = h f(x + c_k h, y + u(c_k)), up to 1e-17 relative. *)
Theorem C67_fixed_points : forall n f J x h y W V D W' V' i a b d m,
  (1 <= i <= n)%Z -> h <> 0 ->
  newton_iter (rd_method (@rd_const Rnum)) n f J x h y W V D W' V' ->
  (forall k j, (1 <= k <= 3)%Z -> (1 <= j <= n)%Z -> D k j = 0) ->
  (forall k, (1 <= k <= 3)%Z -> V k i = trans (T_of rd_const) W k i) ->
  (forall k, (1 <= k <= 3)%Z -> cubic a b d (nodes_of (@rd_const Rnum) k) = V k i) ->
  Rabs a <= m -> Rabs b <= m -> Rabs d <= m ->
  (forall k, (1 <= k <= 3)%Z -> Rabs (W k i) <= m /\ Rabs (h * f (x + nodes_of (@rd_const Rnum) k * h) (fun p => y p + V k p) i) <= m) ->
  forall k, (1 <= k <= 3)%Z ->
    Rabs (cubic' a b d (nodes_of (@rd_const Rnum) k) - h * f (x + nodes_of (@rd_const Rnum) k * h) (fun p => y p + V k p) i) <= m / 10 ^ 17.
Proof. exact fixed_point. Qed.
Print Assumptions C67_fixed_points.
(* the problem y' = t with the exact fixed point of the iteration with the code's TI and T *)
Example C67_case : exists W V a b d m,
  newton_iter (rd_method (@rd_const Rnum)) 1 (fun t _ _ => t) (fun _ _ => 0) 0 1 (fun _ => 0) W V (fun _ _ => 0) W V /\
  (forall k, (1 <= k <= 3)%Z -> V k 1%Z = trans (T_of rd_const) W k 1%Z) /\
  (forall k, (1 <= k <= 3)%Z -> cubic a b d (nodes_of (@rd_const Rnum) k) = V k 1%Z) /\
  Rabs a <= m /\ Rabs b <= m /\ Rabs d <= m /\
  (forall k, (1 <= k <= 3)%Z -> Rabs (W k 1%Z) <= m /\ Rabs (1 * nodes_of (@rd_const Rnum) k) <= m).
Proof. exact fixed_case. Qed.

(* ---- C68: starting values ----------------------------------------------------------- *)
(* After an accepted step with stages Z1, Z2, Z3 the iteration should start from the
   collocation polynomial u of that step, u(1 + c_k q) - u(1) with q = h/hold. *)
Theorem C68_start_refuted : exists (w : @wrk Rnum unit unit) a b d q,
  0 < q /\ (forall i, cubic a b d (C1 (@rd_const Rnum)) = k_Z1 w i /\ cubic a b d (C2 (@rd_const Rnum)) = k_Z2 w i /\ cubic a b d 1 = k_Z3 w i) /\
  forall i k, (1 <= k <= 3)%Z ->
    @k_start Rnum unit unit rd_const (k_save rd_const w) (nodes_of rd_const k * q) i <>
    cubic a b d (1 + nodes_of (@rd_const Rnum) k * q) - cubic a b d 1.
Proof. exact start_case. Qed.
Print Assumptions C68_start_refuted.

(* always so, unless the first stage does not move *)
Theorem C68_start_all : forall (Sg La : Type) (w : @wrk Rnum Sg La) i q a b d,
  cubic a b d (C1 (@rd_const Rnum)) = k_Z1 w i -> cubic a b d (C2 (@rd_const Rnum)) = k_Z2 w i -> cubic a b d 1 = k_Z3 w i ->
  k_Z1 w i <> 0 -> 0 < q ->
  @k_start Rnum Sg La rd_const (k_save rd_const w) q i <> cubic a b d (1 + q) - cubic a b d 1.
Proof. exact (fun Sg La => @start_wrong Sg La). Qed.
Print Assumptions C68_start_all.

(* What holds: the starting values come from the cubic through the three stages whose value at 0
   is Z1/(1-c1).  Missing: this value should be 0. *)
Theorem C68_start_partial : forall (Sg La : Type) (w : @wrk Rnum Sg La) q i,
  exists p1 p2 p3, let P t := k_Z1 w i / (1 - C1 (@rd_const Rnum)) + p1 * t + p2 * t ^ 2 + p3 * t ^ 3 in
    P (C1 (@rd_const Rnum)) = k_Z1 w i /\ P (C2 (@rd_const Rnum)) = k_Z2 w i /\ P 1 = k_Z3 w i /\
    forall k, (1 <= k <= 3)%Z ->
      @k_start Rnum Sg La rd_const (k_save rd_const w) (nodes_of rd_const k * q) i = P (1 + nodes_of (@rd_const Rnum) k * q) - P 1.
Proof. exact start_some. Qed.
Print Assumptions C68_start_partial.

(* ---- C69: runs ---------------------------------------------------------------------- *)
(* Every run that returns is a run of the method: radau_run, in RadauSpec.v, says which
   starting values, Jacobians, Newton iterations, error estimates and decisions lead from
   (x0,y0) to the returned state, through the passes recorded in q_hist. *)
Theorem C69_run : forall (Sg La : Type)
    (userF : Sg -> R -> (Z -> R) -> Sg * (Z -> R))
    (userJ : Sg -> R -> (Z -> R) -> (Z -> R) -> (Z -> R) -> Sg * (Z -> R))
    (decomr : La -> R -> (Z -> R) -> out (La * (Z -> R))) (decomc : La -> R -> R -> (Z -> R) -> out La)
    (solvereal : La -> (Z -> R) -> (Z -> R) -> out (Z -> R))
    (solvecomplex : La -> (Z -> R) -> (Z -> R) -> (Z -> R) -> out ((Z -> R) * (Z -> R)))
    (set_calhes : La -> La) n sh (numjac : bool) (atol rtol : Z -> R) nit (thet fnewt : R) nfuel
    (f : R -> (Z -> R) -> Z -> R) (Ju : R -> (Z -> R) -> Z -> Z -> R),
  (forall s t y k, snd (userF s t y) k = f t y k) ->
  (forall s t y fy j i k, in_full n i k -> sh_mat n sh (snd (userJ s t y fy j)) i k = Ju t y i k) ->
  forall holds, calgebra La decomr decomc solvereal solvecomplex set_calhes n sh holds ->
  (1 <= n)%Z -> shape_ok sh -> (1 <= nit)%Z ->
  forall (o : dopts Rnum) (x0 : R) (y0 : Z -> R) (xend : R) fuel ifuel (w : @wrk Rnum Sg La) (h : R) a b d e e',
  pc (radau (@k_jacob Rnum Sg La userF userJ set_calhes n sh numjac) (@k_mats Rnum Sg La decomr decomc rd_const)
            (@k_evalF Rnum Sg La userF) (@k_doscal Rnum Sg La atol rtol)
            (@k_newton Rnum Sg La userF solvereal solvecomplex n rd_const nit thet fnewt nfuel)
            (@k_estrad Rnum Sg La userF solvereal n rd_const) (@k_adv Rnum Sg La) (@k_save Rnum Sg La rd_const)
            o fuel ifuel w h x0 xend y0 a b d e e')
    (fun st => exists s,
       radau_run (rd_method rd_const) n f nit (Rabs thet) fnewt (fun y i => atol i + rtol i * Rabs (y i))
         (jac_used n sh numjac f Ju) x0 y0 (k_faccon w) (map event (q_hist st)) s /\
       q_Y st = r_y s /\ (d_onestep o = false -> q_x st = r_x s)).
Proof. exact run_all. Qed.
Print Assumptions C69_run.

(* the linear algebra of Matrices.hpp meets the hypothesis *)
Theorem C69_algebra_full : forall n trf trs ctrf ctrs, (1 <= n)%Z -> lapack_real n (mat_ge n) trf trs -> lapack_complex n (mat_ge n) ctrf ctrs ->
  calgebra cfact (full_dr trf n) (full_dc ctrf n) (c_sr trs) (c_sc ctrs n) (fun la => la) n Full (fun _ jac M => M = mat_ge n jac).
Proof. exact calgebra_full. Qed.
Print Assumptions C69_algebra_full.
Theorem C69_algebra_band : forall n kl ku trf trs ctrf ctrs, (1 <= n)%Z -> (0 <= kl)%Z -> (0 <= ku)%Z ->
  lapack_real n (mat_gb kl ku) trf trs -> lapack_complex n (mat_gb kl ku) ctrf ctrs ->
  calgebra cfact (band_dr trf n kl ku) (band_dc ctrf n kl ku) (c_sr trs) (c_sc ctrs n) (fun la => la) n (Band kl ku) (fun _ jac M => M = mat_gb kl ku jac).
Proof. exact calgebra_band. Qed.
Print Assumptions C69_algebra_band.
(* a run with one accepted step, and what the theorem says of it *)
Example C69_case : forall nit fnewt o fuel ifuel a b d e e', (2 <= nit)%Z -> 0 < fnewt -> d_onestep o = false -> (0 <= d_nmax o)%Z ->
  calgebra rg_La rg_decomr rg_decomc rg_sr rg_sc (fun la => la) 1 Full (fun _ jac M => M = mat_ge 1 jac) /\
  exists st, rg_radau nit fnewt o (S fuel) (S ifuel) rg_w (1 : R) (0 : R) (1 : R) (fun _ => 0) a b d e e' = Ok st /\
    q_x st = 1 /\ map event (q_hist st) = (0, 1, true, Some true) :: nil /\
    exists s, radau_run (rd_method rd_const) 1 (fun t y _ => spike t y) nit (Rabs (1 / 1000)) fnewt (fun y i => 1 + 0 * Rabs (y i))
         (jac_used 1 Full false (fun t y _ => spike t y) (fun _ _ _ _ => 0)) 0 (fun _ => 0) 1 (map event (q_hist st)) s /\ r_x s = 1.
Proof. exact run_case. Qed.

(* ---- C70: the count of evaluations --------------------------------------------------- *)
(* countF and countJ count the calls of F in the user's state; k_nfc is nfonccalled. *)
Theorem C70_count_refuted : forall nit fnewt o fuel ifuel a b d e e', (2 <= nit)%Z -> 0 < fnewt -> d_onestep o = false -> (0 <= d_nmax o)%Z ->
  exists st, rg_radau nit fnewt o (S fuel) (S ifuel) rg_w (1 : R) (0 : R) (1 : R) (fun _ => 0) a b d e e' = Ok st /\
    snd (k_f rg_w) = 0%Z /\ k_nfc rg_w = 0%Z /\ snd (k_f (q_w st)) = 5%Z /\ k_nfc (q_w st) = 4%Z.
Proof. exact count_case. Qed.
Print Assumptions C70_count_refuted.
(* What holds: the count is never too high, and too low by at most one for each error test. *)
Theorem C70_count_partial : forall (K : num) (Sg La : Type) userF userJ decomr decomc solvereal solvecomplex set_calhes n sh numjac c atol rtol nit thet fnewt nfuel,
  (1 <= n)%Z -> forall (o : dopts K) fuel ifuel (w : @wrk K (Sg * Z) La) h x xend Y a b d e e',
  snd (k_f w) = 0%Z -> k_nfc w = 0%Z ->
  pc (radau (k_jacob (countF userF) (countJ userJ) set_calhes n sh numjac) (k_mats decomr decomc c) (k_evalF (countF userF)) (k_doscal atol rtol)
        (k_newton (countF userF) solvereal solvecomplex n c nit thet fnewt nfuel) (k_estrad (countF userF) solvereal n c) (@k_adv K _ La) (k_save c)
        o fuel ifuel w h x xend Y a b d e e')
    (fun st => k_nfc (q_w st) <= snd (k_f (q_w st)) <= k_nfc (q_w st) + Z.of_nat (Datatypes.length (filter tested (q_hist st))))%Z.
Proof. exact count_all. Qed.
Print Assumptions C70_count_partial.
