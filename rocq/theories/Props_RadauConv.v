(* Property C98: the runs of Radau5 converge to the solution of the differential equation with the order of the method. *)
From Coq Require Import Reals Lra Lia List.
From Verif Require Import Base Spec FieldLU LayoutModel LayoutCases JacModel JacProofs RodasProofs RodasSpec RodasStep RodasWitness RodasConvSpec Conv RodasConv RadauConvSpec RadauModel RadauRun RadauCount RadauConv RadauConvCase.
Import ListNotations.
Open Scope R_scope.

(* y' = J y + g; the component along every eigenvector of J with eigenvalue ea + i eb, ea <= 0; H is any bound of the
   accepted steps; the constants of the method as printed *)
Theorem C98_radau_converges : forall (Sg La : Type)
    (userF : Sg -> R -> (Z -> R) -> Sg * (Z -> R))
    (userJ : Sg -> R -> (Z -> R) -> (Z -> R) -> (Z -> R) -> Sg * (Z -> R))
    (decomr : La -> R -> (Z -> R) -> out (La * (Z -> R))) (decomc : La -> R -> R -> (Z -> R) -> out La)
    (solvereal : La -> (Z -> R) -> (Z -> R) -> out (Z -> R))
    (solvecomplex : La -> (Z -> R) -> (Z -> R) -> (Z -> R) -> out ((Z -> R) * (Z -> R)))
    (set_calhes : La -> La) n sh (numjac : bool) (atol rtol : Z -> R) nit (thet fnewt : R) nfuel
    (f : R -> (Z -> R) -> Z -> R) (J : Z -> Z -> R) (g : Z -> R) holds (o : dopts Rnum) (x0 xend : R) fuel ifuel (w : @wrk Rnum Sg La) (h0 : R) (y0 : Z -> R) a b d e e' lr li ea eb u,
  (forall s t y k, snd (userF s t y) k = f t y k) ->
  (forall t y k, (1 <= k <= n)%Z -> f t y k = linear_rhs n J t y k + g k) ->
  (forall s t y fy j i k, in_full n i k -> sh_mat n sh (snd (userJ s t y fy j)) i k = J i k) ->
  (forall i k, in_full n i k -> ~ in_shape n sh i k -> J i k = 0) ->
  calgebra La decomr decomc solvereal solvecomplex set_calhes n sh holds ->
  (1 <= n)%Z -> shape_ok sh -> (1 <= nit)%Z ->
  0 < (d_safe o : R) < 1 -> (1 <= d_nit o)%Z -> (d_quot1 o : R) = 1 -> x0 < xend ->
  left_eigen n J lr li ea eb -> ea <= 0 ->
  affine_flow n J g u -> (forall k, (1 <= k <= n)%Z -> y0 k = u 0 k) ->
  pc (radau (@k_jacob Rnum Sg La userF userJ set_calhes n sh numjac) (@k_mats Rnum Sg La decomr decomc rd_const)
            (@k_evalF Rnum Sg La userF) (@k_doscal Rnum Sg La atol rtol)
            (@k_newton Rnum Sg La userF solvereal solvecomplex n rd_const nit thet fnewt nfuel)
            (@k_estrad Rnum Sg La userF solvereal n rd_const) (@k_adv Rnum Sg La) (@k_save Rnum Sg La rd_const)
            o fuel ifuel w h0 x0 xend y0 a b d e e')
    (fun st => exists x, x0 <= x <= xend /\ 
      (d_onestep o = false -> q_x st = x /\
        (x = xend \/ xend - x <= 1 / 10 ^ 15 * Rabs x \/ exists p, In p (q_hist st) /\ g_reason p = didNotConverge)) /\
      forall H, (forall p, In p (q_hist st) -> g_test p = Some true -> g_h p <= H) ->
      let m := sqrt (ea ^ 2 + eb ^ 2) in
      size n lr li (fun k => q_Y st k - u (x - x0) k) <=
        (x - x0) * (2 / 10 ^ 12 + 4 * (H * m) ^ 5) * exp ((x - x0) * m / 10 ^ 12) * size n lr li (fun k => rsum 1 n (fun l => J k l * u 0 l) + g k)).
Proof. exact radau_converges. Qed.
Print Assumptions C98_radau_converges.

(* y' = -y from 0 to 1/10 with a large enough absolute tolerance: the call takes one step and the theorem gives its error *)
Example C98_case : left_eigen 1 (fun _ _ => -1) (fun _ => 1) (fun _ => 0) (-1) 0 /\ affine_flow 1 (fun _ _ => -1) (fun _ => 0) (fun t _ => exp (- t)) /\
  calgebra rg_La rg_decomr rg_decomc rg_sr rg_sc (fun la => la) 1 Full (fun _ jac M => M = mat_ge 1 jac) /\
  exists tol : R, 0 < tol /\ forall nit (fnewt : R) o fuel ifuel a b d e e', (2 <= nit)%Z -> 1 <= fnewt -> d_onestep o = false -> (0 <= d_nmax o)%Z ->
    0 < (d_safe o : R) < 1 -> (1 <= d_nit o)%Z -> (d_quot1 o : R) = 1 ->
    exists st, d_radau tol nit fnewt o (S fuel) (S ifuel) d_w (1 / 10 : R) (0 : R) (1 / 10 : R) (fun _ => 1) a b d e e' = Ok st /\
      q_x st = 1 / 10 /\ Rabs (q_Y st 1%Z - exp (- (1 / 10))) <= 5 / 10 ^ 6.
Proof. split; [exact d_eigen|]. split; [exact d_flow|]. split; [exact rg_algebra|exact d_close]. Qed.
(* with a source: y' = -2 y + 6 *)
Example C98_source_case : affine_flow 1 (fun _ _ => -2) (fun _ => 6) (fun t _ => 3 + exp (-2 * t)).
Proof.
  intros t k Hk. replace (rsum 1 1 (fun l => -2 * (3 + exp (-2 * t))) + 6) with (0 + exp (-2 * t) * (-2)) by (cbv -[Rplus Rmult exp IZR]; ring).
  apply (derivable_pt_lim_plus (fun _ => 3)); [apply derivable_pt_lim_const|].
  apply (derivable_pt_lim_comp (fun s => -2 * s) exp); [|apply derivable_pt_lim_exp]. apply (dl_eq _ _ (-2 * 1)); [|ring].
  apply (derivable_pt_lim_scal id). apply derivable_pt_lim_id.
Qed.
