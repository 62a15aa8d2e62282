(* Properties C65 and C66 (what a Rodas step computes, and the Rodas methods).  RodasSpec.v
   holds the specification. *)
From Coq Require Import Reals Lra.
From Verif Require Import Base Spec FieldLU LayoutModel LayoutCases JacModel JacProofs RodasModel RodasProofs RodasReal RodasWitness RodasSpec RodasStep RodasOrder RodasLinear RodasCase.
Open Scope R_scope.

(* Every run that returns is a chain of attempted Rosenbrock steps with the coefficients of
   the chosen method: rodas_step x h y y' err says that y' is the result of the step of size
   h from (x,y), with the user's Jacobian or the difference quotients taken at (x,y), and err
   the weighted norm of the embedded error. *)
Theorem C65_run_is_rosenbrock_chain : forall (Sg La : Type)
    (userF : Sg -> R -> (Z -> R) -> Sg * (Z -> R))
    (userJ : Sg -> R -> (Z -> R) -> (Z -> R) -> (Z -> R) -> Sg * (Z -> R))
    (userDt : Sg -> R -> (Z -> R) -> Sg * (Z -> R))
    (decomr : La -> R -> (Z -> R) -> out (La * (Z -> R)))
    (solvereal : La -> (Z -> R) -> (Z -> R) -> out (Z -> R))
    (set_calhes : La -> La) n sh (numjac autonms use_DF_t : bool) (C : rcoef Rnum) (atol rtol junk : Z -> R)
    (f : R -> (Z -> R) -> Z -> R) (Ju : R -> (Z -> R) -> Z -> Z -> R) (ft : R -> (Z -> R) -> Z -> R),
  (forall s t y k, snd (userF s t y) k = f t y k) ->
  (forall s t y fy j i k, in_full n i k -> sh_mat n sh (snd (userJ s t y fy j)) i k = Ju t y i k) ->
  (forall s t y k, snd (userDt s t y) k = ft t y k) ->
  forall holds, algebra La decomr solvereal set_calhes n sh holds -> (1 <= n)%Z -> shape_ok sh ->
  forall (o : ropts Rnum) (x0 : R) (y0 : Z -> R) fuel ifuel w h xend a b c,
  pc (rodas (@r_prep Rnum Sg La userF userJ userDt set_calhes n sh numjac autonms use_DF_t r_uround junk)
            (@r_attempt Rnum Sg La userF decomr solvereal n autonms C atol rtol)
            o fuel ifuel w h x0 xend y0 a b c)
    (fun r => chain (rodas_step n sh numjac autonms use_DF_t C atol rtol f Ju ft) x0 y0
                (map (fun a => (a_x a, a_h a, a_acc a)) (s_hist (fst r))) (s_x (fst r)) (s_Y (fst r))).
Proof. exact run_linked. Qed.
Print Assumptions C65_run_is_rosenbrock_chain.

(* The linear algebra hypothesis is met by the classes of Matrices.hpp with LAPACK. *)
Theorem C65_algebra_full : forall n trf trs, (1 <= n)%Z -> lapack_real n (mat_ge n) trf trs ->
  algebra lfact (full_decomr trf n) (lsolve trs) (fun la => la) n Full (fun _ jac M => M = mat_ge n jac).
Proof. exact algebra_full. Qed.
Print Assumptions C65_algebra_full.

Theorem C65_algebra_band : forall n kl ku trf trs, (1 <= n)%Z -> (0 <= kl)%Z -> (0 <= ku)%Z ->
  lapack_real n (mat_gb kl ku) trf trs ->
  algebra lfact (band_decomr trf n kl ku) (lsolve trs) (fun la => la) n (Band kl ku) (fun _ jac M => M = mat_gb kl ku jac).
Proof. exact algebra_band. Qed.
Print Assumptions C65_algebra_band.

(* Cramer's rule for n = 2; a run on y' = -4 y from y(0) = 1 to 1 that returns after one
   accepted step of length 1 *)
Example C65_case_algebra : algebra lfact (full_decomr trf2 2) (lsolve trs2) (fun la => la) 2 Full (fun _ jac M => M = mat_ge 2 jac).
Proof. exact (algebra_full 2 trf2 trs2 ltac:(lia) lapack2). Qed.
Example C65_case : algebra R de_decomr de_solve (fun l => l) 1 Full (fun _ jac M => M = mat_ge 1 jac) /\
  (forall s t y k, snd (de_F s t y) k = -4 * y k) /\
  (forall s t y fy j i k, in_full 1 i k -> sh_mat 1 Full (snd (de_J s t y fy j)) i k = -4) /\
  exists st y, @rodas Rnum _ _ de_prep (de_attempt meth1) (opts false) 2 1 de_world 1 0 1 (fun _ => 1) 0 0 0 = Ok (st, y) /\
    s_x st = 1 /\ map (fun a => (a_x a, a_h a, a_acc a)) (s_hist st) = (0, 1, true) :: nil.
Proof. split; [exact de_algebra|]. split; [reflexivity|]. split; [reflexivity|]. exact de_run. Qed.

(* The three methods: stability, for every step size and every eigenvalue. *)
Theorem C66_stability : forall meth C, @rocoe Rnum meth = Ok C ->
  A_stable 6 (rodas_tab C) /\ stiff_decay 6 (rodas_tab C) 10.
Proof. exact methods_stable. Qed.
Print Assumptions C66_stability.

(* Order 4, embedded order 3, and consistency of the nodes, up to the precision to which the
   coefficients are given. *)
Theorem C66_order : forall meth C, @rocoe Rnum meth = Ok C ->
  let T := rodas_tab C in
  order4 6 T (t_m T) (4 / 10 ^ 15) /\
  order3 6 T (six (t_m T 1%Z) (t_m T 2%Z) (t_m T 3%Z) (t_m T 4%Z) (t_m T 5%Z) 0) (4 / 10 ^ 15) /\
  consistent 6 T (4 / 10 ^ 15).
Proof. exact methods_order. Qed.
Print Assumptions C66_order.
(* the abscissae are the row sums: exactly for the first two stages, to the last digit for the first four *)
Theorem C66_nodes : forall meth C, @rocoe Rnum meth = Ok C -> let T := rodas_tab C in forall g1, Gam 6 T (fun _ => 1) g1 ->
  (forall i, (1 <= i <= 2)%Z -> Amul T g1 i = t_alpha T i) /\ g1 1%Z = t_gam T 1%Z /\
  forall i, (1 <= i <= 4)%Z -> close (5 / 10 ^ 16) (Amul T g1 i) (t_alpha T i) /\ close (5 / 10 ^ 16) (g1 i) (t_gam T i).
Proof. exact methods_nodes. Qed.
Print Assumptions C66_nodes.

(* Runs forward in time on y' = J y: no component along an eigenvector whose eigenvalue has
   a nonpositive real part grows, with the exact or the numerical Jacobian. *)
Theorem C66_linear_runs : forall (Sg La : Type)
    (userF : Sg -> R -> (Z -> R) -> Sg * (Z -> R))
    (userJ : Sg -> R -> (Z -> R) -> (Z -> R) -> (Z -> R) -> Sg * (Z -> R))
    (userDt : Sg -> R -> (Z -> R) -> Sg * (Z -> R))
    (decomr : La -> R -> (Z -> R) -> out (La * (Z -> R)))
    (solvereal : La -> (Z -> R) -> (Z -> R) -> out (Z -> R))
    (set_calhes : La -> La) n sh (numjac autonms use_DF_t : bool) (atol rtol junk : Z -> R)
    (f : R -> (Z -> R) -> Z -> R) (J : Z -> Z -> R) holds
    meth C (o : ropts Rnum) x0 xend h0 fuel ifuel s0 la0 jac0 y0 a b c lr li ea eb,
  (forall s t y k, snd (userF s t y) k = f t y k) ->
  (forall t y k, (1 <= k <= n)%Z -> f t y k = linear_rhs n J t y k) ->
  (forall s t y fy j i k, in_full n i k -> sh_mat n sh (snd (userJ s t y fy j)) i k = J i k) ->
  (forall s t y k, snd (userDt s t y) k = 0) ->
  (forall i k, in_full n i k -> ~ in_shape n sh i k -> J i k = 0) ->
  algebra La decomr solvereal set_calhes n sh holds ->
  (1 <= n)%Z -> shape_ok sh ->
  @rocoe Rnum meth = Ok C -> 0 < (o_safe o : R) <= 1 -> x0 < xend ->
  left_eigen n J lr li ea eb -> ea <= 0 ->
  pc (rodas (@r_prep Rnum Sg La userF userJ userDt set_calhes n sh numjac autonms use_DF_t r_uround junk)
            (@r_attempt Rnum Sg La userF decomr solvereal n autonms C atol rtol)
            o fuel ifuel (mkW (s0, nil) la0 jac0) h0 x0 xend y0 a b c)
    (fun r => component n lr li (s_Y (fst r)) <= component n lr li y0).
Proof. exact linear_run. Qed.
Print Assumptions C66_linear_runs.

(* method 1 exists; the systems in the order conditions are solvable; y' = -4 y as above is
   a linear problem with eigenvalue -4 *)
Example C66_case : @rocoe Rnum 1 = Ok meth1.
Proof. reflexivity. Qed.
Example C66_case_systems : forall v, exists w, Gam 6 (rodas_tab meth1) v w.
Proof.
  intros v. apply Gam_solvable. destruct (RodasStab.rocoe_dcoef 1 meth1 C66_case) as (D & ED & E). rewrite E.
  pose proof (gamma_pos 1 D ED). cbn. lra.
Qed.
Example C66_case_linear : left_eigen 1 (fun _ _ => -4) (fun _ => 1) (fun _ => 0) (-4) 0 /\
  (forall t y k, (1 <= k <= 1)%Z -> -4 * y k = linear_rhs 1 (fun _ _ => -4) t y k) /\
  exists st y, @rodas Rnum _ _ de_prep (de_attempt meth1) (opts false) 2 1 de_world 1 0 1 (fun _ => 1) 0 0 0 = Ok (st, y).
Proof. split; [exact de_eigen|]. split; [exact de_rhs|]. destruct de_run as (st & y & H & _). exists st, y. exact H. Qed.
