(* Property C96: the runs of Rodas converge to the solution of the differential equation with the order of the method. *)
From Coq Require Import Reals Lra Lia.
From Verif Require Import Base Spec FieldLU LayoutModel LayoutCases JacModel JacProofs RodasModel RodasProofs RodasReal RodasWitness RodasSpec RodasStep RodasOrder RodasLinear RodasCase RodasConvSpec Conv RodasConv RadauConvSpec RodasAffine.
Open Scope R_scope.

(* y' = J y + g; the component along every eigenvector of J with eigenvalue ea + i eb, ea <= 0; H is any bound of the accepted steps; the
   three methods (meth = 1, 2, 3) with the coefficients as printed *)
Theorem C96_rodas_converges : forall (Sg La : Type)
    (userF : Sg -> R -> (Z -> R) -> Sg * (Z -> R))
    (userJ : Sg -> R -> (Z -> R) -> (Z -> R) -> (Z -> R) -> Sg * (Z -> R))
    (userDt : Sg -> R -> (Z -> R) -> Sg * (Z -> R))
    (decomr : La -> R -> (Z -> R) -> out (La * (Z -> R)))
    (solvereal : La -> (Z -> R) -> (Z -> R) -> out (Z -> R))
    (set_calhes : La -> La) n sh (numjac autonms use_DF_t : bool) (atol rtol junk : Z -> R)
    (f : R -> (Z -> R) -> Z -> R) (J : Z -> Z -> R) (g : Z -> R) holds meth C (o : ropts Rnum) x0 xend h0 fuel ifuel s0 la0 jac0 y0 a b c lr li ea eb u,
  (forall s t y k, snd (userF s t y) k = f t y k) ->
  (forall t y k, (1 <= k <= n)%Z -> f t y k = linear_rhs n J t y k + g k) ->
  (forall s t y fy j i k, in_full n i k -> sh_mat n sh (snd (userJ s t y fy j)) i k = J i k) ->
  (forall s t y k, snd (userDt s t y) k = 0) ->
  (forall i k, in_full n i k -> ~ in_shape n sh i k -> J i k = 0) ->
  algebra La decomr solvereal set_calhes n sh holds ->
  (1 <= n)%Z -> shape_ok sh ->
  @rocoe Rnum meth = Ok C -> 0 < (o_safe o : R) <= 1 -> x0 < xend ->
  left_eigen n J lr li ea eb -> ea <= 0 ->
  affine_flow n J g u -> (forall k, (1 <= k <= n)%Z -> y0 k = u 0 k) ->
  pc (rodas (@r_prep Rnum Sg La userF userJ userDt set_calhes n sh numjac autonms use_DF_t r_uround junk)
            (@r_attempt Rnum Sg La userF decomr solvereal n autonms C atol rtol)
            o fuel ifuel (mkW (s0, nil) la0 jac0) h0 x0 xend y0 a b c)
    (fun r => let st := fst r in
      (o_onestep o = false -> s_x st = xend) /\
      forall H, (forall t, In t (s_hist st) -> a_acc t = true -> a_h t <= H) ->
      size n lr li (fun k => s_Y st k - u (s_x st - x0) k) <=
        (s_x st - x0) * (1 / 10 ^ 12 + 4 * (H * sqrt (ea ^ 2 + eb ^ 2)) ^ 4) * size n lr li (fun k => rsum 1 n (fun l => J k l * u 0 l) + g k)).
Proof. exact rodas_converges. Qed.
Print Assumptions C96_rodas_converges.

(* y' = -4 y from 0 to 1, y = exp(-4t), method 1; the run in RodasCase.v *)
Example C96_case : left_eigen 1 (fun _ _ => -4) (fun _ => 1) (fun _ => 0) (-4) 0 /\ affine_flow 1 (fun _ _ => -4) (fun _ => 0) (fun t _ => exp (-4 * t)) /\
  (forall t y k, (1 <= k <= 1)%Z -> -4 * y k = linear_rhs 1 (fun _ _ => -4) t y k + 0) /\
  @rocoe Rnum 1 = Ok meth1 /\ algebra R de_decomr de_solve (fun l => l) 1 Full (fun _ jac M => M = mat_ge 1 jac) /\
  exists st y, @rodas Rnum _ _ de_prep (de_attempt meth1) (opts false) 2 1 de_world 1 0 1 (fun _ => 1) 0 0 0 = Ok (st, y) /\
    map (fun a => (a_x a, a_h a, a_acc a)) (s_hist st) = (0, 1, true) :: nil.
Proof.
  split; [exact de_eigen|]. split.
  - intros t k Hk. replace (rsum 1 1 (fun l => -4 * exp (-4 * t)) + 0) with (exp (-4 * t) * (-4)) by (cbv -[Rplus Rmult exp IZR]; ring).
    apply (derivable_pt_lim_comp (fun s => -4 * s) exp); [|apply derivable_pt_lim_exp]. apply (dl_eq _ _ (-4 * 1)); [|ring].
    apply (derivable_pt_lim_scal id). apply derivable_pt_lim_id.
  - split; [intros t y k Hk; rewrite Rplus_0_r; apply de_rhs, Hk|]. split; [reflexivity|]. split; [exact de_algebra|]. destruct de_run as (st & y & H & _ & H2). exists st, y. split; assumption.
Qed.
(* y1' = y2, y2' = -y1 + 3: eigenvalue i *)
Example C96_rotation_case : let J (i k : Z) := if (i =? 1)%Z then (if (k =? 2)%Z then 1 else 0) else (if (k =? 1)%Z then -1 else 0) in
  affine_flow 2 J (fun k => if (k =? 1)%Z then 0 else 3) (fun t k => if (k =? 1)%Z then 3 + sin t else cos t) /\
  left_eigen 2 J (fun i => if (i =? 1)%Z then 1 else 0) (fun i => if (i =? 1)%Z then 0 else -1) 0 1.
Proof.
  cbv zeta. split.
  - intros t q Hq. assert (q = 1 \/ q = 2)%Z as [-> | ->] by lia.
    + apply (dl_eq _ _ (0 + cos t)); [apply (derivable_pt_lim_plus (fun _ => 3)); [apply derivable_pt_lim_const|apply derivable_pt_lim_sin]|cbv -[Rplus Rmult cos sin IZR]; ring].
    + apply (dl_eq _ _ (- sin t)); [apply derivable_pt_lim_cos|cbv -[Rplus Rmult Ropp cos sin IZR]; ring].
  - intros l Hl. assert (l = 1 \/ l = 2)%Z as [-> | ->] by lia; cbv -[Rplus Rmult Rminus Ropp IZR]; lra.
Qed.
