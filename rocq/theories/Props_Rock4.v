(* Properties C27 to C36 (Rock4).  [reach … start st]: the loop of the driver reaches the state
   st.  [u_hist st] is the list of the attempted steps, the last one first.  [toint] is the
   conversion of a double to int. *)
From Coq Require Import Reals Lra Permutation.
From Verif Require Import Base HessModel Spec CMacros VecFun ExtReal Rock4Model Rock4Spec Rock4Proofs Rock4Drive Rock4Step Rock4Real Rock4Term Rock4Witness Rock4Omp Rock4Cor.
Open Scope R_scope.

(* selection, for every request; MS is the table of degrees *)
Theorem C27_selection : forall m mp, (1 <= m <= 148)%Z ->
  wp (mdegre m mp) (fun x => let '(d, i, r) := x in smallest_degree m d /\ right_block d i r).
Proof. exact selection. Qed.
Print Assumptions C27_selection.
(* every attempted step of every run, the selection being cached from step to step *)
Theorem C27_selection_in_runs : forall (K : num) (W : Type) toint kern (init accept : W -> W) (rho : W -> W * K) tend w0 t0 h0 hl0 m1 m2 st,
  reach toint kern accept rho tend (r4_start init w0 t0 h0 hl0 m1 m2) st -> Forall requested (u_hist st).
Proof. exact @selection_driver. Qed.
Print Assumptions C27_selection_in_runs.
(* reading a coefficient outside of the tables would be UB *)
Theorem C27_accesses_in_bounds : forall (K : num) Sg userF userrho toint RECF FPA FPB FPBE size (atol rtol tend : K) (e0 : est Sg) t0 h0 hl0 m1 m2 fuel,
  (forall x s, toint x <> UB s) -> forall s,
  rock4 toint (kernel userF RECF FPA FPB FPBE size atol rtol) (k_init userF) k_accept (r4_rho userrho) tend fuel e0 t0 h0 hl0 m1 m2 <> UB s.
Proof. exact rock4_in_bounds. Qed.
Print Assumptions C27_accesses_in_bounds.
Example C27_case : mdegre 43 7 = Ok (44, 31, 1013)%Z.
Proof. reflexivity. Qed.
Example C27_case_outside : exists s, @kernel ExtR unit zeroF (fun _ => Nan) (fun _ => Nan) (fun _ => Nan) (fun _ => Nan) 1 Nan Nan 5 1 4700 zero_e Nan = UB s.
Proof. eexists. reflexivity. Qed.

Theorem C28_step : forall Sg userF (RECF FPA FPB FPBE : Z -> R) size atol rtol (f : vec Rnum -> vec Rnum) d i r (e : est (K := Rnum) Sg) h,
  (forall s v, snd (userF s v) = f v) -> (0 <= size)%Z -> right_block d i r -> NoDup (ptrs Sg e) -> e_H e (e_fn e) = f (e_H e (e_y e)) ->
  wp (kernel (K := Rnum) userF RECF FPA FPB FPBE size atol rtol d i r e h) (fun x => let '(e', err) := x in
    let g := stage f (t_mu1 RECF r) (t_mu RECF r) (t_kappa RECF r) h (e_H e (e_y e)) (Z.to_nat d) in
    e_H e' (e_temp e') = new_y f FPA FPB h i g /\ e_H e' (e_g0 e') = f (new_y f FPA FPB h i g) /\
    err = new_err f FPA FPB FPBE h i g size atol rtol /\
    e_y e' = e_y e /\ e_H e' (e_y e) = e_H e (e_y e) /\ NoDup (ptrs Sg e') /\ Permutation (ptrs Sg e) (ptrs Sg e')).
Proof. exact kernel_step. Qed.
Print Assumptions C28_step.
(* the buffers stay distinct along the runs *)
Theorem C28_distinct : forall (K : num) Sg userF userrho toint RECF FPA FPB FPBE size (atol rtol tend : K) (e0 : est Sg) t0 h0 hl0 m1 m2,
  NoDup (ptrs Sg e0) -> forall st,
  reach toint (kernel userF RECF FPA FPB FPBE size atol rtol) k_accept (r4_rho userrho) tend (r4_start (k_init userF) e0 t0 h0 hl0 m1 m2) st ->
  NoDup (ptrs Sg (u_w st)).
Proof. exact @reach_distinct. Qed.
Print Assumptions C28_distinct.
Example C28_case : NoDup (ptrs unit zero_e) /\ right_block 5 5 17 /\ e_H zero_e (e_fn zero_e) = snd (zeroF tt (e_H zero_e (e_y zero_e))).
Proof. split; [unfold ptrs, zero_e; cbn; repeat constructor; cbn; intuition discriminate|]. split; [repeat split; discriminate|reflexivity]. Qed.

Theorem C29_derivative_current : forall (K : num) Sg userF userrho toint RECF FPA FPB FPBE size (atol rtol tend : K) (e0 : est Sg) t0 h0 hl0 m1 m2 (f : vec K -> vec K),
  (forall s v, snd (userF s v) = f v) -> NoDup (ptrs Sg e0) ->
  let body := d_body toint (kernel userF RECF FPA FPB FPBE size atol rtol) k_accept (r4_rho userrho) tend in
  forall st, reach toint (kernel userF RECF FPA FPB FPBE size atol rtol) k_accept (r4_rho userrho) tend (r4_start (k_init userF) e0 t0 h0 hl0 m1 m2) st ->
  deriv Sg st = f (sol Sg st) /\
  forall st' a, nltb (u_t st) tend = true -> body st = Ok st' -> u_hist st' = a :: u_hist st -> t_acc a = false -> sol Sg st' = sol Sg st.
Proof. exact @derivative_current. Qed.
Print Assumptions C29_derivative_current.
(* over the reals, an accepted step replaces the solution by that of the method *)
Theorem C29_accepted_step : forall Sg userF userrho toint (RECF FPA FPB FPBE : Z -> R) size (atol rtol tend : R) (e0 : est (K := Rnum) Sg) t0 h0 hl0 m1 m2 (f : vec Rnum -> vec Rnum),
  (forall s v, snd (userF s v) = f v) -> NoDup (ptrs Sg e0) -> (0 <= size)%Z ->
  let body := d_body (K := Rnum) toint (kernel userF RECF FPA FPB FPBE size atol rtol) k_accept (r4_rho userrho) tend in
  forall st, reach (K := Rnum) toint (kernel userF RECF FPA FPB FPBE size atol rtol) k_accept (r4_rho userrho) tend (r4_start (k_init userF) e0 t0 h0 hl0 m1 m2) st ->
  forall st' a, Rltb (u_t st) tend = true -> body st = Ok st' -> u_hist st' = a :: u_hist st ->
  let g := stage f (t_mu1 RECF (t_mr a)) (t_mu RECF (t_mr a)) (t_kappa RECF (t_mr a)) (t_h a) (sol Sg st) (Z.to_nat (t_deg a)) in
  (t_acc a = true <-> new_err f FPA FPB FPBE (t_h a) (t_mz a) g size atol rtol < 1) /\
  (t_acc a = true -> sol Sg st' = new_y f FPA FPB (t_h a) (t_mz a) g).
Proof. exact accepted_step. Qed.
Print Assumptions C29_accepted_step.

(* the arithmetic: reals with infinities and NaN *)
Theorem C30_time : forall (W : Type) toint kern (init accept : W -> W) (rho : W -> W * ext) T,
  (forall x z, toint x = Ok z -> exists r, x = Fin r /\ (0 <= r -> IZR z <= r < IZR z + 1)) ->
  forall w0 t0 h0 hl0 m1 m2 st st', t0 <= T ->
  reach (K := ExtR) toint kern accept rho (Fin T) (r4_start init w0 (Fin t0) (Fin h0) hl0 m1 m2) st ->
  eltb (u_t st) (Fin T) = true -> d_body (K := ExtR) toint kern accept rho (Fin T) st = Ok st' ->
  exists t t' a, u_t st = Fin t /\ u_t st' = Fin t' /\ u_hist st' = a :: u_hist st /\
    t0 <= t /\ t' <= T /\ (if t_acc a then t < t' else t' = t).
Proof. exact @time_step. Qed.
Print Assumptions C30_time.
Theorem C30_returns_at_tend : forall (W : Type) toint kern (init accept : W -> W) (rho : W -> W * ext) T,
  (forall x z, toint x = Ok z -> exists r, x = Fin r /\ (0 <= r -> IZR z <= r < IZR z + 1)) ->
  forall w0 t0 h0 hl0 m1 m2 fuel st, t0 <= T ->
  rock4 (K := ExtR) toint kern init accept rho (Fin T) fuel w0 (Fin t0) (Fin h0) hl0 m1 m2 = Ok st -> u_t st = Fin T.
Proof. exact @returns_at_tend. Qed.
Print Assumptions C30_returns_at_tend.
Example C30_case : (forall x z, toint_R x = Ok z -> exists r, x = Fin r /\ (0 <= r -> IZR z <= r < IZR z + 1)) /\
  forall RECF FPA FPB FPBE, let fin := fun (t : Z -> R) z => Fin (t z) in
  exists st, rock4 (K := ExtR) toint_R (kernel (K := ExtR) zeroF (fin RECF) (fin FPA) (fin FPB) (fin FPBE) 1 (Fin 1) (Fin 1)) (k_init zeroF) k_accept (r4_rho zero_rho)
    (Fin 1) 1 zero_e (Fin 0) (Fin 1) (Fin 0) 0 0 = Ok st /\ u_t st = Fin 1 /\ n_acc (u_hist st) = 1%Z.
Proof. split; [exact toint_R_ok|exact zero_run]. Qed.

(* any right-hand side: it may return NaN for ever *)
Theorem C31_ends : forall Sg userF userrho toint RECF FPA FPB FPBE size (atol rtol : ext) T,
  (forall x z, toint x = Ok z -> exists r, x = Fin r /\ (0 <= r -> IZR z <= r < IZR z + 1)) -> (forall x, toint x <> Diverge) ->
  forall (e0 : est (K := ExtR) Sg) t0 h0 hl0 m1 m2, exists fuel,
  rock4 (K := ExtR) toint (kernel userF RECF FPA FPB FPBE size atol rtol) (k_init userF) k_accept (r4_rho userrho) (Fin T) fuel e0 (Fin t0) (Fin h0) hl0 m1 m2 <> Diverge.
Proof. exact rock4_ends. Qed.
Print Assumptions C31_ends.
(* the step computation may also be anything which ends *)
Theorem C31_ends_any_step : forall (W : Type) toint kern (init accept : W -> W) (rho : W -> W * ext) T,
  (forall x z, toint x = Ok z -> exists r, x = Fin r /\ (0 <= r -> IZR z <= r < IZR z + 1)) ->
  forall w0 t0 h0 hl0 m1 m2, (forall x, toint x <> Diverge) -> (forall d i r w h, right_block d i r -> kern d i r w h <> Diverge) -> exists fuel,
  rock4 (K := ExtR) toint kern init accept rho (Fin T) fuel w0 (Fin t0) (Fin h0) hl0 m1 m2 <> Diverge.
Proof. exact @terminates. Qed.
Print Assumptions C31_ends_any_step.
Example C31_case : (forall x, toint_R x <> Diverge) /\ forall d i r w h, kern0 d i r w h <> Diverge.
Proof. split; [exact toint_R_div|]. intros; discriminate. Qed.

Theorem C32_steps : forall (K : num) (W : Type) toint kern (init accept : W -> W) (rho : W -> W * K) tend w0 t0 h0 hl0 m1 m2 st,
  reach toint kern accept rho tend (r4_start init w0 t0 h0 hl0 m1 m2) st ->
  u_nsteps st = Z.of_nat (Datatypes.length (u_hist st)) /\ u_nacc st = n_acc (u_hist st) /\ u_nrej st = n_rej (u_hist st) /\
  u_nsteps st = (u_nacc st + u_nrej st)%Z /\ u_hlast st = (match last_acc (u_hist st) with Some h => h | None => hl0 end).
Proof. exact @driver_counters. Qed.
Print Assumptions C32_steps.
(* Rel n s: the object in state s has been called n times *)
Theorem C32_evaluations : forall (K : num) Sg userF userrho toint RECF FPA FPB FPBE size (atol rtol tend : K) (e0 : est Sg) t0 h0 hl0 m1 m2 (Rel : Z -> Sg -> Prop),
  (forall n s v, Rel n s -> Rel (n + 1)%Z (fst (userF s v))) -> (forall n s, Rel n s -> Rel n (fst (userrho s))) -> forall st,
  Rel 0%Z (e_f e0) ->
  reach toint (kernel userF RECF FPA FPB FPBE size atol rtol) k_accept (r4_rho userrho) tend (r4_start (k_init userF) e0 t0 h0 hl0 m1 m2) st ->
  Rel (e_funccal (u_w st)) (e_f (u_w st)).
Proof. exact @calls_counted. Qed.
Print Assumptions C32_evaluations.
(* an object which counts its calls *)
Example C32_case : (forall n s (v : vec ExtR), n = s -> (n + 1)%Z = fst ((fun s v => ((s + 1)%Z, v)) s v)) /\ forall n s : Z, n = s -> n = fst (s, Fin 0).
Proof. split; intros; subst; reflexivity. Qed.

Theorem C33_stability : forall (W : Type) toint kern (init accept : W -> W) (rho : W -> W * ext) T,
  (forall x z, toint x = Ok z -> exists r, x = Fin r /\ (0 <= r -> IZR z <= r < IZR z + 1)) ->
  forall w0 t0 h0 hl0 m1 m2 st, t0 <= T ->
  reach (K := ExtR) toint kern accept rho (Fin T) (r4_start init w0 (Fin t0) (Fin h0) hl0 m1 m2) st ->
  forall a, In a (u_hist st) -> exists h r, t_h a = Fin h /\ t_rho a = Fin r /\ h * r <= 353 / 1000 * (IZR (t_deg a + 4)) ^ 2 - 3.
Proof. exact @steps_stable. Qed.
Print Assumptions C33_stability.

(* one rejected step, then any number of accepted ones: the spectral radius is evaluated once *)
Theorem C34_refresh_refuted : forall N, exists T st,
  reach (K := ExtR) toint_R kern0 id0 rho0 (Fin T) (r4_start id0 0%Z (Fin 0) (Fin 1) (Fin 0) 0 0) st /\
  n_acc (u_hist st) = Z.of_nat (S N) /\ filter (@t_new ExtR) (u_hist st) = firstn 1 (rev (u_hist st)) /\ Datatypes.length (u_hist st) = S (S N).
Proof. exact stale. Qed.
Print Assumptions C34_refresh_refuted.
(* in general: from a state where the counter nrho is odd, until the next rejection *)
Theorem C34_odd_counter_refuted : forall (K : num) (W : Type) toint kern (init accept : W -> W) (rho : W -> W * K) tend w0 t0 h0 hl0 m1 m2 st st',
  reach toint kern accept rho tend (r4_start init w0 t0 h0 hl0 m1 m2) st -> Z.odd (u_nrho st) = true -> nltb (u_t st) tend = true ->
  d_body toint kern accept rho tend st = Ok st' ->
  exists a, u_hist st' = a :: u_hist st /\ t_new a = false /\ (t_acc a = true -> Z.odd (u_nrho st') = true).
Proof. exact @refresh_odd. Qed.
Print Assumptions C34_odd_counter_refuted.
(* as long as no step has been rejected, it is evaluated every fifth step *)
Theorem C34_refresh_partial : forall (K : num) (W : Type) toint kern (init accept : W -> W) (rho : W -> W * K) tend w0 t0 h0 hl0 m1 m2 st,
  reach toint kern accept rho tend (r4_start init w0 t0 h0 hl0 m1 m2) st -> Forall (fun a => t_acc a = true) (u_hist st) ->
  forall k a, nth_error (rev (u_hist st)) k = Some a -> t_new a = (Z.of_nat k mod 5 =? 0)%Z.
Proof. exact @refresh_five. Qed.
Print Assumptions C34_refresh_partial.

(* the unprotected accumulation of rpp2 *)
Theorem C35_parallel_refuted : exists (v : Z -> Rnum) l, schedule 2 l /\ race_run (K := Rnum) v l <> race_run v (seq_sched 2).
Proof. exact race_lost. Qed.
Print Assumptions C35_parallel_refuted.
Theorem C35_all_loads_first_refuted : forall (K : num) (v : Z -> K) n, (0 < n)%Z ->
  schedule n (map Load (zrange 0 (n - 1)) ++ map Store (zrange 0 (n - 1))) /\
  race_run v (map Load (zrange 0 (n - 1)) ++ map Store (zrange 0 (n - 1))) = (nlit 0 0 + v (n - 1)%Z)%num.
Proof. exact @race_all_loads. Qed.
Print Assumptions C35_all_loads_first_refuted.
(* all the other parallel loops; the target array may be one of the operands *)
Theorem C35_parallel_partial : forall (K : num) (e : (Z -> vec K) -> Z -> K),
  (exists t1 t2 t3 g0 g1 v, e = b_apply t1 t2 t3 g0 g1 v) \/ (exists t1 t2 t3 g2 g1 g0, e = b_apply2 t1 t2 t3 g2 g1 g0) \/
  (exists y a1 x1, e = b_cl1 y a1 x1) \/ (exists y a1 x1 a2 x2, e = b_cl2 y a1 x1 a2 x2) \/
  (exists y a1 x1 a2 x2 a3 x3, e = b_cl3 y a1 x1 a2 x2 a3 x3) \/ (exists y a1 x1 a2 x2 a3 x3 a4 x4, e = b_ct y a1 x1 a2 x2 a3 x3 a4 x4) ->
  forall dst size H0 l, schedule size l ->
  elt_run e dst l H0 = elt_run e dst (seq_sched size) H0 /\ elementwise e dst size H0 (elt_run e dst l H0).
Proof. exact @parallel_loops. Qed.
Print Assumptions C35_parallel_partial.
Example C35_case : schedule 3 [Load 2; Load 0; Store 0; Load 1; Store 2; Store 1].
Proof. exact schedule_case. Qed.

(* a complete call which accepts one step; the caller's array is array 1 *)
Theorem C36_owner_refuted : forall RECF FPA FPB FPBE, let fin := fun (t : Z -> R) z => Fin (t z) in
  exists st, rock4 (K := ExtR) toint_R (kernel (K := ExtR) zeroF (fin RECF) (fin FPA) (fin FPB) (fin FPBE) 1 (Fin 1) (Fin 1)) (k_init zeroF) k_accept (r4_rho zero_rho)
    (Fin 1) 1 zero_e (Fin 0) (Fin 1) (Fin 0) 0 0 = Ok st /\ e_y zero_e = 1%Z /\ e_y (u_w st) <> 1%Z /\ In 1%Z (freed (u_w st)).
Proof. exact owner_lost. Qed.
Print Assumptions C36_owner_refuted.
(* the same after every call which accepts exactly one step *)
Theorem C36_one_step_refuted : forall (K : num) Sg userF userrho toint RECF FPA FPB FPBE size (atol rtol tend : K) (e0 : est Sg) t0 h0 hl0 m1 m2,
  NoDup (ptrs Sg e0) -> forall st,
  reach toint (kernel userF RECF FPA FPB FPBE size atol rtol) k_accept (r4_rho userrho) tend (r4_start (k_init userF) e0 t0 h0 hl0 m1 m2) st ->
  n_acc (u_hist st) = 1%Z -> e_y (u_w st) <> e_y e0 /\ In (e_y e0) (freed (u_w st)).
Proof. exact @one_step_owner. Qed.
Print Assumptions C36_one_step_refuted.
(* the pointers are always a permutation of the original arrays: none is lost or held twice *)
Theorem C36_owner_partial : forall (K : num) Sg userF userrho toint RECF FPA FPB FPBE size (atol rtol tend : K) (e0 : est Sg) t0 h0 hl0 m1 m2 st,
  reach toint (kernel userF RECF FPA FPB FPBE size atol rtol) k_accept (r4_rho userrho) tend (r4_start (k_init userF) e0 t0 h0 hl0 m1 m2) st ->
  Permutation (ptrs Sg e0) (ptrs Sg (u_w st)) /\ (n_acc (u_hist st) = 0%Z -> NoDup (ptrs Sg e0) -> e_y (u_w st) = e_y e0).
Proof. exact @owner_partial. Qed.
Print Assumptions C36_owner_partial.
