(* Corollaries put in the form used by Props_Rock4. *)
From Coq Require Import Reals Lra Permutation.
From Verif Require Import Base HessModel Spec CMacros VecFun ExtReal Rock4Model Rock4Spec Rock4Proofs Rock4Drive Rock4Step Rock4Real Rock4Term Rock4Witness Rock4Omp.
Open Scope R_scope.

Lemma rock4_in_bounds (K : num) Sg userF userrho toint RECF FPA FPB FPBE size (atol rtol tend : K) (e0 : est Sg) t0 h0 hl0 m1 m2 fuel :
  (forall x s, toint x <> UB s) -> forall s,
  rock4 toint (kernel userF RECF FPA FPB FPBE size atol rtol) (k_init userF) k_accept (r4_rho userrho) tend fuel e0 t0 h0 hl0 m1 m2 <> UB s.
Proof. intros H. apply run_no_ub. exact H. Qed.

Lemma derivative_current (K : num) Sg userF userrho toint RECF FPA FPB FPBE size (atol rtol tend : K) (e0 : est Sg) t0 h0 hl0 m1 m2 (f : vec K -> vec K) :
  (forall s v, snd (userF s v) = f v) -> NoDup (ptrs Sg e0) ->
  let body := d_body toint (kernel userF RECF FPA FPB FPBE size atol rtol) k_accept (r4_rho userrho) tend in
  forall st, reach toint (kernel userF RECF FPA FPB FPBE size atol rtol) k_accept (r4_rho userrho) tend (r4_start (k_init userF) e0 t0 h0 hl0 m1 m2) st ->
  deriv Sg st = f (sol Sg st) /\
  forall st' a, nltb (u_t st) tend = true -> body st = Ok st' -> u_hist st' = a :: u_hist st -> t_acc a = false -> sol Sg st' = sol Sg st.
Proof.
  intros HF HN body st HR. destruct (fsal_pass Sg userF userrho toint RECF FPA FPB FPBE size atol rtol tend e0 t0 h0 hl0 m1 m2 f HF HN st HR) as [H1 H2].
  split; [exact H1|]. intros st' a Ht Hb Hh. destruct (H2 st' a Ht Hb Hh) as (_ & _ & X & _). exact X.
Qed.
Lemma accepted_step Sg userF userrho toint (RECF FPA FPB FPBE : Z -> R) size (atol rtol tend : R) (e0 : est (K := Rnum) Sg) t0 h0 hl0 m1 m2 (f : vec Rnum -> vec Rnum) :
  (forall s v, snd (userF s v) = f v) -> NoDup (ptrs Sg e0) -> (0 <= size)%Z ->
  let body := d_body (K := Rnum) toint (kernel userF RECF FPA FPB FPBE size atol rtol) k_accept (r4_rho userrho) tend in
  forall st, reach (K := Rnum) toint (kernel userF RECF FPA FPB FPBE size atol rtol) k_accept (r4_rho userrho) tend (r4_start (k_init userF) e0 t0 h0 hl0 m1 m2) st ->
  forall st' a, Rltb (u_t st) tend = true -> body st = Ok st' -> u_hist st' = a :: u_hist st ->
  let g := stage f (t_mu1 RECF (t_mr a)) (t_mu RECF (t_mr a)) (t_kappa RECF (t_mr a)) (t_h a) (sol Sg st) (Z.to_nat (t_deg a)) in
  (t_acc a = true <-> new_err f FPA FPB FPBE (t_h a) (t_mz a) g size atol rtol < 1) /\
  (t_acc a = true -> sol Sg st' = new_y f FPA FPB (t_h a) (t_mz a) g).
Proof.
  intros HF HN Hs body st HR st' a Ht Hb Hh.
  destruct (fsal_pass (K := Rnum) Sg userF userrho toint RECF FPA FPB FPBE size atol rtol tend e0 t0 h0 hl0 m1 m2 f HF HN st HR) as [_ H2].
  destruct (H2 st' a Ht Hb Hh) as (_ & X1 & _ & X2). rewrite G_stage in X1, X2. rewrite x_y_fin in X1. rewrite x_err_fin in X2 by exact Hs.
  intros g. fold g in X1, X2. split; [|exact X1]. rewrite X2. cbn [nltb Rnum nlit]. rewrite Rlit_0.
  destruct (Rltb_spec (new_err f FPA FPB FPBE (t_h a) (t_mz a) g size atol rtol) 1); split; intros; auto; try discriminate; lra.
Qed.
Lemma time_step (W : Type) toint kern (init accept : W -> W) (rho : W -> W * ext) T :
  (forall x z, toint x = Ok z -> exists r, x = Fin r /\ (0 <= r -> IZR z <= r < IZR z + 1)) ->
  forall w0 t0 h0 hl0 m1 m2 st st', t0 <= T ->
  reach (K := ExtR) toint kern accept rho (Fin T) (r4_start init w0 (Fin t0) (Fin h0) hl0 m1 m2) st ->
  eltb (u_t st) (Fin T) = true -> d_body (K := ExtR) toint kern accept rho (Fin T) st = Ok st' ->
  exists t t' a, u_t st = Fin t /\ u_t st' = Fin t' /\ u_hist st' = a :: u_hist st /\
    t0 <= t /\ t' <= T /\ (if t_acc a then t < t' else t' = t).
Proof.
  intros Hz w0 t0 h0 hl0 m1 m2 st st' H0 HR Ht Hb.
  destruct (reach_step toint kern init accept rho T Hz w0 t0 h0 hl0 m1 m2 st st' H0 HR Ht Hb) as (t & t' & h & a & E1 & E2 & E3 & E4 & Hh & E5).
  destruct (reach_time toint kern init accept rho T Hz w0 t0 h0 hl0 m1 m2 st H0 HR) as (tt & hh & Hok & Hb1 & _).
  destruct (reach_time toint kern init accept rho T Hz w0 t0 h0 hl0 m1 m2 st' H0 (reachS _ _ _ _ _ _ _ _ HR Ht Hb)) as (tt' & hh' & Hok' & Hb2 & _).
  assert (tt = t) by (pose proof (ok_t _ _ _ Hok) as X; rewrite E1 in X; injection X; auto).
  assert (tt' = t') by (pose proof (ok_t _ _ _ Hok') as X; rewrite E2 in X; injection X; auto). subst tt tt'.
  exists t, t', a. repeat split; auto; try lra. destruct (t_acc a); lra.
Qed.
Lemma rock4_ends Sg userF userrho toint RECF FPA FPB FPBE size (atol rtol : ext) T :
  (forall x z, toint x = Ok z -> exists r, x = Fin r /\ (0 <= r -> IZR z <= r < IZR z + 1)) -> (forall x, toint x <> Diverge) ->
  forall (e0 : est (K := ExtR) Sg) t0 h0 hl0 m1 m2, exists fuel,
  rock4 (K := ExtR) toint (kernel userF RECF FPA FPB FPBE size atol rtol) (k_init userF) k_accept (r4_rho userrho) (Fin T) fuel e0 (Fin t0) (Fin h0) hl0 m1 m2 <> Diverge.
Proof.
  intros Hz Hd e0 t0 h0 hl0 m1 m2. apply terminates; [exact Hz|exact Hd|]. intros d i r w h Hb Hk.
  pose proof (kernel_total (K := ExtR) Sg userF RECF FPA FPB FPBE size atol rtol (fun _ _ => True) ltac:(auto) d i r w h 0 Hb Logic.I) as X.
  rewrite Hk in X. exact X.
Qed.
Lemma steps_stable (W : Type) toint kern (init accept : W -> W) (rho : W -> W * ext) T :
  (forall x z, toint x = Ok z -> exists r, x = Fin r /\ (0 <= r -> IZR z <= r < IZR z + 1)) ->
  forall w0 t0 h0 hl0 m1 m2 st, t0 <= T ->
  reach (K := ExtR) toint kern accept rho (Fin T) (r4_start init w0 (Fin t0) (Fin h0) hl0 m1 m2) st ->
  forall a, In a (u_hist st) -> exists h r, t_h a = Fin h /\ t_rho a = Fin r /\ h * r <= 353 / 1000 * (IZR (t_deg a + 4)) ^ 2 - 3.
Proof.
  intros Hz w0 t0 h0 hl0 m1 m2 st H0 HR a Ha.
  destruct (reach_time toint kern init accept rho T Hz w0 t0 h0 hl0 m1 m2 st H0 HR) as (_ & _ & _ & _ & _ & HS).
  rewrite Forall_forall in HS. exact (HS a Ha).
Qed.
Lemma refresh_five (K : num) (W : Type) toint kern (init accept : W -> W) (rho : W -> W * K) tend w0 t0 h0 hl0 m1 m2 st :
  reach toint kern accept rho tend (r4_start init w0 t0 h0 hl0 m1 m2) st -> Forall (fun a => t_acc a = true) (u_hist st) ->
  forall k a, nth_error (rev (u_hist st)) k = Some a -> t_new a = (Z.of_nat k mod 5 =? 0)%Z.
Proof. intros HR HF. apply (refresh_accepted toint kern init accept rho tend w0 t0 h0 hl0 m1 m2 st HR HF). Qed.
Lemma parallel_loops (K : num) (e : (Z -> vec K) -> Z -> K) :
  (exists t1 t2 t3 g0 g1 v, e = b_apply t1 t2 t3 g0 g1 v) \/ (exists t1 t2 t3 g2 g1 g0, e = b_apply2 t1 t2 t3 g2 g1 g0) \/
  (exists y a1 x1, e = b_cl1 y a1 x1) \/ (exists y a1 x1 a2 x2, e = b_cl2 y a1 x1 a2 x2) \/
  (exists y a1 x1 a2 x2 a3 x3, e = b_cl3 y a1 x1 a2 x2 a3 x3) \/ (exists y a1 x1 a2 x2 a3 x3 a4 x4, e = b_ct y a1 x1 a2 x2 a3 x3 a4 x4) ->
  forall dst size H0 l, schedule size l ->
  elt_run e dst l H0 = elt_run e dst (seq_sched size) H0 /\ elementwise e dst size H0 (elt_run e dst l H0).
Proof.
  intros He dst size H0 l Hl.
  assert (HL : local e).
  { destruct He as [(?&?&?&?&?&?& ->)|[(?&?&?&?&?&?& ->)|[(?&?&?& ->)|[(?&?&?&?&?& ->)|[(?&?&?&?&?&?&?& ->)|(?&?&?&?&?&?&?&?&?& ->)]]]]].
    - apply local_apply. - apply local_apply2. - apply local_cl1. - apply local_cl2. - apply local_cl3. - apply local_ct. }
  split; [apply elt_same; assumption|apply elt_any; assumption].
Qed.
Lemma schedule_case : schedule 3 [Load 2; Load 0; Store 0; Load 1; Store 2; Store 1].
Proof.
  intros i. cbn [filter idx]. destruct (Z.leb_spec 0 i), (Z.ltb_spec i 3); cbn [andb];
    destruct (Z.eqb_spec 0 i), (Z.eqb_spec 1 i), (Z.eqb_spec 2 i); try lia; subst; reflexivity.
Qed.
Lemma one_step_owner (K : num) Sg userF userrho toint RECF FPA FPB FPBE size (atol rtol tend : K) (e0 : est Sg) t0 h0 hl0 m1 m2 :
  NoDup (ptrs Sg e0) -> forall st,
  reach toint (kernel userF RECF FPA FPB FPBE size atol rtol) k_accept (r4_rho userrho) tend (r4_start (k_init userF) e0 t0 h0 hl0 m1 m2) st ->
  n_acc (u_hist st) = 1%Z -> e_y (u_w st) <> e_y e0 /\ In (e_y e0) (freed (u_w st)).
Proof.
  intros HN st HR Hn.
  assert (Hy : e_y (u_w st) <> e_y e0) by (eapply y_pointer; eassumption).
  split; [exact Hy|]. eapply caller_array_freed; eassumption.
Qed.
Lemma owner_lost : forall RECF FPA FPB FPBE, let fin := fun (t : Z -> R) z => Fin (t z) in
  exists st, rock4 (K := ExtR) toint_R (kernel (K := ExtR) zeroF (fin RECF) (fin FPA) (fin FPB) (fin FPBE) 1 (Fin 1) (Fin 1)) (k_init zeroF) k_accept (r4_rho zero_rho)
    (Fin 1) 1 zero_e (Fin 0) (Fin 1) (Fin 0) 0 0 = Ok st /\ e_y zero_e = 1%Z /\ e_y (u_w st) <> 1%Z /\ In 1%Z (freed (u_w st)).
Proof.
  intros RECF FPA FPB FPBE fin. destruct (zero_run RECF FPA FPB FPBE) as (st & Hrun & _ & Hn). exists st. split; [exact Hrun|]. split; [reflexivity|].
  unfold rock4 in Hrun. destruct (loop_reach toint_R _ k_accept (r4_rho zero_rho) (Fin 1 : ExtR) _ 1 _ (reach0 _ _ _ _ _ _) st Hrun) as [HR _].
  assert (HN : NoDup (ptrs unit zero_e)) by (unfold ptrs, zero_e; cbn; repeat constructor; cbn; intuition discriminate).
  exact (one_step_owner ExtR unit zeroF zero_rho toint_R _ _ _ _ _ _ _ _ _ _ _ _ _ _ HN st HR Hn).
Qed.
Lemma owner_partial (K : num) Sg userF userrho toint RECF FPA FPB FPBE size (atol rtol tend : K) (e0 : est Sg) t0 h0 hl0 m1 m2 st :
  reach toint (kernel userF RECF FPA FPB FPBE size atol rtol) k_accept (r4_rho userrho) tend (r4_start (k_init userF) e0 t0 h0 hl0 m1 m2) st ->
  Permutation (ptrs Sg e0) (ptrs Sg (u_w st)) /\ (n_acc (u_hist st) = 0%Z -> NoDup (ptrs Sg e0) -> e_y (u_w st) = e_y e0).
Proof.
  intros HR. split; [eapply ptrs_permuted; exact HR|]. intros Hn HN. eapply y_pointer; eassumption.
Qed.
