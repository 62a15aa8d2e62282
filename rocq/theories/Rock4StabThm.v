(* Stability and instability of the steps and runs of the two ROCK4 codes with their tables. *)
From Coq Require Import Bool Reals Lra Lia List ZArith FunctionalExtensionality.
From Verif Require Import Base HessModel VecFun Spec CMacros Rock4Model Rock4Spec Rock4Proofs Rock4Drive Rock4Step Rock4Cor Rock4LModel Rock4LSpec Rock4LProofs Rock4LDrive Rock4TabSpec Rock4TabNG Rock4TabL Cheb Rock4Check Rock4Poly Rock4Stab Rock4StabEval Rock4StabKer.
Import ListNotations.
Open Scope R_scope.

Lemma checked_block d i r : right_block d i r -> (d <= 92)%Z -> d <> 63%Z -> exists p, deg_check 51 (Z.to_nat (i - 1)) p = true.
Proof. intros HR H1 H2. apply (checked _ d); [apply (rb_deg d i r HR)|apply HR|assumption|assumption]. Qed.

(* the degree chosen by the driver of Rock4.hpp, over the reals *)
Lemma real_stable (W : Type) toint kern (accept : W -> W) (rho : W -> W * R) tend (st st' : dst (K := Rnum) W) a :
  (forall x z, 0 <= x -> toint x = Ok z -> IZR z <= x < IZR z + 1) -> cached st ->
  d_body (K := Rnum) toint kern accept rho tend st = Ok st' -> u_hist st' = a :: u_hist st ->
  0 < t_h a /\ t_h a * t_rho a <= 353 / 1000 * (IZR (t_deg a + 4)) ^ 2 - 3.
Proof.
  intros Htoint Hc. unfold d_body. cbv zeta.
  set (h := if nleb (mABS_diff tend (u_t st)) _ then _ else _). clearbody h.
  destruct (nltb h _) eqn:Eh; [discriminate|].
  assert (Hh : 0 < h).
  { revert Eh. unfold r4_uround. cbn [nltb nmul nlit Rnum]. rewrite Rlit_0, Rlit_neg. change (10 ^ 16)%Z with 10000000000000000%Z.
    destruct (Rltb_spec h (10 * (1 / 10000000000000000))); [discriminate|]. intros _. lra. }
  match goal with |- (match ?p with pair _ _ => _ end) = _ -> _ => destruct p as [w1 eig] end.
  match goal with |- context [toint ?x] => destruct (toint x) as [z| | |] eqn:Et end; cbn [bind]; try discriminate.
  replace (@nadd Rnum _ _) with (sqrt ((3 + h * eig) / (353 / 1000)) + 1) in Et.
  2:{ cbn [nlit nsqrt nadd nmul ndiv Rnum]. rewrite !Rlit_0, Rlit_neg. change (10 ^ 3)%Z with 1000%Z. reflexivity. }
  set (x := (3 + h * eig) / (353 / 1000)) in *. assert (Hs := sqrt_pos x).
  assert (Hs1 : 0 <= sqrt x + 1) by lra. assert (Hz := Htoint _ z Hs1 Et).
  assert (Ex : 3 + h * eig = 353 / 1000 * x) by (unfold x; field).
  assert (Hz1 : (1 <= z)%Z) by (assert ((0 < z)%Z); [apply lt_IZR; lra|lia]).
  assert (Hz1' : 1 <= IZR z) by (apply (IZR_le 1); exact Hz1).
  match goal with |- (match ?p with pair _ _ => _ end) = _ -> _ => destruct p as [h1 z1] eqn:Ez end.
  assert (H1 : 0 < h1 /\ (1 <= z1 <= 152)%Z /\ h1 * eig <= 353 / 1000 * IZR z1 ^ 2 - 3).
  { destruct (Z.ltb_spec 152 z) as [Hz2|Hz2]; injection Ez as <- <-.
    - assert (Hz3 : 153 <= IZR z) by (apply (IZR_le 153); lia).
      assert (Hx : 152 * 152 <= x).
      { destruct (Rle_lt_dec 0 x) as [P|P].
        - rewrite <- (sqrt_sqrt x P). apply Rmult_le_compat; lra.
        - rewrite (sqrt_neg_0 x) in Hz by lra. lra. }
      assert (He : 0 < eig). { apply (Rmult_lt_reg_l h); [exact Hh|]. lra. }
      cbn [nmul ndiv nsub nlit Rnum]. rewrite !Rlit_0, !Rlit_neg. change (10 ^ 3)%Z with 1000%Z. change (10 ^ 1)%Z with 10%Z.
      set (c := 8 / 10 * (152 * 152 * (353 / 1000) - 3)). assert (Hcp : 0 < c) by (unfold c; lra).
      split; [apply Rdiv_lt_0_compat; lra|]. split; [lia|].
      change (c / eig * eig <= 353 / 1000 * 152 ^ 2 - 3). replace (c / eig * eig) with c by (field; lra). unfold c. lra.
    - split; [exact Hh|]. split; [lia|]. change (h * eig <= 353 / 1000 * IZR z ^ 2 - 3).
      assert (x <= IZR z ^ 2); [|lra].
      destruct (Rle_lt_dec 0 x) as [P|P].
      + rewrite <- (sqrt_sqrt x P). replace (IZR z ^ 2) with (IZR z * IZR z) by ring. apply Rmult_le_compat; lra.
      + assert (Hq := pow2_ge_0 (IZR z)). lra. }
  destruct H1 as (Hh1 & Hb1 & Hst). clear Ez.
  set (m := (Z.max z1 5 - 4)%Z). assert (Hm : (1 <= m <= 148)%Z) by lia.
  assert (HS : wp (if (m =? u_mdego st)%Z then Ok (m, u_mp1 st, u_mp2 st, u_stages st) else
      '(mdeg, mp1, mp2) <- mdegre m (u_mp1 st) ;; Ok (mdeg, mp1, mp2, if (u_stages st <? mdeg + 4)%Z then (mdeg + 4)%Z else u_stages st))
      (fun x => let '(d, i, r, _) := x in (m <= d)%Z)).
  { destruct (m =? u_mdego st)%Z; [cbn; lia|]. apply wp_bind. eapply wp_mono; [apply selection; lia|]. intros [[d i] r0] [H _]. apply H. }
  destruct (if (m =? u_mdego st)%Z then _ else _) as [[[[d i] r] sg]| | |]; cbn [wp] in HS; try contradiction. cbn [bind].
  destruct (kern d i r w1 h1) as [[w2 err]| | |]; cbn [bind]; try discriminate.
  assert (HF : h1 * eig <= 353 / 1000 * IZR (d + 4) ^ 2 - 3).
  { assert (IZR z1 <= IZR (d + 4)) by (apply IZR_le; lia). assert (1 <= IZR z1) by (apply (IZR_le 1); lia).
    assert (IZR z1 ^ 2 <= IZR (d + 4) ^ 2) by (apply pow_incr; lra). lra. }
  destruct (nltb err (nlit 1 0)); intros X; injection X as <-; cbn [u_hist]; intros X; injection X as <-; cbn [t_h t_rho t_deg]; split; assumption.
Qed.

Section NG.
Variables RECF FPA FPB FPBE : Z -> R.
Hypothesis T1 : as_stored RECF ng_RECF.
Hypothesis T2 : as_stored FPA ng_FPA.
Hypothesis T3 : as_stored FPB ng_FPB.
Lemma ng_step f l c d i r h : linear f -> Forall (eigen f) l -> right_block d i r -> (d <= 92)%Z -> d <> 63%Z ->
  (forall p, In p l -> interval d (h * fst p)) ->
  exists q, (forall p, In p l -> Rabs (q (fst p)) <= 1) /\
  new_y f FPA FPB h i (stage f (t_mu1 RECF r) (t_mu RECF r) (t_kappa RECF r) h (comb l c) (Z.to_nat d)) = comb l (fun lam => q lam * c lam).
Proof.
  intros Hf Hl HR H1 H2 Hi.
  exact (step_damped f l c d i r (t_mu1 RECF r) (t_mu RECF r) (t_kappa RECF r) (tab FPA i) (tab FPB i) h 51 Hf Hl HR ltac:(lia) (checked_block d i r HR H1 H2) Hi
    (coef_ng d i r HR RECF FPA FPB T1 T2 T3)).
Qed.
Lemma ng_kernel Sg userF size atol rtol (f : vec Rnum -> vec Rnum) l d i r (e : est (K := Rnum) Sg) h :
  (forall s v, snd (userF s v) = f v) -> (0 <= size)%Z -> right_block d i r -> (d <= 92)%Z -> d <> 63%Z ->
  NoDup (ptrs Sg e) -> e_H e (e_fn e) = f (e_H e (e_y e)) ->
  linear f -> Forall (eigen f) l -> e_H e (e_y e) = comb l (fun _ => 1) -> (forall p, In p l -> interval d (h * fst p)) ->
  wp (kernel (K := Rnum) userF RECF FPA FPB FPBE size atol rtol d i r e h) (fun x => damped l (e_H (fst x) (e_temp (fst x)))).
Proof.
  intros HF Hs HR H1 H2 HN Hfn Hf Hl Hy Hi.
  eapply wp_mono; [apply (kernel_step Sg userF RECF FPA FPB FPBE size atol rtol f d i r e h HF Hs HR HN Hfn)|].
  intros [e' err] (E & _). cbn [fst]. rewrite Hy in E. rewrite E.
  destruct (ng_step f l (fun _ => 1) d i r h Hf Hl HR H1 H2 Hi) as (q & Q1 & Q2). exists q. split; [exact Q1|].
  rewrite Q2. f_equal. apply functional_extensionality. intros lam. ring.
Qed.
(* along a run *)
Lemma ng_run Sg userF userrho toint size (atol rtol tend : R) (e0 : est (K := Rnum) Sg) t0 h0 hl0 m1 m2 (f : vec Rnum -> vec Rnum) l :
  (forall s v, snd (userF s v) = f v) -> NoDup (ptrs Sg e0) -> (0 <= size)%Z -> linear f -> Forall (eigen f) l ->
  e_H e0 (e_y e0) = comb l (fun _ => 1) ->
  (forall x z, 0 <= x -> toint x = Ok z -> IZR z <= x < IZR z + 1) ->
  forall st, reach (K := Rnum) toint (kernel userF RECF FPA FPB FPBE size atol rtol) k_accept (r4_rho userrho) tend (r4_start (k_init userF) e0 t0 h0 hl0 m1 m2) st ->
  (forall a, In a (u_hist st) -> t_acc a = true -> (t_deg a <= 92)%Z /\ t_deg a <> 63%Z /\ forall p, In p l -> - t_rho a <= fst p <= 0) ->
  damped l (sol Sg st).
Proof.
  intros HF HN Hs Hf Hl Hy Htoint st HR.
  induction HR as [|st st' HR IH Ht Hb].
  - intros _. exists (fun _ => 1). split; [intros p _; rewrite Rabs_R1; lra|]. rewrite <- Hy.
    unfold sol, r4_start. cbn [u_w]. unfold k_init, callF. destruct (userF (e_f e0) (e_H e0 (e_y e0))) as [s v] eqn:EU. cbn [e_H e_y].
    destruct (Z.eq_dec (e_y e0) (e_fn e0)) as [EE|NE].
    + exfalso. unfold ptrs in HN. rewrite EE in HN. inversion HN as [|? ? Hn _]. apply Hn. cbn. auto 12.
    + unfold hset. destruct (Z.eqb_spec (e_y e0) (e_fn e0)); [contradiction|reflexivity].
  - intros HA.
    destruct (reach_pass (K := Rnum) toint (kernel userF RECF FPA FPB FPBE size atol rtol) (k_init userF) k_accept (r4_rho userrho) tend _ _ _ (start_cached _ _ _ _ _ _ _) HR Ht Hb) as (a & w1 & w2 & err & Hh & _ & Hq & _).
    rewrite Hh in HA.
    assert (IH' := IH (fun a' Ha' => HA a' (or_intror Ha'))). destruct IH' as (q0 & Q1 & Q2).
    destruct (t_acc a) eqn:Ea.
    + destruct (accepted_step Sg userF userrho toint RECF FPA FPB FPBE size atol rtol tend e0 t0 h0 hl0 m1 m2 f HF HN Hs st HR st' a Ht Hb Hh) as [_ X].
      specialize (X Ea). destruct (HA a (or_introl eq_refl) Ea) as (D1 & D2 & D3).
      destruct Hq as (_ & _ & Hq). rewrite Q2 in X.
      destruct (real_stable _ toint (kernel userF RECF FPA FPB FPBE size atol rtol) k_accept (r4_rho userrho) tend st st' a Htoint
        (reach_cached (K := Rnum) toint (kernel userF RECF FPA FPB FPBE size atol rtol) (k_init userF) k_accept (r4_rho userrho) tend _ _ (start_cached _ _ _ _ _ _ _) HR) Hb Hh) as [R1 R2].
      assert (D4 : forall p, In p l -> interval (t_deg a) (t_h a * fst p)).
      { intros p Hp. specialize (D3 p Hp). unfold interval. split.
        - apply Rle_trans with (t_h a * - t_rho a); [lra|]. apply Rmult_le_compat_l; lra.
        - replace 0 with (t_h a * 0) by ring. apply Rmult_le_compat_l; lra. }
      destruct (ng_step f l q0 (t_deg a) (t_mz a) (t_mr a) (t_h a) Hf Hl Hq D1 D2 D4) as (q & P1 & P2).
      exists (fun lam => q lam * q0 lam). split.
      * intros p Hp. rewrite Rabs_mult. specialize (P1 p Hp). specialize (Q1 p Hp).
        apply Rle_trans with (1 * 1); [|lra]. apply Rmult_le_compat; auto using Rabs_pos.
      * rewrite X. exact P2.
    + destruct (derivative_current Rnum Sg userF userrho toint RECF FPA FPB FPBE size atol rtol tend e0 t0 h0 hl0 m1 m2 f HF HN st HR) as [_ X].
      exists q0. split; [exact Q1|]. rewrite (X st' a Ht Hb Hh Ea). exact Q2.
Qed.
End NG.

Section L.
Variables RECF FPA FPB : Z -> R.
Hypothesis T1 : as_stored RECF l_RECF.
Hypothesis T2 : as_stored FPA l_FPA.
Hypothesis T3 : as_stored FPB l_FPB.
Lemma l_step A l c d i r h : linear A -> Forall (eigen A) l -> right_block d i r -> (d <= 92)%Z -> d <> 63%Z ->
  (forall p, In p l -> interval d (h * fst p)) ->
  exists q, (forall p, In p l -> Rabs (q (fst p)) <= 1) /\ rock4_step RECF FPA FPB A d i r h (comb l c) = comb l (fun lam => q lam * c lam).
Proof.
  intros Hf Hl HR H1 H2 Hi.
  exact (step_damped A l c d i r (RECF (r - 1)%Z) (fun j => RECF (r - 1 + 2 * j - 3)%Z) (fun j => RECF (r - 1 + 2 * j - 2)%Z) (row FPA 6 i) (row FPB 4 i) h 51
    Hf Hl HR ltac:(lia) (checked_block d i r HR H1 H2) Hi (coef_l d i r HR RECF FPA FPB T1 T2 T3)).
Qed.
Lemma l_steps A l : linear A -> Forall (eigen A) l -> forall L u u', rock4_steps RECF FPA FPB A L u u' -> u = comb l (fun _ => 1) ->
  (forall t h d, In (t, h, d) L -> (d <= 92)%Z /\ d <> 63%Z /\ forall p, In p l -> interval d (h * fst p)) -> damped l u'.
Proof.
  intros Hf Hl L u u' HS. induction HS as [w|L t h d w w' w'' HS IH (i & r & HR & Hw)]; intros Hu HA.
  - exists (fun _ => 1). split; [intros p _; rewrite Rabs_R1; lra|assumption].
  - destruct (IH Hu (fun t0 h0 d0 H0 => HA t0 h0 d0 (in_or_app _ _ _ (or_introl H0)))) as (q0 & Q1 & Q2).
    destruct (HA t h d) as (D1 & D2 & D3); [apply in_or_app; right; now left|].
    destruct (l_step A l q0 d i r h Hf Hl HR D1 D2 D3) as (q & P1 & P2).
    exists (fun lam => q lam * q0 lam). split.
    + intros p Hp. rewrite Rabs_mult. specialize (P1 p Hp). specialize (Q1 p Hp).
      apply Rle_trans with (1 * 1); [|lra]. apply Rmult_le_compat; auto using Rabs_pos.
    + rewrite Hw, Q2. exact P2.
Qed.
(* the whole of operator() *)
Lemma l_run Sg (A : vec Rnum -> vec Rnum) l opL toint tend rho t0 h0 y k1 g0 g1 g2 mp1 mp2 (e0 : lest (K := Rnum) Sg) opLc :
  linear A -> Forall (eigen A) l -> (forall p, In p l -> - rho <= fst p <= 0) -> l_H e0 y = comb l (fun _ => 1) ->
  truncates toint -> 0 <= rho -> 1 / 10 ^ 13 <= h0 -> 101 / 100 * h0 * rho + 3 < 353 / 1000 * 152 ^ 2 -> 1 / 10 ^ 15 <= tend - t0 ->
  doc_L Sg A opL -> doc_Lc Sg A opLc -> NoDup [y; k1; g0; g1; g2] ->
  exists fuel st, rock4l (K := Rnum) toint (kernel1 opL opLc RECF FPA FPB y k1 g0 g1 g2) tend rho false fuel (l_init e0) t0 h0 mp1 mp2 = Ok st /\ v_t st = tend /\
    ((forall t h d, In (t, h, d) (v_hist st) -> (d <= 92)%Z /\ d <> 63%Z) -> damped l (l_H (v_w st) y)) /\
    (101 / 100 * h0 * rho < 353 / 1000 * 63 ^ 2 - 3 -> damped l (l_H (v_w st) y)).
Proof.
  intros HA Hl Hrho Hy H1 H2 H3 H4 H5 H6 H7 HN.
  destruct (linear_run Sg A HA opL RECF FPA FPB (fun _ _ => True) toint tend rho t0 h0 y k1 g0 g1 g2 mp1 mp2 e0 H1 H2 H3 H4 H5 Logic.I H6 (fun _ _ _ _ _ _ _ => Logic.I)
    opLc H7 (fun _ _ _ _ _ _ _ _ => Logic.I) HN) as (fuel & st & E & Et & (_ & G & _) & HS & _).
  exists fuel, st. split; [exact E|]. split; [exact Et|]. rewrite Forall_forall in G.
  assert (X : (forall t h d, In (t, h, d) (v_hist st) -> (d <= 92)%Z /\ d <> 63%Z) -> damped l (l_H (v_w st) y)).
  { intros HD. apply (l_steps A l HA Hl _ _ _ HS Hy). intros t h d Hin. apply in_rev in Hin. destruct (HD t h d Hin) as [D1 D2]. split; [exact D1|]. split; [exact D2|].
    destruct (G _ Hin) as (Q1 & _ & _ & Q2 & _). intros p Hp. specialize (Hrho p Hp). unfold stable_degree in Q2. unfold interval. split.
    - apply Rle_trans with (h * - rho); [lra|]. apply Rmult_le_compat_l; lra.
    - replace 0 with (h * 0) by ring. apply Rmult_le_compat_l; lra. }
  split; [exact X|]. intros Hsm. apply X. intros t h d Hin. destruct (G _ Hin) as (Q1 & _ & _ & _ & Q3).
  assert (D : (d <= 59)%Z).
  { apply Q3; [unfold MS; do 35 right; left; reflexivity|]. change (59 + 4)%Z with 63%Z.
    eapply Rle_lt_trans; [|exact Hsm]. apply Rmult_le_compat_r; lra. }
  lia.
Qed.
End L.

(* ---- degrees for which the bound does not hold ---- *)
Section Amp.
Variables (tR : list (Z * Z)) (zA zB : nat -> Z) (i : nat).
Definition zl : list (Z * Z) := let t := skipn (off i) tR in map (fun j => (nthZ t (2 * j - 3), nthZ t (2 * j - 2))) (seq 2 (deg i - 1)).
Definition amp (a b : Z) : bool :=
  (0 <? b)%Z && (1 <=? deg i)%nat && zlarge a b (nthZ tR (off i)) zl (finl zA zB).
Lemma amp_sound a b mu1 mu ka fa fb : amp a b = true ->
  mu1 = rl (nthZ tR (off i)) ->
  (forall j, (2 <= j <= deg i)%nat -> mu (Z.of_nat j) = rl (nthZ tR (off i + (2 * j - 3))) /\ ka (Z.of_nat j) = rl (nthZ tR (off i + (2 * j - 2)))) ->
  (forall j, (j < 6)%nat -> fa (Z.of_nat j + 1)%Z = rl (zA j)) -> (forall j, (j < 4)%nat -> fb (Z.of_nat j + 1)%Z = rl (zB j)) ->
  forall h lam (y : vec Rnum), h * lam = - (IZR a / IZR b) -> exists q, 1 < Rabs q /\
  fin_y (fun v k => lam * v k) (fa 1%Z) (fa 2%Z) (fa 3%Z) (fa 4%Z) (fa 5%Z) (fa 6%Z) (fb 1%Z) (fb 2%Z) (fb 3%Z) (fb 4%Z) h
    (stage (fun v k => lam * v k) mu1 mu ka h y (deg i)) = fun k => q * y k.
Proof.
  intros H E1 E2 E3 E4 h lam y Hz. unfold amp in H. apply andb_prop in H. destruct H as [H HC]. apply andb_prop in H. destruct H as [Hb Hd].
  apply Z.ltb_lt in Hb. apply Nat.leb_le in Hd. apply (zlarge_ok a b Hb) in HC.
  assert (Hlin : linear (fun v k => lam * v k)) by (intros u v x z; apply functional_extensionality; intros k; rring).
  assert (Hl : Forall (eigen (fun v k => lam * v k)) [(lam, y)]) by (constructor; [intros k; reflexivity|constructor]).
  assert (Hy : y = comb [(lam, y)] (fun _ => 1)) by (apply functional_extensionality; intros k; cbn [comb fst snd]; symmetry; eapply eq_trans; [apply Rplus_0_r|apply Rmult_1_l]).
  assert (ES := step_comb _ Hlin [(lam, y)] Hl h mu1 mu ka fa fb (deg i) Hd). rewrite <- Hy in ES. rewrite ES.
  exists (polyR mu1 (map (fun j => (mu (Z.of_nat j), ka (Z.of_nat j))) (seq 2 (deg i - 1))) (FZ fa fb) (h * lam)).
  split; [|apply functional_extensionality; intros k; cbn [comb fst snd]; apply Rplus_0_r].
  replace (polyR mu1 (map (fun j => (mu (Z.of_nat j), ka (Z.of_nat j))) (seq 2 (deg i - 1))) (FZ fa fb) (h * lam))
    with (polyR (rl (nthZ tR (off i))) (listR zl) (finR (finl zA zB)) (z0 a b)); [exact HC|].
  f_equal.
  - now rewrite E1.
  - unfold listR, zl. cbv zeta. rewrite map_map. apply map_ext_in. intros j Hj. apply in_seq in Hj. destruct (E2 j) as [X1 X2]; [lia|]. cbn [fst snd]. rewrite X1, X2.
    unfold nthZ. now rewrite !nth_skipn'.
  - unfold finR, finl, FZ. cbn [a21 a31 a32 a41 a42 a43 b1 b2 b3 b4].
    unfold finl. rewrite <- !E3, <- !E4 by lia. reflexivity.
  - rewrite Hz. reflexivity.
Qed.
End Amp.
