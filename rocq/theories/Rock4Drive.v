(* Proofs about the driver of Rock4 in any arithmetic: selection of the blocks, absence of
   undefined behaviour, statistics, stored derivative, pointers; and the kernel over the reals. *)
From Coq Require Import Reals Lra FunctionalExtensionality Permutation.
From Verif Require Import Base HessModel FieldLU Spec VecFun CMacros Rock4Model Rock4Spec Rock4Proofs.
Open Scope Z_scope.

Section D.
Context {K : num}.
Context {W : Type}.
Variable toint : K -> out Z.
Variable kern : Z -> Z -> Z -> W -> K -> out (W * K).
Variable init accept : W -> W.
Variable rho : W -> W * K.
Variable tend : K.
Notation body := (d_body toint kern accept rho tend).
Notation loop := (d_loop toint kern accept rho tend).
Notation reach := (reach toint kern accept rho tend).

Lemma loop_reach st0 fuel : forall st, reach st0 st -> forall st', loop fuel st = Ok st' -> reach st0 st' /\ nltb (u_t st') tend = false.
Proof.
  induction fuel as [|n IH]; intros st HR st' H; cbn [d_loop] in H; destruct (nltb (u_t st) tend) eqn:Et; try discriminate.
  - injection H as <-. auto.
  - destruct (body st) as [s1| | |] eqn:Eb; cbn [bind] in H; try discriminate.
    eapply IH; [|exact H]. eapply reachS; eauto.
  - injection H as <-. auto.
Qed.

(* what one pass does, in any arithmetic *)
Definition requested (a : att K) : Prop := 1 <= t_req a <= 148 /\ smallest_degree (t_req a) (t_deg a) /\ right_block (t_deg a) (t_mz a) (t_mr a).
Definition cached (st : dst (K := K) W) : Prop := u_mdego st = 0 \/ right_block (u_mdego st) (u_mp1 st) (u_mp2 st).
Definition pass_rel (st st' : dst (K := K) W) : Prop :=
  exists a w1 w2 err,
    u_hist st' = a :: u_hist st /\ t_t a = u_t st /\ requested a /\ cached st' /\
    u_mdego st' = t_deg a /\
    t_new a = (u_nrho st =? 0) /\
    (w1, t_rho a) = (if u_nrho st =? 0 then rho (u_w st) else (u_w st, u_eig st)) /\ u_eig st' = t_rho a /\
    kern (t_deg a) (t_mz a) (t_mr a) w1 (t_h a) = Ok (w2, err) /\
    t_acc a = nltb err (nlit 1 0) /\
    u_nsteps st' = u_nsteps st + 1 /\
    (t_acc a = true -> u_w st' = accept w2 /\ u_t st' = nadd (u_t st) (t_h a) /\ u_nacc st' = u_nacc st + 1 /\ u_nrej st' = u_nrej st /\
       u_hlast st' = t_h a /\ u_nrho st' = (u_nrho st + 2) mod 10) /\
    (t_acc a = false -> u_w st' = w2 /\ u_t st' = u_t st /\ u_nacc st' = u_nacc st /\ u_nrej st' = u_nrej st + 1 /\ u_hlast st' = u_hlast st /\
       u_nrho st' = (if u_nrho st =? 0 then 1 else 0)).

Definition no_ub {A} (m : out A) : Prop := forall s, m <> UB s.
Lemma pass st : cached st ->
  match body st with
  | Ok st' => pass_rel st st'
  | UB s => (exists x, toint x = UB s) \/ (exists d i r w h, right_block d i r /\ kern d i r w h = UB s)
  | Diverge => (exists x, toint x = Diverge) \/ (exists d i r w h, right_block d i r /\ kern d i r w h = Diverge)
  | Throw _ => True
  end.
Proof.
  intros Hc. unfold d_body. cbv zeta.
  set (h := if nleb (mABS_diff tend (u_t st)) _ then _ else _).
  destruct (nltb h _); trivial.
  destruct (if u_nrho st =? 0 then rho (u_w st) else (u_w st, u_eig st)) as [w1 eig] eqn:Er.
  destruct (toint _) as [z| | |] eqn:Et; cbn [bind]; eauto.
  destruct (if 152 <? z then _ else _) as [h1 z1] eqn:Ez.
  assert (Hz1 : z1 <= 152) by (destruct (Z.ltb_spec 152 z); injection Ez as <- <-; lia).
  set (m := Z.max z1 5 - 4). assert (Hm : 1 <= m <= 148) by lia. clearbody m.
  assert (HS : wp (if m =? u_mdego st then Ok (m, u_mp1 st, u_mp2 st, u_stages st) else
      '(mdeg, mp1, mp2) <- mdegre m (u_mp1 st) ;; Ok (mdeg, mp1, mp2, if u_stages st <? mdeg + 4 then mdeg + 4 else u_stages st))
      (fun x => let '(d, i, r, _) := x in smallest_degree m d /\ right_block d i r)).
  { destruct (Z.eqb_spec m (u_mdego st)) as [Hq|Hq].
    - cbn [wp]. destruct Hc as [Hc|Hc]; [lia|]. rewrite <- Hq in Hc. split; [|exact Hc].
      apply table_self. eapply right_block_table; exact Hc.
    - apply wp_bind. eapply wp_mono; [apply selection; lia|]. intros [[d i] r] H. exact H. }
  destruct (if m =? u_mdego st then _ else _) as [[[[d i] r] sg]| | |]; cbn [wp] in HS; try contradiction.
  destruct HS as [HS1 HS2]. cbn [bind].
  destruct (kern d i r w1 h1) as [[w2 err]| | |] eqn:Ek; cbn [bind]; eauto 10.
  destruct (nltb err (nlit 1 0)) eqn:Ee.
  - exists (mkAtt (u_t st) h1 eig (u_nrho st =? 0) m d i r true), w1, w2, err.
    cbn [u_hist t_t t_req t_deg t_mz t_mr t_h t_rho t_acc t_new u_mdego u_mp1 u_mp2 u_nsteps u_nacc u_nrej u_w u_t u_hlast u_eig u_nrho]. unfold requested, cached. cbn.
    repeat split; auto; try lia; try (apply HS1); try (apply HS2); try (intros; discriminate).
  - exists (mkAtt (u_t st) h1 eig (u_nrho st =? 0) m d i r false), w1, w2, err.
    cbn [u_hist t_t t_req t_deg t_mz t_mr t_h t_rho t_acc t_new u_mdego u_mp1 u_mp2 u_nsteps u_nacc u_nrej u_w u_t u_hlast u_eig u_nrho]. unfold requested, cached. cbn.
    repeat split; auto; try lia; try (apply HS1); try (apply HS2); try (intros; discriminate).
Qed.
Lemma reach_cached st0 st : cached st0 -> reach st0 st -> cached st.
Proof.
  intros H0 HR. induction HR as [|st st' HR IH Ht Hb]; [exact H0|].
  pose proof (pass st IH) as HP. rewrite Hb in HP. destruct HP as (a & w1 & w2 & err & HP). tauto.
Qed.
Lemma reach_pass st0 st st' : cached st0 -> reach st0 st -> nltb (u_t st) tend = true -> body st = Ok st' -> pass_rel st st'.
Proof. intros H0 HR _ Hb. pose proof (pass st (reach_cached _ _ H0 HR)) as HP. rewrite Hb in HP. exact HP. Qed.

Variables (w0 : W) (t0 h0 hl0 : K) (m1 m2 : Z).
Notation start := (r4_start init w0 t0 h0 hl0 m1 m2).
Lemma start_cached : cached start.
Proof. left. reflexivity. Qed.

(* C27: every attempted step of every run *)
Lemma selection_driver st : reach start st -> Forall requested (u_hist st).
Proof.
  intros HR. induction HR as [|st st' HR IH Ht Hb]; [constructor|].
  destruct (reach_pass _ _ _ start_cached HR Ht Hb) as (a & w1 & w2 & err & Hh & _ & Hq & _). rewrite Hh. constructor; assumption.
Qed.
Lemma driver_no_ub fuel : (forall x, no_ub (toint x)) -> (forall d i r w h, right_block d i r -> no_ub (kern d i r w h)) ->
  no_ub (rock4 toint kern init accept rho tend fuel w0 t0 h0 hl0 m1 m2).
Proof.
  intros Ht Hk. unfold rock4.
  assert (HL : forall fuel st, cached st -> no_ub (loop fuel st)).
  { clear fuel. induction fuel as [|n IH]; intros st Hc s; cbn [d_loop]; destruct (nltb (u_t st) tend); try discriminate.
    pose proof (pass st Hc) as HP. destruct (body st) as [st'| |s'|]; cbn [bind]; try discriminate.
    - apply IH. destruct HP as (a & w1 & w2 & err & HP). tauto.
    - destruct HP as [(x & Hx)|(d & i & r & w & h & Hr & Hx)]; [elim (Ht x s' Hx)|elim (Hk d i r w h Hr s' Hx)]. }
  apply HL. apply start_cached.
Qed.

(* C32: the counters of the driver *)
Definition n_acc (l : list (att K)) : Z := Z.of_nat (Datatypes.length (filter (@t_acc K) l)).
Definition n_rej (l : list (att K)) : Z := Z.of_nat (Datatypes.length (filter (fun a => negb (t_acc a)) l)).
Definition last_acc (l : list (att K)) : option K := option_map (@t_h K) (find (@t_acc K) l).
Lemma driver_counters st : reach start st ->
  u_nsteps st = Z.of_nat (Datatypes.length (u_hist st)) /\ u_nacc st = n_acc (u_hist st) /\ u_nrej st = n_rej (u_hist st) /\
  u_nsteps st = u_nacc st + u_nrej st /\ u_hlast st = (match last_acc (u_hist st) with Some h => h | None => hl0 end).
Proof.
  intros HR. induction HR as [|st st' HR IH Ht Hb].
  - cbn. repeat split; reflexivity.
  - destruct (reach_pass _ _ _ start_cached HR Ht Hb) as (a & w1 & w2 & err & Hh & _ & _ & _ & _ & _ & _ & _ & _ & _ & Hs & Ha & Hr).
    destruct IH as (I1 & I2 & I3 & I4 & I5). rewrite Hh. unfold n_acc, n_rej, last_acc in *. cbn [filter find Datatypes.length].
    destruct (t_acc a) eqn:Eacc; cbn [negb Datatypes.length option_map].
    + destruct (Ha eq_refl) as (_ & _ & A1 & A2 & A3 & _). repeat split; try lia. exact A3.
    + destruct (Hr eq_refl) as (_ & _ & A1 & A2 & A3 & _). repeat split; try lia. rewrite A3. exact I5.
Qed.
End D.

(* ---- the driver running the real kernel --------------------------------------------------- *)
Section Real_kernel.
Context {K : num}.
Variable Sg : Type.
Variable userF : Sg -> vec K -> Sg * vec K.
Variable userrho : Sg -> Sg * (car K).
Variable toint : K -> out Z.
Variables RECF FPA FPB FPBE : Z -> K.
Variable size : Z.
Variables atol rtol : K.
Variable tend : K.
Notation kern := (kernel userF RECF FPA FPB FPBE size atol rtol).
Notation rho := (r4_rho userrho).
Notation reach := (reach toint kern k_accept rho tend).
Variables (e0 : est (K := K) Sg) (t0 h0 hl0 : K) (m1 m2 : Z).
Notation start := (r4_start (k_init userF) e0 t0 h0 hl0 m1 m2).
Notation run := (fun fuel => rock4 toint kern (k_init userF) k_accept rho tend fuel e0 t0 h0 hl0 m1 m2).

Lemma run_no_ub fuel : (forall x, no_ub (toint x)) -> no_ub (run fuel).
Proof.
  intros Ht. apply driver_no_ub; [exact Ht|]. intros d i r w h Hb s Hk.
  pose proof (kernel_total Sg userF RECF FPA FPB FPBE size atol rtol (fun _ _ => True) ltac:(auto) d i r w h 0 Hb Logic.I) as X.
  rewrite Hk in X. exact X.
Qed.
(* rho() changes nothing but the state of the user's object *)
Lemma rho_same w : let w1 := fst (rho w) in e_H w1 = e_H w /\ ptrs Sg w1 = ptrs Sg w /\ e_funccal w1 = e_funccal w /\
  e_y w1 = e_y w /\ e_fn w1 = e_fn w /\ e_k1 w1 = e_k1 w /\ e_k2 w1 = e_k2 w /\ e_k3 w1 = e_k3 w /\ e_k4 w1 = e_k4 w /\ e_temp w1 = e_temp w /\ e_g0 w1 = e_g0 w /\
  e_f w1 = fst (userrho (e_f w)).
Proof. unfold r4_rho. destruct (userrho (e_f w)) as [s r]. cbn. repeat split; reflexivity. Qed.

(* C32: right-hand-side evaluations *)
Section Count.
Variable Rel : Z -> Sg -> Prop.
Hypothesis RelF : forall n s v, Rel n s -> Rel (n + 1) (fst (userF s v)).
Hypothesis Relrho : forall n s, Rel n s -> Rel n (fst (userrho s)).
Lemma calls_counted st : Rel 0 (e_f e0) -> reach start st -> Rel (e_funccal (u_w st)) (e_f (u_w st)).
Proof.
  intros H0 HR. induction HR as [|st st' HR IH Ht Hb].
  - cbn [r4_start u_w k_init]. unfold k_init. destruct (callF_rel Sg userF Rel RelF (e_H e0) (e_f e0) (e_y e0) (e_fn e0) 0 H0) as (H' & s' & -> & Hs).
    cbn. exact Hs.
  - destruct (reach_pass toint kern (k_init userF) k_accept rho tend _ _ _ (start_cached _ _ _ _ _ _ _) HR Ht Hb) as (a & w1 & w2 & err & Hh & _ & Hq & _ & _ & _ & Hw & _ & Hk & _ & _ & Ha & Hr).
    assert (H1 : Rel (e_funccal (u_w st)) (e_f w1) /\ e_funccal w1 = e_funccal (u_w st)).
    { destruct (u_nrho st =? 0).
      - pose proof (rho_same (u_w st)) as X. rewrite <- Hw in X. cbn [fst] in X. destruct X as (_ & _ & X & _ & _ & _ & _ & _ & _ & _ & _ & Y). rewrite Y. auto.
      - injection Hw as -> _. auto. }
    destruct H1 as [H1 H2].
    pose proof (kernel_total Sg userF RECF FPA FPB FPBE size atol rtol Rel RelF _ _ _ w1 (t_h a) _ (proj2 (proj2 Hq)) H1) as X.
    rewrite Hk in X. cbn [wp fst] in X. destruct X as [X1 X2].
    destruct (t_acc a).
    + destruct (Ha eq_refl) as [-> _]. cbn. rewrite X1, H2. exact X2.
    + destruct (Hr eq_refl) as [-> _]. rewrite X1, H2. exact X2.
Qed.
End Count.

(* C36: the eight arrays are permuted among the eight pointers *)
Lemma ptrs_permuted st : reach start st -> Permutation (ptrs Sg e0) (ptrs Sg (u_w st)).
Proof.
  intros HR. induction HR as [|st st' HR IH Ht Hb].
  - cbn [r4_start u_w]. unfold k_init. destruct (callF _ _ _ _ _). apply Permutation_refl.
  - eapply Permutation_trans; [exact IH|].
    destruct (reach_pass toint kern (k_init userF) k_accept rho tend _ _ _ (start_cached _ _ _ _ _ _ _) HR Ht Hb) as (a & w1 & w2 & err & Hh & _ & Hq & _ & _ & _ & Hw & _ & Hk & _ & _ & Ha & Hr).
    assert (H1 : ptrs Sg w1 = ptrs Sg (u_w st)).
    { destruct (u_nrho st =? 0); [pose proof (rho_same (u_w st)) as X; rewrite <- Hw in X; cbn [fst] in X; destruct X as (_ & X & _); exact X|congruence]. }
    rewrite <- H1.
    pose proof (kernel_ptrs Sg userF RECF FPA FPB FPBE size atol rtol (t_deg a) (t_mz a) (t_mr a) w1 (t_h a)) as X.
    rewrite Hk in X. destruct X as (X1 & X2 & X3 & X4 & X5 & X6 & X7).
    assert (H2 : Permutation (ptrs Sg w1) (ptrs Sg w2)).
    { unfold ptrs. rewrite X1, X2, X3, X4, X5, X6. destruct X7 as [[-> ->]|[-> ->]]; [apply Permutation_refl|].
      do 6 apply perm_skip. apply perm_swap. }
    eapply Permutation_trans; [exact H2|].
    destruct (t_acc a).
    + destruct (Ha eq_refl) as [-> _]. unfold ptrs, k_accept. cbn.
      change [e_y w2; e_fn w2; e_k1 w2; e_k2 w2; e_k3 w2; e_k4 w2; e_temp w2; e_g0 w2] with ([e_y w2; e_fn w2] ++ [e_k1 w2; e_k2 w2; e_k3 w2; e_k4 w2] ++ [e_temp w2; e_g0 w2]).
      change (Permutation ([e_y w2; e_fn w2] ++ [e_k1 w2; e_k2 w2; e_k3 w2; e_k4 w2] ++ [e_temp w2; e_g0 w2]) ([e_temp w2; e_g0 w2] ++ [e_k1 w2; e_k2 w2; e_k3 w2; e_k4 w2] ++ [e_y w2; e_fn w2])).
      eapply Permutation_trans; [apply Permutation_app_swap_app|].
      eapply Permutation_trans; [apply Permutation_app_head, Permutation_app_comm|].
      apply Permutation_app_swap_app.
    + destruct (Hr eq_refl) as [-> _]. apply Permutation_refl.
Qed.

(* C29 *)
Variable f : vec K -> vec K.
Hypothesis pureF : forall s v, snd (userF s v) = f v.
Hypothesis distinct0 : NoDup (ptrs Sg e0).
Definition sol (st : dst (K := K) (est (K := K) Sg)) : vec K := e_H (u_w st) (e_y (u_w st)).
Definition deriv (st : dst (K := K) (est (K := K) Sg)) : vec K := e_H (u_w st) (e_fn (u_w st)).
Lemma reach_distinct st : reach start st -> NoDup (ptrs Sg (u_w st)).
Proof. intros HR. eapply Permutation_NoDup; [apply ptrs_permuted; exact HR|exact distinct0]. Qed.
Lemma fsal_pass st : reach start st -> deriv st = f (sol st) /\
  (forall st' a, nltb (u_t st) tend = true -> d_body toint kern k_accept rho tend st = Ok st' -> u_hist st' = a :: u_hist st ->
     deriv st' = f (sol st') /\
     (t_acc a = true -> sol st' = x_y FPA FPB f (t_h a) (t_mz a) (G RECF f (t_h a) (t_mr a) (sol st) (t_deg a))) /\
     (t_acc a = false -> sol st' = sol st) /\
     t_acc a = nltb (x_err FPA FPB FPBE size atol rtol f (t_h a) (t_mz a) (G RECF f (t_h a) (t_mr a) (sol st) (t_deg a))) (nlit 1 0)).
Proof.
  intros HR.
  assert (HI : forall st, reach start st -> deriv st = f (sol st) -> forall st' a, nltb (u_t st) tend = true -> d_body toint kern k_accept rho tend st = Ok st' -> u_hist st' = a :: u_hist st ->
     deriv st' = f (sol st') /\
     (t_acc a = true -> sol st' = x_y FPA FPB f (t_h a) (t_mz a) (G RECF f (t_h a) (t_mr a) (sol st) (t_deg a))) /\
     (t_acc a = false -> sol st' = sol st) /\
     t_acc a = nltb (x_err FPA FPB FPBE size atol rtol f (t_h a) (t_mz a) (G RECF f (t_h a) (t_mr a) (sol st) (t_deg a))) (nlit 1 0)).
  { clear st HR. intros st HR Hd st' a' Ht Hb Hh'.
    destruct (reach_pass toint kern (k_init userF) k_accept rho tend _ _ _ (start_cached _ _ _ _ _ _ _) HR Ht Hb) as (a & w1 & w2 & err & Hh & _ & Hq & _ & _ & _ & Hw & _ & Hk & Hacc & _ & Ha & Hr).
    assert (a' = a) by congruence. subst a'.
    assert (H1 : ptrs Sg w1 = ptrs Sg (u_w st) /\ e_H w1 = e_H (u_w st) /\ e_y w1 = e_y (u_w st) /\ e_fn w1 = e_fn (u_w st)).
    { destruct (u_nrho st =? 0); [pose proof (rho_same (u_w st)) as X; rewrite <- Hw in X; cbn [fst] in X; destruct X as (Y1 & Y2 & _ & Y3 & Y4 & _); auto|]. injection Hw as -> _. auto. }
    destruct H1 as (H1 & H2 & H3 & H4).
    pose proof (kernel_spec Sg userF RECF FPA FPB FPBE size atol rtol f pureF (t_h a) (t_mr a) (sol st) (t_deg a) (t_mz a) w1 (proj2 (proj2 Hq))) as X.
    rewrite H1, H2, H3, H4, Hk in X. cbn [wp fst snd] in X.
    specialize (X (reach_distinct st HR) eq_refl Hd).
    destruct X as (X1 & X2 & X3 & X4 & X5 & X6 & X7 & _).
    split; [|split; [|split; [|rewrite Hacc, X3; reflexivity]]].
    - destruct (t_acc a).
      + destruct (Ha eq_refl) as [Hu _]. unfold deriv, sol. rewrite Hu. cbn. rewrite X1, X2. reflexivity.
      + destruct (Hr eq_refl) as [Hu _]. unfold deriv, sol. rewrite Hu, X5, X7. rewrite H2, H3, H4. exact Hd.
    - intros Eacc. destruct (Ha Eacc) as [Hu _]. unfold sol at 1. rewrite Hu. cbn. exact X1.
    - intros Eacc. destruct (Hr Eacc) as [Hu _]. unfold sol. rewrite Hu, X5, H2, H3. reflexivity. }
  assert (HD : deriv st = f (sol st)).
  { induction HR as [|st st' HR IH Ht Hb].
    - unfold deriv, sol. cbn [r4_start u_w]. unfold k_init.
      destruct (callF_eq Sg userF f pureF (e_H e0) (e_f e0) (e_y e0) (e_fn e0)) as [s' ->]. cbn.
      apply NoDup8 in distinct0. rewrite hset_eq, hset_ne by tauto. reflexivity.
    - destruct (reach_pass toint kern (k_init userF) k_accept rho tend _ _ _ (start_cached _ _ _ _ _ _ _) HR Ht Hb) as (a & w1 & w2 & err & Hh & _).
      destruct (HI st HR IH st' a Ht Hb Hh) as [X _]. exact X. }
  split; [exact HD|]. intros st' a. apply HI; assumption.
Qed.
End Real_kernel.
