(* C91 for Rock4: a call computes the same whatever the work arrays, mp and hlast hold *)
From Coq Require Import ZArith Lia Bool List.
From Verif Require Import Base Spec HessModel VecFun CMacros Rock4Model Rock4Spec Rock4Proofs Rock4Drive RepeatSpec RepeatProofs.
Import ListNotations.
Open Scope Z_scope.

Lemma both_eq {A} (a : out A) : both eq a a.
Proof. destruct a; cbn; auto. Qed.
Lemma both_same {A C D} (a : out A) (Q : C -> D -> Prop) f g : (forall x, both Q (f x) (g x)) -> both Q (bind a f) (bind a g).
Proof. intros H. destruct a; cbn; auto. Qed.

Section Rock.
Context {K : num}.
Variable Sg : Type.
Variable userF : Sg -> vec K -> Sg * vec K.
Variables RECF FPA FPB FPBE : Z -> K.
Variable size : Z.
Variables atol rtol : K.
Let ag (v v' : Z -> K) := forall i, 0 <= i < size -> v i = v' i.
Hypothesis rdF : forall s v v', ag v v' -> fst (userF s v) = fst (userF s v') /\ ag (snd (userF s v)) (snd (userF s v')).
(* the arrays of the two objects, matched *)
Variable B : Z -> Z -> Prop.
Hypothesis Bi : forall p q p' q', B p p' -> B q q' -> (p = q <-> p' = q').
Definition agr (V : list Z) (H H' : heap (K := K)) : Prop := forall p p', B p p' -> In p V -> ag (H p) (H' p').
Lemma agr_set V H H' q q' v v' : agr V H H' -> B q q' -> ag v v' -> agr (q :: V) (hset H q v) (hset H' q' v').
Proof.
  intros HA HB HV p p' Hp Hin. unfold hset. pose proof (Bi _ _ _ _ Hp HB) as E.
  destruct (Z.eqb_spec p q) as [e|e]; destruct (Z.eqb_spec p' q') as [e'|e']; try (exfalso; tauto); [exact HV|].
  destruct Hin as [h|h]; [congruence|]. exact (HA _ _ Hp h).
Qed.
Lemma agr_call V H H' s s' p p' q q' : agr V H H' -> s = s' -> B p p' -> B q q' -> In p V ->
  agr (q :: V) (fst (callF userF H s p q)) (fst (callF userF H' s' p' q')) /\ snd (callF userF H s p q) = snd (callF userF H' s' p' q').
Proof.
  intros HA -> HP HQ Hin. unfold callF. destruct (rdF s' (H p) (H' p') (HA _ _ HP Hin)) as [E1 E2].
  destruct (userF s' (H p)) as [u v]. destruct (userF s' (H' p')) as [u' v']. cbn in *. split; [apply agr_set; assumption|assumption].
Qed.
Let heq (V : list Z) (x x' : heap * Sg) : Prop := agr V (fst x) (fst x') /\ snd x = snd x'.
Lemma t_apply_both V mr h d H H' s g1 g1' g0 g0' v v' : agr V H H' -> B g1 g1' -> B g0 g0' -> B v v' -> In g1 V -> In g0 V ->
  both (heq (g0 :: v :: V)) (t_apply userF RECF mr h d H s g1 g0 v) (t_apply userF RECF mr h d H' s g1' g0' v').
Proof.
  intros HA B1 B0 Bv I1 I0. unfold t_apply. apply both_same; intros c1. apply both_same; intros c2.
  destruct (agr_call V H H' s s g1 g1' v v' HA eq_refl B1 Bv I1) as [A E].
  destruct (callF userF H s g1 v) as [h1 u]. destruct (callF userF H' s g1' v') as [h1' u']. cbn in A, E |- *. subst u'. split; [cbn|reflexivity].
  apply agr_set; [exact A|exact B0|]. intros i Hi. unfold v_lc3.
  rewrite (A _ _ Bv (or_introl eq_refl) i Hi), (A _ _ B1 (or_intror I1) i Hi), (A _ _ B0 (or_intror I0) i Hi). reflexivity.
Qed.
Lemma t_apply2_both V mr h H H' s g2 g2' g1 g1' g0 g0' : agr V H H' -> B g2 g2' -> B g1 g1' -> B g0 g0' -> In g1 V -> In g0 V ->
  both (heq (g2 :: g2 :: V)) (t_apply2 userF RECF mr h H s g2 g1 g0) (t_apply2 userF RECF mr h H' s g2' g1' g0').
Proof.
  intros HA B2 B1 B0 I1 I0. unfold t_apply2. apply both_same; intros c1. apply both_same; intros c2.
  destruct (agr_call V H H' s s g1 g1' g2 g2' HA eq_refl B1 B2 I1) as [A E].
  destruct (callF userF H s g1 g2) as [h1 u]. destruct (callF userF H' s g1' g2') as [h1' u']. cbn in A, E |- *. subst u'. split; [cbn|reflexivity].
  apply agr_set; [exact A|exact B2|]. intros i Hi. unfold v_lc3.
  rewrite (A _ _ B2 (or_introl eq_refl) i Hi), (A _ _ B1 (or_intror I1) i Hi), (A _ _ B0 (or_intror I0) i Hi). reflexivity.
Qed.
(* the arrays y and fn, and the pairing, at the end of the recurrence *)
Definition loop_rel (y fn : Z) (g0ok : bool) (x x' : heap (K := K) * Sg * Z * Z) : Prop :=
  let '(H, s, g1, g0) := x in let '(H', s', g1', g0') := x' in
  s = s' /\ B g1 g1' /\ B g0 g0' /\ exists V, agr V H H' /\ In y V /\ In fn V /\ In g1 V /\ (g0ok = true -> In g0 V).
Lemma k_loop_both mr d h k1 k1' y y' fn H H' s g1 g1' g0 g0' V : 2 <= d -> agr V H H' -> B k1 k1' -> B y y' -> B g1 g1' -> B g0 g0' -> In y V -> In fn V -> In g1 V ->
  both (loop_rel y fn true) (k_loop userF RECF mr d h k1 y (H, s, g1, g0)) (k_loop userF RECF mr d h k1' y' (H', s, g1', g0')).
Proof.
  intros Hd HA Bk By B1 B0 Iy If I1. unfold k_loop.
  eapply both_mono; [apply (both_forM (fun i => loop_rel y fn (2 <? i)))|]; [lia| | |].
  - cbn. do 3 (split; [auto|]). exists V. do 4 (split; [assumption|]). discriminate.
  - intros i [[[h1 s1] g] g'] [[[h1' s1'] gg] gg'] Hi (E & Bg & Bg' & V' & A & Iy' & If' & Ig & Ig'). subst s1'.
    assert (HB : forall V2, (forall p, In p V' -> In p V2) -> In g' V2 -> forall x x', both (heq V2) x x' ->
      both (loop_rel y fn (2 <? i + 1)) (bind x (fun p => let '(H, f) := p in Ok (H, f, g', g))) (bind x' (fun p => let '(H, f) := p in Ok (H, f, gg', gg)))).
    { intros V2 sub in2 x x' Hb. eapply both_bind; [exact Hb|]. intros [a b] [a' b'] [Ha Hb']. cbn in *. subst b'.
      split; [reflexivity|]. split; [exact Bg'|]. split; [exact Bg|]. exists V2. split; [exact Ha|].
      split; [apply sub, Iy'|]. split; [apply sub, If'|]. split; [exact in2|]. intros _. apply sub, Ig. }
    destruct (Z.eqb_spec i 2) as [->|ne].
    + eapply HB; [| |apply t_apply2_both; eassumption]; cbn; auto.
    + assert (In g' V') by (apply Ig'; apply Z.ltb_lt; lia). eapply HB; [| |apply t_apply_both; eassumption]; cbn; auto.
  - intros x x' Hx. replace (2 <? d + 1) with true in Hx by (symmetry; apply Z.ltb_lt; lia). exact Hx.
Qed.
Lemma rpp2_same y y' a1 x1 x1' a2 x2 x2' a3 x3 x3' a4 x4 x4' a5 x5 x5' : ag y y' -> ag x1 x1' -> ag x2 x2' -> ag x3 x3' -> ag x4 x4' -> ag x5 x5' ->
  rpp2 size y a1 x1 a2 x2 a3 x3 a4 x4 a5 x5 atol rtol = rpp2 size y' a1 x1' a2 x2' a3 x3' a4 x4' a5 x5' atol rtol.
Proof.
  intros h0 h1 h2 h3 h4 h5. unfold rpp2. apply for_same. intros j t Hj. assert (0 <= j < size) by lia. unfold v_lc5.
  rewrite (h0 j), (h1 j), (h2 j), (h3 j), (h4 j), (h5 j) by assumption. reflexivity.
Qed.

(* the two objects: matched arrays, the same state of the user's object, the same number of
   evaluations, the same contents of the arrays of V *)
Definition est_rel (V : est Sg -> list Z) (e e' : est (K := K) Sg) : Prop :=
  B (e_fn e) (e_fn e') /\ B (e_k1 e) (e_k1 e') /\ B (e_k2 e) (e_k2 e') /\ B (e_k3 e) (e_k3 e') /\ B (e_k4 e) (e_k4 e') /\
  B (e_temp e) (e_temp e') /\ B (e_g0 e) (e_g0 e') /\ B (e_y e) (e_y e') /\ e_f e = e_f e' /\ e_funccal e = e_funccal e' /\ agr (V e) (e_H e) (e_H e').
Definition run_rel := est_rel (fun e => [e_y e; e_fn e]).
Definition att_rel := est_rel (fun e => [e_y e; e_fn e; e_temp e; e_g0 e]).
Lemma att_run e e' : att_rel e e' -> run_rel e e'.
Proof.
  unfold att_rel, run_rel, est_rel. intros H. do 10 (split; [tauto|]). destruct H as (_ & _ & _ & _ & _ & _ & _ & _ & _ & _ & H).
  intros p p' Hp Hin. apply H; [exact Hp|]. cbn in *. tauto.
Qed.
Lemma accept_rel e e' : att_rel e e' -> run_rel (k_accept e) (k_accept e').
Proof.
  unfold att_rel, run_rel, est_rel, k_accept. cbn. intros H. do 10 (split; [tauto|]). destruct H as (_ & _ & _ & _ & _ & _ & _ & _ & _ & _ & H).
  intros p p' Hp Hin. apply H; [exact Hp|]. cbn in *. tauto.
Qed.
Ltac inV := cbn [In]; tauto.
Lemma both_val {A A' C D} (R : A -> A' -> Prop) (Q : C -> D -> Prop) a a' f g : R a a' -> (forall x x', R x x' -> both Q (f x) (g x')) -> both Q (bind (Ok a) f) (bind (Ok a') g).
Proof. intros H1 H2. apply H2, H1. Qed.
Ltac same_i := let j := fresh "j" in let Hj := fresh "Hj" in intros j Hj; unfold v_x_lc1, v_x_lc2, v_x_lc3, v_x_lc4;
  repeat match goal with A : agr ?V ?H ?H', Bq : B ?q ?q' |- context [?H ?q j] => rewrite (A q q' Bq ltac:(inV) j Hj) end; reflexivity.
Ltac hstep V := eapply (both_val (agr V)); [apply agr_set; [eassumption|eassumption|same_i]|];
  let H := fresh "H" in let H' := fresh "H'" in let A := fresh "A" in intros H H' A;
  repeat match goal with X : agr _ ?a _ |- _ => lazymatch a with H => fail | _ => clear X end end.
Ltac cstep V := eapply (both_val (heq V)); [apply agr_call; [eassumption|reflexivity|eassumption|eassumption|inV]|];
  let H := fresh "H" in let H' := fresh "H'" in let A := fresh "A" in let s := fresh "s" in intros [H s] [H' ?] [A ?]; cbn [fst snd] in A |- *; cbn [snd] in *; subst;
  repeat match goal with X : agr _ ?a _ |- _ => lazymatch a with H => fail | _ => clear X end end.
Lemma kernel_both d i r e e' h : run_rel e e' ->
  both (fun x x' => att_rel (fst x) (fst x') /\ snd x = snd x') (kernel userF RECF FPA FPB FPBE size atol rtol d i r e h) (kernel userF RECF FPA FPB FPBE size atol rtol d i r e' h).
Proof.
  destruct e as [H s fn k1 k2 k3 k4 tp g00 py fc], e' as [H' s' fn' k1' k2' k3' k4' tp' g00' py' fc'].
  intros (Bf & Bk1 & Bk2 & Bk3 & Bk4 & Bt & Bg & By & Ef & Ec & HA).
  unfold kernel. cbn [e_y e_fn e_k1 e_k2 e_k3 e_k4 e_temp e_g0 e_H e_f e_funccal] in *. subst s' fc'. cbv zeta.
  apply both_same; intros c.
  hstep [tp; py; fn].
  eapply (both_val (fun x x' => x = (if d <? 2 then (g00, tp) else (tp, g00)) /\ x' = (if d <? 2 then (g00', tp') else (tp', g00')))); [split; reflexivity|].
  intros [g1 g0] [g1' g0'] [Eg Eg'].
  eapply (both_bind (fun x x' => let '(a, u, p, q) := x in let '(a', u', p', q') := x' in
     u = u' /\ B p p' /\ B q q' /\ agr [if 2 <=? d then p else q; py; fn] a a')).
  { destruct (Z.ltb_spec d 2) as [l|l]; injection Eg as -> ->; injection Eg' as -> ->.
    - unfold k_loop. rewrite !forM_empty by lia. replace (2 <=? d) with false by (symmetry; apply Z.leb_gt; lia). cbn [both]. repeat split; assumption.
    - replace (2 <=? d) with true by (symmetry; apply Z.leb_le; lia).
      eapply both_mono; [apply (k_loop_both r d h k1 k1' py py' fn) with (V := [tp; py; fn]); try assumption; inV|].
      intros [[[a u] p] q] [[[a' u'] p'] q'] (E1 & E2 & E3 & V & Av & I1 & I2 & I3 & I4). do 3 (split; [assumption|]).
      intros w w' Hw Hin. apply (Av w w' Hw). cbn in Hin. destruct Hin as [ <- | [ <- | [ <- | [] ] ] ]; assumption. }
  clear Eg Eg' A g1 g0 g1' g0' H0 H'0. intros [[[Hx sx] g1] g0] [[[Hx' sx'] g1'] g0'] (E & B1 & B0 & A). subst sx'.
  eapply (both_val (fun x x' => B (fst x) (fst x') /\ B (snd x) (snd x') /\ agr [snd x; py; fn] Hx Hx')).
  { destruct (2 <=? d); cbn [fst snd]; auto. }
  intros [t g] [t' g'] (Btt & Bgg & A2). cbn [fst snd] in Btt, Bgg, A2. clear A g1 g0 g1' g0' B1 B0.
  cstep [k1; g; py; fn]. apply both_same; intros a1. hstep [t; k1; g; py; fn].
  cstep [k2; t; k1; g; py; fn]. do 2 (apply both_same; intro). hstep [t; k2; t; k1; g; py; fn].
  cstep [k3; t; k2; t; k1; g; py; fn]. do 3 (apply both_same; intro). hstep [t; k3; t; k2; t; k1; g; py; fn].
  cstep [k4; t; k3; t; k2; t; k1; g; py; fn]. do 4 (apply both_same; intro). hstep [t; k4; t; k3; t; k2; t; k1; g; py; fn].
  do 5 (apply both_same; intro). cstep [g; t; k4; t; k3; t; k2; t; k1; g; py; fn].
  eapply (both_val eq).
  { f_equal. f_equal. apply rpp2_same; same_i. }
  intros err ? <-. cbn [both fst snd]. split; [|reflexivity]. unfold att_rel, est_rel.
  cbn [e_y e_fn e_k1 e_k2 e_k3 e_k4 e_temp e_g0 e_H e_f e_funccal].
  do 8 (split; [assumption|]). do 2 (split; [reflexivity|]).
  match goal with A : agr _ ?a ?b |- agr _ ?a ?b => intros w w' Hw Hin; apply (A w w' Hw); revert Hin; inV end.
Qed.

(* the first evaluation of a call sets fn and the counter *)
Lemma init_rel e e' : B (e_fn e) (e_fn e') -> B (e_k1 e) (e_k1 e') -> B (e_k2 e) (e_k2 e') -> B (e_k3 e) (e_k3 e') -> B (e_k4 e) (e_k4 e') ->
  B (e_temp e) (e_temp e') -> B (e_g0 e) (e_g0 e') -> B (e_y e) (e_y e') -> e_f e = e_f e' -> ag (e_H e (e_y e)) (e_H e' (e_y e')) ->
  run_rel (k_init userF e) (k_init userF e').
Proof.
  intros Bf Bk1 Bk2 Bk3 Bk4 Bt Bg By Ef Ay. unfold k_init.
  assert (A0 : agr [e_y e] (e_H e) (e_H e')).
  { intros p p' Hp [ <- |[]]. assert (p' = e_y e') by (apply (Bi _ _ _ _ Hp By); reflexivity). subst p'. exact Ay. }
  destruct (agr_call [e_y e] (e_H e) (e_H e') (e_f e) (e_f e') (e_y e) (e_y e') (e_fn e) (e_fn e') A0 Ef By Bf ltac:(inV)) as [A E].
  destruct (callF userF (e_H e) (e_f e) (e_y e) (e_fn e)) as [h u]. destruct (callF userF (e_H e') (e_f e') (e_y e') (e_fn e')) as [h' u'].
  cbn [fst snd] in A, E. subst u'. unfold run_rel, est_rel. cbn [e_y e_fn e_k1 e_k2 e_k3 e_k4 e_temp e_g0 e_H e_f e_funccal].
  do 8 (split; [assumption|]). do 2 (split; [reflexivity|]). intros w w' Hw Hin. apply (A w w' Hw). revert Hin. inV.
Qed.
Variable userrho : Sg -> Sg * K.
Lemma rho_rel e e' : run_rel e e' -> run_rel (fst (r4_rho userrho e)) (fst (r4_rho userrho e')) /\ snd (r4_rho userrho e) = snd (r4_rho userrho e').
Proof.
  intros H. unfold r4_rho. pose proof H as (_ & _ & _ & _ & _ & _ & _ & _ & Ef & _). rewrite Ef.
  destruct (userrho (e_f e')) as [u v]. cbn [fst snd]. split; [|reflexivity].
  unfold run_rel, est_rel in *. cbn [e_y e_fn e_k1 e_k2 e_k3 e_k4 e_temp e_g0 e_H e_f e_funccal]. tauto.
Qed.

Variable toint : K -> out Z.
Variable tend : K.
Let kern := kernel userF RECF FPA FPB FPBE size atol rtol.
Definition d_rel (st st' : dst (K := K) (est (K := K) Sg)) : Prop :=
  u_t st = u_t st' /\ u_h st = u_h st' /\ u_hp st = u_hp st' /\ u_errp st = u_errp st' /\ u_facmax st = u_facmax st' /\ u_eig st = u_eig st' /\ u_told st = u_told st' /\
  (u_nacc st <> 0 -> u_hlast st = u_hlast st') /\ u_reject st = u_reject st' /\ u_nrho st = u_nrho st' /\ u_nrejloc st = u_nrejloc st' /\ u_mdego st = u_mdego st' /\
  (u_mdego st = 0 \/ u_mp1 st = u_mp1 st' /\ u_mp2 st = u_mp2 st') /\ u_nsteps st = u_nsteps st' /\ u_nacc st = u_nacc st' /\ u_nrej st = u_nrej st' /\
  u_stages st = u_stages st' /\ u_hist st = u_hist st' /\ run_rel (u_w st) (u_w st').
Lemma mdegre_same m a b : 1 <= m <= 148 -> mdegre m a = mdegre m b.
Proof.
  intros Hm. pose proof (selection m 0 Hm) as H. destruct (mdegre m 0) as [[[d i] r]| | |] eqn:E; cbn [wp] in H; try contradiction.
  destruct H as [_ Hr]. apply right_block_bounds in Hr. unfold mdegre in *.
  rewrite (mdegre_loop_same _ _ _ _ a _ _ _ _ E), (mdegre_loop_same _ _ _ _ b _ _ _ _ E) by lia. reflexivity.
Qed.
Lemma d_body_both st st' : d_rel st st' -> both d_rel (d_body toint kern k_accept (r4_rho userrho) tend st) (d_body toint kern k_accept (r4_rho userrho) tend st').
Proof.
  destruct st as [t h hp errp fm eig told hl rj nrho nl mo m1 m2 ns na nr sg w hi], st' as [t' h' hp' errp' fm' eig' told' hl' rj' nrho' nl' mo' m1' m2' ns' na' nr' sg' w' hi'].
  unfold d_rel at 1. cbn [u_t u_h u_hp u_errp u_facmax u_eig u_told u_hlast u_reject u_nrho u_nrejloc u_mdego u_mp1 u_mp2 u_nsteps u_nacc u_nrej u_stages u_w u_hist].
  intros (<- & <- & <- & <- & <- & <- & <- & Hhl & <- & <- & <- & <- & Hmp & <- & <- & <- & <- & <- & Hw).
  unfold d_body. cbn [u_t u_h u_hp u_errp u_facmax u_eig u_told u_hlast u_reject u_nrho u_nrejloc u_mdego u_mp1 u_mp2 u_nsteps u_nacc u_nrej u_stages u_w u_hist].
  cbv zeta. set (h1 := if (mABS_diff tend t <=? _)%num then _ else _). clearbody h1.
  destruct (h1 <? nlit 10 0 * r4_uround)%num; [cbn; reflexivity|].
  assert (Hr : run_rel (fst (if nrho =? 0 then r4_rho userrho w else (w, eig))) (fst (if nrho =? 0 then r4_rho userrho w' else (w', eig))) /\
     snd (if nrho =? 0 then r4_rho userrho w else (w, eig)) = snd (if nrho =? 0 then r4_rho userrho w' else (w', eig))).
  { destruct (nrho =? 0); [apply rho_rel, Hw|split; [exact Hw|reflexivity]]. }
  destruct (if nrho =? 0 then r4_rho userrho w else (w, eig)) as [w1 eig1]. destruct (if nrho =? 0 then r4_rho userrho w' else (w', eig)) as [w1' eig1'].
  cbn [fst snd] in Hr. destruct Hr as [Hw1 <-]. clear Hw w w'.
  apply both_same. intros md.
  set (pr := if 152 <? md then _ else _). assert (Hpr : snd pr <= 152) by (subst pr; destruct (Z.ltb_spec 152 md); cbn [snd]; lia).
  destruct pr as [h2 md2]. cbn [snd] in Hpr. set (rq := Z.max md2 5 - 4). assert (Hrq : 1 <= rq <= 148) by (unfold rq; lia). clearbody rq.
  eapply (both_bind (fun x x' => x = x' /\ (snd (fst (fst x)) = snd (fst (fst x'))))).
  { destruct (Z.eqb_spec rq mo) as [e|ne].
    - destruct Hmp as [z|[-> ->]]; [exfalso; lia|]. cbn; auto.
    - rewrite (mdegre_same rq m1 m1' Hrq). destruct (mdegre rq m1') as [[[x y] z]| | |]; cbn; auto. }
  intros [[[md3 a1] a2] sg1] x' [ <- _ ]. clear Hmp m1 m2 m1' m2'.
  eapply both_bind; [apply (kernel_both md3 a1 a2 w1 w1' h2 Hw1)|]. intros [w2 err] [w2' err'] [Hw2 Ee]. cbn [fst snd] in Hw2, Ee. subst err'.
  destruct (err <? nlit 1 0)%num; cbn [both]; unfold d_rel;
  cbn [u_t u_h u_hp u_errp u_facmax u_eig u_told u_hlast u_reject u_nrho u_nrejloc u_mdego u_mp1 u_mp2 u_nsteps u_nacc u_nrej u_stages u_w u_hist];
  do 7 (split; [reflexivity|]); (split; [assumption || (intros _; reflexivity)|]); do 4 (split; [reflexivity|]); (split; [right; split; reflexivity|]); do 5 (split; [reflexivity|]).
  - apply accept_rel, Hw2.
  - apply att_run, Hw2.
Qed.
Lemma d_loop_both fuel : forall st st', d_rel st st' ->
  both d_rel (d_loop toint kern k_accept (r4_rho userrho) tend fuel st) (d_loop toint kern k_accept (r4_rho userrho) tend fuel st').
Proof.
  induction fuel as [|f IH]; intros st st' H; cbn [d_loop]; pose proof H as (Et & _); rewrite <- Et; destruct (u_t st <? tend)%num; try (cbn; exact H); [exact Logic.I|].
  eapply both_bind; [apply d_body_both, H|]. exact IH.
Qed.
End Rock.

Lemma combine_inj (l : list Z) : forall l' : list Z, NoDup l -> NoDup l' -> forall p q p' q', In (p, p') (combine l l') -> In (q, q') (combine l l') -> (p = q <-> p' = q').
Proof.
  induction l as [|a l IH]; intros [|b l'] N N' p q p' q' H1 H2; cbn [combine In] in *; try contradiction.
  apply NoDup_cons_iff in N. apply NoDup_cons_iff in N'. destruct N as [N1 N2], N' as [M1 M2].
  destruct H1 as [h1|h1], H2 as [h2|h2].
  - injection h1 as <- <-. injection h2 as <- <-. tauto.
  - injection h1 as <- <-. pose proof (in_combine_l _ _ _ _ h2). pose proof (in_combine_r _ _ _ _ h2). split; intros <-; contradiction.
  - injection h2 as <- <-. pose proof (in_combine_l _ _ _ _ h1). pose proof (in_combine_r _ _ _ _ h1). split; intros ->; contradiction.
  - exact (IH l' N2 M2 p q p' q' h1 h2).
Qed.
Lemma rock4_both (K : num) Sg (userF : Sg -> (Z -> K) -> Sg * (Z -> K)) (userrho : Sg -> Sg * K) toint RECF FPA FPB FPBE size (atol rtol tend : K) fuel (e e' : est (K := K) Sg) t0 h0 hl hl' m1 m1' m2 m2' :
  (forall s v v', (forall i, 0 <= i < size -> v i = v' i) -> fst (userF s v) = fst (userF s v') /\ forall i, 0 <= i < size -> snd (userF s v) i = snd (userF s v') i) ->
  NoDup (ptrs Sg e) -> NoDup (ptrs Sg e') -> e_f e = e_f e' -> (forall i, 0 <= i < size -> e_H e (e_y e) i = e_H e' (e_y e') i) ->
  let call := rock4 toint (kernel userF RECF FPA FPB FPBE size atol rtol) (k_init userF) k_accept (r4_rho userrho) tend fuel in
  both (fun st st' => u_t st = u_t st' /\ (forall i, 0 <= i < size -> sol Sg st i = sol Sg st' i) /\ e_f (u_w st) = e_f (u_w st') /\
      u_h st = u_h st' /\ u_nsteps st = u_nsteps st' /\ u_nacc st = u_nacc st' /\ u_nrej st = u_nrej st' /\ u_stages st = u_stages st' /\ e_funccal (u_w st) = e_funccal (u_w st') /\
      u_hist st = u_hist st' /\ (u_nacc st <> 0 -> u_hlast st = u_hlast st'))
    (call e t0 h0 hl m1 m2) (call e' t0 h0 hl' m1' m2').
Proof.
  intros rdF N N' Ef Ay call. subst call. unfold rock4.
  set (B := fun p p' => In (p, p') (combine (ptrs Sg e) (ptrs Sg e'))).
  assert (Bi : forall p q p' q', B p p' -> B q q' -> (p = q <-> p' = q')) by (intros p q p' q'; apply combine_inj; assumption).
  eapply both_mono; [apply (d_loop_both Sg userF RECF FPA FPB FPBE size atol rtol rdF B Bi userrho toint tend fuel)|].
  - unfold d_rel, r4_start. cbn [u_t u_h u_hp u_errp u_facmax u_eig u_told u_hlast u_reject u_nrho u_nrejloc u_mdego u_mp1 u_mp2 u_nsteps u_nacc u_nrej u_stages u_w u_hist].
    do 7 (split; [reflexivity|]). split; [intros H; exfalso; apply H; reflexivity|]. do 4 (split; [reflexivity|]). split; [left; reflexivity|]. do 5 (split; [reflexivity|]).
    apply init_rel; try assumption; unfold B, ptrs; cbn [combine In]; tauto.
  - intros st st' (E1 & E2 & E3 & E4 & E5 & E6 & E7 & E8 & E9 & E10 & E11 & E12 & E13 & E14 & E15 & E16 & E17 & E18 & Hw).
    destruct Hw as (_ & _ & _ & _ & _ & _ & _ & By & Ew & Ec & HA). unfold sol.
    split; [exact E1|]. split; [exact (HA _ _ By (or_introl eq_refl))|]. do 8 (split; [assumption|]). exact E8.
Qed.
