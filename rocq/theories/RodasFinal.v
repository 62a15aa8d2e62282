(* The Rodas theorems in the form in which Props_Rodas.v states them. *)
From Coq Require Import Reals Lra Psatz.
From Verif Require Import Base HessModel CMacros VecFun JacModel JacProofs RodasModel RodasProofs RodasReal RodasTop RodasTerm.
Open Scope R_scope.

Lemma good_lower s x0 h0 xend hm l : good_history s x0 h0 xend hm l ->
  Forall (fun a : att Rnum => s * x0 <= s * a_x a /\ 0 < s * a_h a /\ s * (a_x a + a_h a) <= s * xend) l.
Proof.
  induction l as [|b l IH]; [constructor|]. intros (Hg & Hb & _ & H). specialize (IH Hg).
  constructor; [|exact IH]. replace (s * (a_x b + a_h b)) with (s * a_x b + s * a_h b) by (cbn; ring).
  replace (s * (xend - a_x b)) with (s * xend - s * a_x b) in Hb by (cbn; ring).
  split; [|lra]. destruct l as [|a l]; [destruct H as [-> _]; lra|].
  inversion IH as [|? ? [I1 [I2 I3]] _]; subst. destruct (a_acc a); destruct H as [-> _]; [|lra].
  replace (s * (a_x a + a_h a)) with (s * a_x a + s * a_h a) by (cbn; ring). lra.
Qed.
(* consecutive attempts of a history, the newer one first *)
Definition follows (l : list (att Rnum)) (b a : att Rnum) (older : list (att Rnum)) : Prop :=
  exists newer, l = (newer ++ b :: a :: older)%list.

Lemma forward_lemma : forall (Sg La : Type)
    (userF : Sg -> R -> (Z -> R) -> Sg * (Z -> R))
    (userJ : Sg -> R -> (Z -> R) -> (Z -> R) -> (Z -> R) -> Sg * (Z -> R))
    (userDt : Sg -> R -> (Z -> R) -> Sg * (Z -> R))
    (decomr : La -> R -> (Z -> R) -> out (La * (Z -> R)))
    (solvereal : La -> (Z -> R) -> (Z -> R) -> out (Z -> R))
    (set_calhes : La -> La) n sh numjac autonms use_DF_t meth (C : rcoef Rnum) (atol rtol junk : Z -> R)
    (o : ropts Rnum) x0 xend h0 fuel ifuel s0 la0 jac0 y a b c,
  @rocoe Rnum meth = Ok C -> 0 < (o_safe o : R) <= 1 -> x0 < xend ->
  pc (rodas (@r_prep Rnum Sg La userF userJ userDt set_calhes n sh numjac autonms use_DF_t r_uround junk)
            (@r_attempt Rnum Sg La userF decomr solvereal n autonms C atol rtol)
            o fuel ifuel (mkW (s0, nil) la0 jac0) h0 x0 xend y a b c)
    (fun r => let st := fst r in
      (o_onestep o = false -> s_x st = xend) /\ x0 <= s_x st <= xend /\
      s_x st = match s_hist st with nil => x0 | a :: _ => if a_acc a then a_x a + a_h a else a_x a end /\
      (forall a, In a (s_hist st) -> x0 <= a_x a < a_x a + a_h a /\ a_x a + a_h a <= xend) /\
      (forall b a older, follows (s_hist st) b a older -> a_x b = if a_acc a then a_x a + a_h a else a_x a) /\
      (forall t, In t (snd (w_f (s_w st))) -> x0 <= t <= xend \/
         (autonms = false /\ use_DF_t = false /\ exists x, x0 <= x <= xend /\
          t = x + sqrt (1 / 10 ^ 16 * Rmax (1 / 10 ^ 5) (Rabs x))))).
Proof.
  intros Sg La userF userJ userDt decomr solvereal set_calhes n sh numjac autonms use_DF_t meth C atol rtol junk o x0 xend h0 fuel ifuel s0 la0 jac0 y a b c HC Hsafe Hx.
  assert (Hu : usable x0 xend 1) by (left; split; [reflexivity|exact Hx]).
  assert (Hs : 1 = 1 \/ 1 = -1) by (left; reflexivity).
  destruct (setup x0 xend 1 Hu) as (_ & _ & _ & Hl & _).
  pose proof (rodas_real (@world Rnum Sg La) ((Z -> R) * (Z -> R))
    (@r_prep Rnum Sg La userF userJ userDt set_calhes n sh numjac autonms use_DF_t r_uround junk)
    (@r_attempt Rnum Sg La userF decomr solvereal n autonms C atol rtol) o
    (ok_trace Sg La autonms use_DF_t 1 x0 xend) Hsafe x0 h0 xend 1 Hu fuel ifuel (mkW (s0, nil) la0 jac0) y a b c) as H.
  eapply pc_mono; [apply H|].
  - intros w x Y. apply prep_trace.
  - intros w aux x h Y. apply attempt_trace. apply (rocoe_nodes meth). exact HC.
  - constructor.
  - intros r. cbv zeta. intros (H1 & H2 & H3 & H4 & H5).
    unfold between in H2. split; [exact H5|]. split; [lra|]. split; [exact H3|]. split; [|split].
    + intros e He. pose proof (good_lower _ _ _ _ _ _ H4) as G. rewrite Forall_forall in G. specialize (G e He). lra.
    + intros e d older [newer E]. rewrite E in H4.
      assert (G : good_history 1 x0 h0 xend (limit x0 xend) (e :: d :: older)).
      { eapply good_sub; [|exact H4]. exists newer. reflexivity. }
      apply (good_factors 1 x0 h0 xend (limit x0 xend) Hs (proj1 Hl) e d older G).
    + intros t Ht. unfold ok_trace in H1. rewrite Forall_forall in H1.
      destruct (H1 t Ht) as [Hb|(E1 & E2 & x & Hb & E)]; [left; unfold between in Hb; lra|right].
      split; [exact E1|]. split; [exact E2|]. exists x. split; [unfold between in Hb; lra|exact E].
Qed.

Section Any.
Variables W Ax : Type.
Variable prep : W -> R -> (Z -> R) -> out (W * Ax).
Variable attempt : W -> Ax -> R -> R -> (Z -> R) -> out (W * (Z -> R) * R).
Variable o : ropts Rnum.
Variables x0 h0 xend s : R.
Lemma any_world : 0 < (o_safe o : R) <= 1 -> usable x0 xend s -> forall fuel ifuel w y a b c,
  pc (rodas prep attempt o fuel ifuel w h0 x0 xend y a b c) (fun r => let st := fst r in
    between s x0 xend (s_x st) /\ good_history s x0 h0 xend (limit x0 xend) (s_hist st) /\ (o_onestep o = false -> s_x st = xend)).
Proof.
  intros Hsafe Hu fuel ifuel w y a b c.
  pose proof (rodas_real W Ax prep attempt o (fun _ => True) Hsafe x0 h0 xend s Hu fuel ifuel w y a b c) as H.
  eapply pc_mono; [apply H; auto|].
  - intros. destruct (prep _ _ _) as [[? ?]| | |]; cbn; auto.
  - intros. destruct (attempt _ _ _ _ _) as [[[? ?] ?]| | |]; cbn; auto.
  - intros r. cbv zeta. intros (_ & H2 & _ & H4 & H5). auto.
Qed.
Lemma factors_lemma : 0 < (o_safe o : R) <= 1 -> usable x0 xend s -> forall fuel ifuel w y a b c,
  pc (rodas prep attempt o fuel ifuel w h0 x0 xend y a b c) (fun r => forall b a older,
    follows (s_hist (fst r)) b a older ->
    (0 < s * a_h b <= s * (xend - x0) /\
    (s * a_h b <= 60006 / 10000 * (s * a_h a) \/ s * a_h a < 5 / 10 ^ 15) /\
    (s * a_h a / 5 <= s * a_h b \/ a_h b = xend - a_x b) /\
    (a_acc a = false -> s * a_h b < s * a_h a) /\
    (a_acc a = true -> after_rejection older = true ->
       s * a_h b <= 10001 / 10000 * (s * a_h a) \/ s * a_h a < 5 / 10 ^ 15))).
Proof.
  intros Hsafe Hu fuel ifuel w y a b c. destruct (setup x0 xend s Hu) as (Hs & _ & _ & Hl & _).
  eapply pc_mono; [apply any_world; assumption|]. cbv zeta. intros r (_ & H4 & _) e d older [newer E]. rewrite E in H4.
  assert (G : good_history s x0 h0 xend (limit x0 xend) (e :: d :: older)).
  { eapply good_sub; [|exact H4]. exists newer. reflexivity. }
  destruct (good_factors s x0 h0 xend (limit x0 xend) Hs (proj1 Hl) e d older G) as (F1 & F2 & F3 & F4 & F5 & F6).
  split; [|auto]. split; [apply F2|]. apply G.
Qed.
End Any.
Lemma reject_keeps : forall (K : num) W Ax attempt (o : ropts K) posneg hmaxn (aux : Ax) (st : @rst K W),
  pc (r_body attempt o posneg hmaxn aux st) (fun st' => s_reject st' = true ->
    s_Y st' = s_Y st /\ s_x st' = s_x st).
Proof.
  intros K W Ax attempt o posneg hmaxn aux st. unfold r_body.
  destruct (attempt _ _ _ _ _) as [[[w Y] err]| | |]; cbn [bind pc]; try exact I.
  unfold r_control. destruct (err <=? nlit 1 0)%num; cbn; [discriminate|auto].
Qed.
Lemma backward_ok : forall W Ax (prep : W -> R -> (Z -> R) -> out (W * Ax)) attempt (o : ropts Rnum) x0 h0 xend fuel ifuel w y a b c,
  0 < (o_safe o : R) <= 1 -> xend < x0 -> x0 + xend < 0 ->
  pc (rodas prep attempt o fuel ifuel w h0 x0 xend y a b c) (fun r => let st := fst r in
    (o_onestep o = false -> s_x st = xend) /\ xend <= s_x st <= x0 /\
    (forall a, In a (s_hist st) -> a_h a < 0)).
Proof.
  intros W Ax prep attempt o x0 h0 xend fuel ifuel w y a b c Hsafe H1 H2.
  eapply pc_mono; [apply (any_world W Ax prep attempt o x0 h0 xend (-1) Hsafe); right; auto|].
  cbv zeta. intros r (A1 & A2 & A3). split; [exact A3|]. unfold between in A1. split; [lra|].
  intros e He. pose proof (good_lower _ _ _ _ _ _ A2) as G. rewrite Forall_forall in G. specialize (G e He). lra.
Qed.
Lemma statistics_lemma : forall (K : num) W Ax (prep : W -> K -> (Z -> K) -> out (W * Ax)) attempt (o : ropts K) fuel ifuel w h x xend y a b c,
  pc (rodas prep attempt o fuel ifuel w h x xend y a b c) (fun r => let st := fst r in
    let attempted := Z.of_nat (List.length (s_hist st)) in
    let accepted := Z.of_nat (List.length (filter (@a_acc K) (s_hist st))) in
    (s_nstep st = attempted /\ s_ndec st = attempted /\ s_nsol st = 6 * attempted /\
    s_naccpt st = accepted /\ s_njac st = accepted /\ s_naccpt st + s_nrejct st <= attempted /\
    s_nrejct st = late_rej (s_hist st))%Z).
Proof.
  intros. unfold rodas. apply pc_bind. eapply pc_mono; [apply counters_lemma|]. cbn [pc fst]. cbv zeta.
  intros st ((H1 & H2 & H3 & H4 & H5 & H6) & H7 & H8). unfold n_all, n_acc in *. rewrite H5. auto 8.
Qed.
