(* The driver of Rock4 in exact arithmetic (reals, infinities and NaN): time, step sizes,
   stability, termination.  The step itself ([kern]) is arbitrary: its error estimate may be any
   value, finite or not. *)
From Coq Require Import Reals Lra.
From Verif Require Import Base CMacros ExtReal Rock4Model Rock4Spec Rock4Proofs Rock4Drive.
Open Scope R_scope.

Ltac elit := cbn [nlit nadd nsub nmul ndiv nopp nltb nleb neqb nsqrt ExtR car] in *; unfold n0, n1, r4_uround in *;
  cbn [nlit ExtR] in *; rewrite ?Rlit_0, ?Rlit_neg in *;
  repeat match goal with
  | |- context [IZR (10 ^ Zpos ?p)%Z] => let v := eval vm_compute in (10 ^ Zpos p)%Z in change (10 ^ Zpos p)%Z with v
  | H : context [IZR (10 ^ Zpos ?p)%Z] |- _ => let v := eval vm_compute in (10 ^ Zpos p)%Z in change (10 ^ Zpos p)%Z with v in H
  end.

Lemma fac_bounds fm (x : ext) : 1 / 10 <= fm -> exists q, smin (K := ExtR) (Fin fm) (smax (Fin (1 / 10)) x) = Fin q /\ 1 / 10 <= q <= fm.
Proof.
  intros Hf. unfold smin, smax. cbn [nltb ExtR]. destruct x as [r| | |]; cbn [eltb].
  - destruct (Rltb_spec (1 / 10) r); cbn [eltb].
    + destruct (Rltb_spec r fm); eexists; split; try reflexivity; lra.
    + destruct (Rltb_spec (1 / 10) fm); eexists; split; try reflexivity; lra.
  - eexists; split; [reflexivity|lra].
  - destruct (Rltb_spec (1 / 10) fm); eexists; split; try reflexivity; lra.
  - destruct (Rltb_spec (1 / 10) fm); eexists; split; try reflexivity; lra.
Qed.
Definition below (c : R) (x : ext) : Prop := match x with Fin r => r <= c | Pinf => False | Ninf | Nan => True end.
Lemma fac_rej fm (x : ext) : 1 / 10 <= fm -> below (8 / 10) x ->
  exists q, smin (K := ExtR) (Fin fm) (smax (Fin (1 / 10)) x) = Fin q /\ 1 / 10 <= q <= fm /\ q <= 8 / 10.
Proof.
  intros Hf Hb. unfold smin, smax. cbn [nltb ExtR]. destruct x as [r| | |]; cbn [eltb below] in *.
  - destruct (Rltb_spec (1 / 10) r); cbn [eltb].
    + destruct (Rltb_spec r fm); eexists; split; try reflexivity; lra.
    + destruct (Rltb_spec (1 / 10) fm); eexists; split; try reflexivity; lra.
  - contradiction.
  - destruct (Rltb_spec (1 / 10) fm); eexists; split; try reflexivity; lra.
  - destruct (Rltb_spec (1 / 10) fm); eexists; split; try reflexivity; lra.
Qed.
(* an estimate not below 1 gives a factor not above 1 *)
Lemma below_sqrt x : below 1 x -> below 1 (esqrt x).
Proof.
  destruct x as [r| | |]; cbn; try tauto. intros H. destruct (Rltb_spec r 0); cbn; trivial.
  rewrite <- sqrt_1. apply sqrt_le_1; lra.
Qed.
Lemma below_inv err : eltb err (Fin 1) = false -> below 1 (ediv (Fin 1) err).
Proof.
  destruct err as [r| | |]; cbn; intros H; try discriminate; trivial; [|lra].
  destruct (Rltb_spec r 1) as [|Hr]; [discriminate|]. destruct (Reqb_spec r 0) as [->|H0]; [lra|].
  cbn. apply Rmult_le_reg_r with r; [lra|]. unfold Rdiv. rewrite Rmult_assoc, Rinv_l by lra. lra.
Qed.
Lemma below_smin c a b : below c a -> below c (smin (K := ExtR) a b).
Proof.
  unfold smin. cbn [nltb ExtR]. destruct (eltb b a) eqn:E; [|tauto].
  destruct a as [r| | |], b as [s| | |]; cbn in *; try discriminate; try tauto.
  destruct (Rltb_spec s r); [lra|discriminate].
Qed.
Lemma below_scale x : below 1 x -> below (8 / 10) (emul (Fin (8 / 10)) x).
Proof.
  destruct x as [r| | |]; cbn; try tauto; [lra|]. intros _. unfold esgn. destruct (Rltb_spec 0 (8 / 10)); cbn; trivial. lra.
Qed.

Section D.
Context {W : Type}.
Variable toint : ext -> out Z.
Variable kern : Z -> Z -> Z -> W -> ext -> out (W * ext).
Variable init accept : W -> W.
Variable rho : W -> W * ext.
Variable T : R.
Notation body := (d_body (K := ExtR) toint kern accept rho (Fin T)).
Notation loop := (d_loop (K := ExtR) toint kern accept rho (Fin T)).
Notation reach := (reach (K := ExtR) toint kern accept rho (Fin T)).
(* conversion of double to int: truncation; converting a non-finite value is undefined *)
Hypothesis toint_ok : forall x z, toint x = Ok z -> exists r, x = Fin r /\ (0 <= r -> IZR z <= r < IZR z + 1).

Record ok (st : dst (K := ExtR) W) (t h : R) : Prop := {
  ok_t : u_t st = Fin t; ok_h : u_h st = Fin h;
  ok_fm : exists fm, u_facmax st = Fin fm /\ 1 / 10 <= fm <= 5;
  ok_told : exists to, u_told st = Fin to;
  ok_n : (0 <= u_nsteps st)%Z;
  ok_c : cached st }.
Definition stable (a : att ExtR) : Prop :=
  exists h r, t_h a = Fin h /\ t_rho a = Fin r /\ h * r <= 353 / 1000 * (IZR (t_deg a + 4)) ^ 2 - 3.
(* what one pass of the loop does to time and step size *)
Definition stepped (st : dst (K := ExtR) W) (t h : R) (st' : dst (K := ExtR) W) : Prop :=
  exists a h1 h2 t' h',
    u_hist st' = a :: u_hist st /\ t_t a = Fin t /\ t_h a = Fin h2 /\ stable a /\ ok st' t' h' /\
    h1 = (if Rle_dec (T - t) (101 / 100 * h) then T - t else h) /\
    10 / 10000000000000000 <= h1 <= T - t /\ 0 < h2 <= h1 /\
    (t_acc a = true -> t' = t + h2 /\ h' <= 55 / 10 * h2) /\
    (t_acc a = false -> t' = t /\
       ((h' <= 64 / 100 * h2 /\ (u_nrejloc st <= u_nrejloc st')%Z) \/ (h' = 1 / 100000 /\ (u_nrejloc st < 10)%Z /\ u_nrejloc st' = 10%Z))).

Lemma absd t : t < T -> @mABS_diff ExtR (Fin T) (Fin t) = Fin (T - t).
Proof.
  intros H. unfold mABS_diff, n0. cbn [nleb nsub nlit ExtR]. unfold esub. cbn [eopp eadd]. rewrite eleb_fin, Rlit_0.
  destruct (Rleb_spec 0 (T + - t)); [|lra]. f_equal.
Qed.
Lemma absd0 t : t <= T -> @mABS_diff ExtR (Fin T) (Fin t) = Fin (T - t).
Proof.
  intros H. unfold mABS_diff, n0. cbn [nleb nsub nlit ExtR]. unfold esub. cbn [eopp eadd]. rewrite eleb_fin, Rlit_0.
  destruct (Rleb_spec 0 (T + - t)); [|lra]. f_equal.
Qed.
Lemma sqr_le a b : 0 <= b -> sqrt a <= b -> 0 <= a -> a <= b * b.
Proof. intros Hb H Ha. rewrite <- (sqrt_sqrt a Ha). pose proof (sqrt_pos a). apply Rmult_le_compat; lra. Qed.
Lemma sqr_ge a b : 0 <= b -> b <= sqrt a -> 0 <= a -> b * b <= a.
Proof. intros Hb H Ha. rewrite <- (sqrt_sqrt a Ha). apply Rmult_le_compat; lra. Qed.

(* the choice of the number of stages and the possible reduction of the step *)
Lemma choose h1 eig z : 0 < h1 ->
  toint (@nsqrt ExtR ((nlit 3 0 + Fin h1 * eig) / nlit 353 (-3)) + nlit 1 0)%num = Ok z ->
  exists r, eig = Fin r /\ 0 <= 3 + h1 * r /\ (1 <= z)%Z /\ 3 + h1 * r <= 353 / 1000 * IZR z ^ 2 /\
    ((152 < z)%Z -> 0 < r /\ 152 * 152 * (353 / 1000) - 3 <= h1 * r).
Proof.
  intros Hh Hz. apply toint_ok in Hz. destruct Hz as (q & Hq & Hb). revert Hq.
  cbn [nsqrt nadd nmul ndiv nlit ExtR]. rewrite ?Rlit_0, ?Rlit_neg. change (10 ^ 3)%Z with 1000%Z.
  destruct eig as [r| | |]; cbn [emul].
  2:{ unfold esgn. destruct (Rltb_spec 0 h1); [|lra]. cbn. destruct (Rltb_spec (353 / 1000) 0); [lra|]. discriminate. }
  2:{ unfold esgn. destruct (Rltb_spec 0 h1); [|lra]. cbn. destruct (Rltb_spec (353 / 1000) 0); [lra|]. discriminate. }
  2:{ discriminate. }
  cbn [eadd]. rewrite ediv_fin by lra. cbn [esqrt]. destruct (Rltb_spec ((3 + h1 * r) / (353 / 1000)) 0) as [|Hp]; [discriminate|].
  cbn [eadd]. intros Hq. injection Hq as Hq.
  set (u := (3 + h1 * r) / (353 / 1000)) in *. assert (Hu : 0 <= u) by lra. pose proof (sqrt_pos u).
  assert (Hu3 : 3 + h1 * r = 353 / 1000 * u) by (unfold u; field).
  specialize (Hb ltac:(lra)). exists r. split; [reflexivity|].
  assert (Hz1 : (1 <= z)%Z) by (assert ((0 < z)%Z); [apply lt_IZR; lra|lia]).
  split; [lra|]. split; [exact Hz1|].
  assert (1 <= IZR z) by (apply (IZR_le 1); exact Hz1).
  split.
  - pose proof (sqr_le u (IZR z) ltac:(lra) ltac:(lra) Hu). nra.
  - intros H152. assert (153 <= IZR z) by (apply (IZR_le 153); lia).
    pose proof (sqr_ge u 152 ltac:(lra) ltac:(lra) Hu). split; [|lra].
    assert (0 < h1 * r) by lra. apply (Rmult_lt_reg_l h1); lra.
Qed.

Lemma one_pass st t h : ok st t h -> t < T ->
  match body st with
  | Ok st' => stepped st t h st'
  | Throw _ => True
  | UB s => (exists x, toint x = UB s) \/ (exists d i r w h, right_block d i r /\ kern d i r w h = UB s)
  | Diverge => (exists x, toint x = Diverge) \/ (exists d i r w h, right_block d i r /\ kern d i r w h = Diverge)
  end /\
  ((if Rle_dec (T - t) (101 / 100 * h) then T - t else h) < 10 / 10000000000000000 -> exists s, body st = Throw s).
Proof.
  intros [Ht Hh [fm [Hfm Hfmb]] [to Hto] Hn Hc] HtT.
  pose proof (pass toint kern accept rho (Fin T) st Hc) as HP.
  split.
  2:{ intros Hlt. unfold d_body. cbv zeta. rewrite Ht, Hh. rewrite absd by exact HtT.
      cbn [nleb nmul nlit ExtR]. cbn [emul]. rewrite eleb_fin, Rlit_neg. change (10 ^ 2)%Z with 100%Z.
      unfold r4_uround. cbn [nlit ExtR]. rewrite Rlit_0, Rlit_neg. cbn [emul]. change (10 ^ 16)%Z with 10000000000000000%Z.
      unfold Rleb. destruct (Rle_dec (T - t) (101 / 100 * h)); cbn [nltb ExtR eltb].
      - destruct (Rltb_spec (T - t) (10 * (1 / 10000000000000000))); [eauto|lra].
      - destruct (Rltb_spec h (10 * (1 / 10000000000000000))); [eauto|lra]. }
  destruct (body st) as [st'|s|s|] eqn:Eb; try exact HP; trivial.
  revert Eb. unfold d_body. cbv zeta.
  set (he := if nleb (mABS_diff (Fin T) (u_t st)) _ then _ else _).
  set (h1 := if Rle_dec (T - t) (101 / 100 * h) then T - t else h).
  assert (Ehe : he = Fin h1).
  { unfold he, h1. rewrite Ht, Hh, absd by exact HtT. cbn [nleb nmul nlit ExtR emul]. rewrite eleb_fin, Rlit_neg. change (10 ^ 2)%Z with 100%Z.
    unfold Rleb. destruct (Rle_dec (T - t) (101 / 100 * h)); reflexivity. }
  rewrite Ehe. clear Ehe. clearbody he. clear he.
  assert (El : nltb (n := ExtR) (Fin h1) (nlit 10 0 * r4_uround)%num = Rltb h1 (10 / 10000000000000000)).
  { unfold r4_uround. cbn [nltb nmul nlit ExtR emul eltb]. rewrite Rlit_0, Rlit_neg. change (10 ^ 16)%Z with 10000000000000000%Z.
    f_equal. lra. }
  rewrite El. clear El. destruct (Rltb_spec h1 (10 / 10000000000000000)) as [|Hh1]; [discriminate|].
  assert (Hh1T : h1 <= T - t) by (unfold h1; destruct (Rle_dec (T - t) (101 / 100 * h)); lra).
  assert (Hh1p : 0 < h1) by lra.
  match goal with |- (match ?p with pair _ _ => _ end) = _ -> _ => destruct p as [w1 eig] end.
  match goal with |- context [toint ?x] => destruct (toint x) as [z| | |] eqn:Ez end; cbn [bind]; try discriminate.
  apply (choose h1 eig z Hh1p) in Ez. destruct Ez as (r & -> & Hr0 & Hz1 & Hzs & Hz152).
  match goal with |- (match ?p with pair _ _ => _ end) = _ -> _ => destruct p as [h2e z2] eqn:E2 end.
  assert (H2 : exists h2, h2e = Fin h2 /\ 0 < h2 <= h1 /\ (z2 <= 152)%Z /\ (1 <= z2)%Z /\ h2 * r <= 353 / 1000 * IZR z2 ^ 2 - 3).
  { destruct (Z.ltb_spec 152 z) as [Hz|Hz].
    - destruct (Hz152 Hz) as [Hr Hhr]. injection E2 as <- <-. cbn [nmul ndiv nsub nlit ExtR]. rewrite !Rlit_0, !Rlit_neg.
      change (10 ^ 3)%Z with 1000%Z. change (10 ^ 1)%Z with 10%Z.
      unfold esub. cbn [emul eopp eadd ediv]. destruct (Reqb_spec r 0); [lra|].
      set (c := 8 / 10 * (152 * 152 * (353 / 1000) + - (3))). assert (Hcp : 0 < c) by (unfold c; lra).
      exists (c / r). split; [reflexivity|].
      assert (E : c / r * r = c) by (field; lra).
      split; [split|].
      + apply Rdiv_lt_0_compat; lra.
      + apply Rmult_le_reg_r with r; [lra|]. rewrite E. unfold c. lra.
      + split; [lia|]. split; [lia|]. rewrite E. unfold c. lra.
    - injection E2 as <- <-. exists h1. split; [reflexivity|]. split; [lra|]. split; [lia|]. split; [lia|]. lra. }
  destruct H2 as (h2 & -> & Hh2 & Hz2 & Hz2' & Hst2).
  set (m := (Z.max z2 5 - 4)%Z).
  assert (HS : wp (if (m =? u_mdego st)%Z then Ok (m, u_mp1 st, u_mp2 st, u_stages st) else
      '(mdeg, mp1, mp2) <- mdegre m (u_mp1 st) ;; Ok (mdeg, mp1, mp2, if (u_stages st <? mdeg + 4)%Z then (mdeg + 4)%Z else u_stages st))
      (fun x => let '(d, i, r, _) := x in (m <= d)%Z)).
  { destruct (m =? u_mdego st)%Z; [cbn; lia|]. apply wp_bind. eapply wp_mono; [apply selection; lia|]. intros [[d i] r0] [H _]. apply H. }
  destruct (if (m =? u_mdego st)%Z then _ else _) as [[[[d i] rr] sg]| | |]; cbn [wp] in HS; try contradiction. cbn [bind].
  destruct (kern d i rr w1 (Fin h2)) as [[w2 err]| | |]; cbn [bind]; try discriminate.
  set (a := fun b => mkAtt (K := ExtR) (Fin t) (Fin h2) (Fin r) (u_nrho st =? 0)%Z m d i rr b).
  assert (Hstab : forall b, stable (a b)).
  { intros b. exists h2, r. split; [reflexivity|]. split; [reflexivity|]. unfold a. cbn [t_deg].
    assert (IZR z2 <= IZR (d + 4)) by (apply IZR_le; lia). assert (1 <= IZR z2) by (apply (IZR_le 1); exact Hz2').
    assert (IZR z2 ^ 2 <= IZR (d + 4) ^ 2) by (apply pow_incr; lra). lra. }
  rewrite Ht, Hfm, Hto.
  match goal with |- context [smax (nlit 1 (-1)) ?x] => set (fx := x) end.
  assert (E01 : @nlit ExtR 1 (-1) = Fin (1 / 10)) by (cbn [nlit ExtR]; rewrite Rlit_neg; reflexivity).
  assert (E1 : @nlit ExtR 1 0 = Fin 1) by (cbn [nlit ExtR]; rewrite Rlit_0; reflexivity).
  set (fm' := if u_reject st then 1 else fm).
  assert (Efm : (if u_reject st then @nlit ExtR 1 0 else Fin fm) = Fin fm') by (unfold fm'; destruct (u_reject st); [exact E1|reflexivity]).
  rewrite Efm, E01.
  assert (Hfm' : 1 / 10 <= fm' <= 5) by (unfold fm'; destruct (u_reject st); lra).
  rewrite E1. destruct (@nltb ExtR err (Fin 1)) eqn:Ee.
  - destruct (fac_bounds fm' fx (proj1 Hfm')) as (q & -> & Hq). set (hn := if u_reject st then _ else _).
    assert (Hhn : exists v, hn = Fin v /\ v <= 5 * h2).
    { assert (h2 * q <= 5 * h2) by nra. unfold hn. cbn [nmul nadd ExtR emul eadd]. destruct (u_reject st); [|eexists; split; [reflexivity|lra]].
      cbn [nltb ExtR eltb]. destruct (Rltb_spec T (t + h2)); [lra|]. unfold smin. cbn [nltb ExtR eltb].
      destruct (Rltb_spec h2 (h2 * q)); eexists; (split; [reflexivity|lra]). }
    destruct Hhn as (v & Ehn & Hv). rewrite Ehn. clear Ehn. clearbody hn. clearbody fx. change (@nadd ExtR (Fin t) (Fin h2)) with (Fin (t + h2)). rewrite absd0 by lra.
    set (he := if nleb (Fin (T - (t + h2))) _ then _ else _).
    set (h' := if Rleb (T - (t + h2)) (11 / 10 * v) then T - (t + h2) else v).
    assert (Ehe : he = Fin h').
    { unfold he, h'. cbn [nleb nmul nlit ExtR emul]. rewrite eleb_fin, Rlit_neg. change (10 ^ 1)%Z with 10%Z. destruct (Rleb (T - (t + h2)) (11 / 10 * v)); reflexivity. }
    rewrite Ehe. clear Ehe. clearbody he.
    assert (Hh' : h' <= 55 / 10 * h2) by (unfold h'; destruct (Rleb_spec (T - (t + h2)) (11 / 10 * v)); lra).
    intros Eo. assert (Est : exists x, st' = x) by eauto. injection Eo as Eo. clear Est.
    exists (a true), h1, h2, (t + h2), h'. rewrite <- Eo. cbn [u_hist].
    split; [reflexivity|]. split; [reflexivity|]. split; [reflexivity|]. split; [apply Hstab|]. split.
    { constructor; cbn [u_t u_h u_facmax u_told u_nsteps]; [reflexivity|reflexivity|exists 2; split; [apply (f_equal Fin), Rlit_0|lra]|eauto|lia|].
      rewrite <- Eo in HP. destruct HP as (? & ? & ? & ? & HP). destruct HP as (_ & _ & _ & HP & _). exact HP. }
    split; [reflexivity|]. split; [lra|]. split; [lra|]. split; [auto|]. intros; discriminate.
  - assert (Hbx : below (8 / 10) fx).
    { unfold fx. rewrite E1. cbn [nmul ndiv nsqrt nlit ExtR]. rewrite Rlit_neg. change (10 ^ 1)%Z with 10%Z. apply below_scale.
      assert (Hi : below 1 (esqrt (esqrt (ediv (Fin 1) err)))) by (apply below_sqrt, below_sqrt, below_inv; exact Ee).
      destruct (_ && _)%bool; [apply below_smin|]; exact Hi. }
    destruct (fac_rej fm' fx (proj1 Hfm') Hbx) as (q & -> & Hq & Hq8). 
    clearbody fx. destruct (Z.eqb_spec (u_nsteps st + 1) 0) as [Hbad|_]; [lia|].
    assert (Hsm : 8 / 10 * (h2 * q) <= 64 / 100 * h2) by nra.
    set (same := @neqb ExtR (Fin to) (Fin t)).
    set (nl := if same then (u_nrejloc st + 1)%Z else u_nrejloc st).
    set (h' := if (same && (nl =? 10)%Z)%bool then 1 / 100000 else 8 / 10 * (h2 * q)).
    set (he := if (same && (nl =? 10)%Z)%bool then _ else _).
    assert (Ehe : he = Fin h').
    { unfold he, h'. cbn [nmul nlit ExtR emul]. rewrite !Rlit_neg. change (10 ^ 1)%Z with 10%Z. change (10 ^ 5)%Z with 100000%Z. destruct (same && (nl =? 10)%Z)%bool; reflexivity. }
    rewrite Ehe. clear Ehe. clearbody he.
    intros Eo. injection Eo as Eo.
    exists (a false), h1, h2, t, h'. rewrite <- Eo. cbn [u_hist].
    split; [reflexivity|]. split; [reflexivity|]. split; [reflexivity|]. split; [apply Hstab|]. split.
    { constructor; cbn [u_t u_h u_facmax u_told u_nsteps]; [reflexivity|reflexivity|exists fm'; split; [reflexivity|lra]|eauto|lia|].
      rewrite <- Eo in HP. destruct HP as (? & ? & ? & ? & HP). destruct HP as (_ & _ & _ & HP & _). exact HP. }
    split; [reflexivity|]. split; [lra|]. split; [lra|]. split; [intros; discriminate|]. intros _. split; [reflexivity|].
    cbn [u_nrejloc]. unfold h'. destruct same; cbn [andb].
    + destruct (Z.eqb_spec nl 10); unfold nl in *; [right|left]; (split; [lra|lia]).
    + left. split; [lra|]. unfold nl. lia.
Qed.
End D.
