(* Concrete runs of the driver of Rock4: the counterexamples to C34 and C36, and runs showing
   that the hypotheses of the other properties can be met. *)
From Coq Require Import Reals Lra Permutation.
From Verif Require Import Base HessModel CMacros VecFun ExtReal Rock4Model Rock4Spec Rock4Proofs Rock4Drive Rock4Real Rock4Term.
Open Scope R_scope.

(* conversion of a finite double to int: truncation, undefined when the value does not fit *)
Definition toint_R (x : ext) : out Z :=
  match x with
  | Fin r => let z := if Rltb r 0 then (- Int_part (- r))%Z else Int_part r in
             if ((-2147483648 <=? z) && (z <=? 2147483647))%Z%bool then Ok z else UB "conversion to int"
  | _ => UB "conversion to int"
  end.
Lemma toint_R_ok : forall x z, toint_R x = Ok z -> exists r, x = Fin r /\ (0 <= r -> IZR z <= r < IZR z + 1).
Proof.
  intros [r| | |] z H; try discriminate. exists r. split; [reflexivity|]. intros Hr. cbn in H.
  destruct (Rltb_spec r 0); [lra|]. destruct (_ && _)%bool; [|discriminate]. injection H as <-.
  destruct (base_Int_part r) as [H1 H2]. lra.
Qed.
Lemma toint_R_div : forall x, toint_R x <> Diverge.
Proof. intros [r| | |]; cbn; try discriminate. destruct (_ && _)%bool; discriminate. Qed.

(* a spectral radius 0 asks for the smallest degree *)
Lemma toint_small h : exists z, toint_R (@nsqrt ExtR ((nlit 3 0 + Fin h * Fin 0) / nlit 353 (-3)) + nlit 1 0)%num = Ok z /\ (z <= 3)%Z.
Proof.
  cbn [nsqrt nadd nmul ndiv nlit ExtR]. rewrite ?Rlit_0, ?Rlit_neg. change (10 ^ 3)%Z with 1000%Z. cbn [emul eadd].
  rewrite ediv_fin by lra. replace (3 + h * 0) with 3 by ring. rewrite esqrt_nonneg by lra. cbn [eadd toint_R].
  set (s := sqrt (3 / (353 / 1000))).
  assert (H1 : 0 <= s) by apply sqrt_pos.
  assert (H2 : s < 3).
  { unfold s. replace 3 with (sqrt (3 * 3)) at 2 by (apply sqrt_square; lra). apply sqrt_lt_1; lra. }
  destruct (Rltb_spec (s + 1) 0); [lra|]. destruct (base_Int_part (s + 1)) as [B1 B2].
  assert (Hz : (Int_part (s + 1) < 4)%Z) by (apply lt_IZR; lra).
  assert (Hz0 : (-1 < Int_part (s + 1))%Z) by (apply lt_IZR; lra).
  assert (Hb : ((-2147483648 <=? Int_part (s + 1)) && (Int_part (s + 1) <=? 2147483647))%Z%bool = true)
    by (apply andb_true_intro; split; apply Z.leb_le; lia).
  rewrite Hb. eexists. split; [reflexivity|]. lia.
Qed.

(* ---- C34 ------------------------------------------------------------------------------------ *)
(* the first attempt has a NaN error estimate, the following ones have a zero estimate *)
Definition kern0 (d i r : Z) (w : Z) (h : ext) : out (Z * ext) := Ok ((w + 1)%Z, if (w =? 0)%Z then Nan else Fin 0).
Definition rho0 (w : Z) : Z * ext := (w, Fin 0).
Definition id0 (w : Z) : Z := w.
Section C34.
Variable T : R.
Notation body := (d_body (K := ExtR) toint_R kern0 id0 rho0 (Fin T)).
Notation start := (r4_start (K := ExtR) id0 0%Z (Fin 0) (Fin 1) (Fin 0) 0 0).
Record cond (st : dst (K := ExtR) Z) (t h fm : R) (b : bool) : Prop := {
  co_t : u_t st = Fin t; co_h : u_h st = Fin h; co_fm : u_facmax st = Fin fm; co_b : u_reject st = b;
  co_e : exists ep, u_errp st = Fin ep /\ ep <= 0; co_eig : u_eig st = Fin 0; co_n : Z.odd (u_nrho st) = true;
  co_d : u_mdego st = 1%Z /\ u_mp1 st = 1%Z /\ u_mp2 st = 1%Z; co_w : (1 <= u_w st)%Z }.
Lemma odd_step n : Z.odd n = true -> Z.odd ((n + 2) mod 10) = true.
Proof.
  intros H. rewrite Z.mod_eq by lia. rewrite Z.odd_sub, Z.odd_add, Z.odd_mul. rewrite H. reflexivity.
Qed.
Lemma next st t h fm b : cond st t h fm b -> 10 / 10000000000000000 <= h -> 1 / 10 <= fm ->
  101 / 100 * h < T - t -> 11 / 10 * (h * (if b then 1 else fm)) < T - (t + h) ->
  exists st' a, body st = Ok st' /\ cond st' (t + h) (h * (if b then 1 else fm)) 2 false /\ u_hist st' = a :: u_hist st /\ t_acc a = true /\ t_new a = false.
Proof.
  intros [Ht Hh Hfm Hb (ep & Hep & Hep0) Heig Hn (Hd1 & Hd2 & Hd3) Hw] Hh1 Hfm1 HT1 HT2.
  unfold d_body. cbv zeta.
  set (he := if nleb (mABS_diff (Fin T) (u_t st)) _ then _ else _).
  assert (Ehe : he = Fin h).
  { unfold he. rewrite Ht, Hh, absd by lra. cbn [nleb nmul nlit ExtR emul]. rewrite eleb_fin, Rlit_neg. change (10 ^ 2)%Z with 100%Z.
    destruct (Rleb_spec (T - t) (101 / 100 * h)); [lra|reflexivity]. }
  rewrite Ehe. clear Ehe. clearbody he. clear he.
  assert (El : nltb (n := ExtR) (Fin h) (nlit 10 0 * r4_uround)%num = false).
  { unfold r4_uround. cbn [nltb nmul nlit ExtR emul eltb]. rewrite Rlit_0, Rlit_neg. change (10 ^ 16)%Z with 10000000000000000%Z.
    destruct (Rltb_spec h (10 * (1 / 10000000000000000))); [lra|reflexivity]. }
  rewrite El. clear El.
  assert (En : (u_nrho st =? 0)%Z = false) by (apply Z.eqb_neq; intros E; rewrite E in Hn; discriminate).
  rewrite En. cbv beta iota. rewrite Heig. destruct (toint_small h) as (z & Ez & Hz). rewrite Ez. cbn [bind].
  destruct (Z.ltb_spec 152 z); [lia|]. cbv beta iota. replace (Z.max z 5 - 4)%Z with 1%Z by lia. rewrite Hd1, Hd2, Hd3. rewrite Z.eqb_refl. cbn [bind].
  unfold kern0 at 1. destruct (Z.eqb_spec (u_w st) 0); [lia|]. cbn [bind].
  assert (E1 : @nlit ExtR 1 0 = Fin 1) by (cbn [nlit ExtR]; rewrite Rlit_0; reflexivity).
  assert (E01 : @nlit ExtR 1 (-1) = Fin (1 / 10)) by (cbn [nlit ExtR]; rewrite Rlit_neg; reflexivity).
  assert (Ec : @nltb ExtR (Fin 0) (nlit 1 0) = true) by (rewrite E1; cbn; destruct (Rltb_spec 0 1); [reflexivity|lra]).
  rewrite Ec.
  assert (Ee : (@nltb ExtR (nlit 0 0) (u_errp st) && negb (u_reject st))%bool = false).
  { rewrite Hep. cbn [nltb nlit ExtR eltb]. rewrite Rlit_0. destruct (Rltb_spec 0 ep); [lra|reflexivity]. }
  rewrite Ee. rewrite Hb, Hfm, E1, E01.
  set (F := if b then 1 else fm).
  set (fx := @smin ExtR (if b then _ else _) _).
  assert (Efac : fx = Fin F).
  { unfold fx. cbn [ndiv ExtR ediv]. destruct (Reqb_spec 0 0); [|lra]. unfold esgn. destruct (Rltb_spec 0 1); [|lra].
    cbn [nsqrt ExtR esqrt nmul nlit emul]. rewrite Rlit_neg. unfold esgn. change (10 ^ 1)%Z with 10%Z. destruct (Rltb_spec 0 (8 / 10)); [|lra].
    unfold smax, smin, F. destruct b; cbn [nltb ExtR eltb]; reflexivity. }
  rewrite Efac. clear Efac. clearbody fx. rewrite Ht. change (@nadd ExtR (Fin t) (Fin h)) with (Fin (t + h)). change (@nmul ExtR (Fin h) (Fin F)) with (Fin (h * F)).
  set (hn := if b then _ else _).
  assert (Ehn : hn = Fin (h * F)).
  { unfold hn, F. destruct b; [|reflexivity]. rewrite Rmult_1_r. unfold smin. cbn [nltb ExtR eltb]. destruct (Rltb_spec h h); [lra|].
    destruct (Rltb_spec T (t + h)); [lra|reflexivity]. }
  rewrite Ehn. clear Ehn. clearbody hn.
  assert (HhF : 0 <= h * F) by (unfold F; destruct b; nra).
  rewrite absd0 by lra.
  set (hh := if nleb (Fin (T - (t + h))) _ then _ else _).
  assert (Ehh : hh = Fin (h * F)).
  { unfold hh. cbn [nleb nmul nlit ExtR emul]. rewrite eleb_fin, Rlit_neg. change (10 ^ 1)%Z with 10%Z.
    destruct (Rleb_spec (T - (t + h)) (11 / 10 * (h * F))); [unfold F in *; lra|reflexivity]. }
  rewrite Ehh. clear Ehh. clearbody hh.
  do 2 eexists. split; [reflexivity|]. split; [|cbn; auto].
  constructor; cbn; auto.
  - rewrite Rlit_0. reflexivity.
  - exists 0. split; [reflexivity|lra].
  - apply odd_step. exact Hn.
  - unfold id0. lia.
Qed.
(* the first attempt is rejected *)
Lemma first : 3 < T -> exists st' a, body start = Ok st' /\ cond st' 0 (8 / 100) 5 true /\ u_hist st' = [a] /\ t_acc a = false /\ t_new a = true.
Proof.
  intros HT. unfold d_body. cbv zeta. cbn [r4_start u_t u_h u_nrho u_w u_eig u_mdego u_mp1 u_mp2 u_stages u_errp u_reject u_facmax u_nsteps u_told u_nrejloc u_nacc u_nrej u_hlast u_hp u_hist].
  rewrite absd by lra.
  set (he := if nleb (Fin (T - 0)) _ then _ else _).
  assert (Ehe : he = Fin 1).
  { unfold he. cbn [nleb nmul nlit ExtR emul]. rewrite eleb_fin, Rlit_neg. change (10 ^ 2)%Z with 100%Z.
    destruct (Rleb_spec (T - 0) (101 / 100 * 1)); [lra|reflexivity]. }
  rewrite Ehe. clear Ehe. clearbody he. clear he.
  assert (El : nltb (n := ExtR) (Fin 1) (nlit 10 0 * r4_uround)%num = false).
  { unfold r4_uround. cbn [nltb nmul nlit ExtR emul eltb]. rewrite Rlit_0, Rlit_neg. change (10 ^ 16)%Z with 10000000000000000%Z.
    destruct (Rltb_spec 1 (10 * (1 / 10000000000000000))); [lra|reflexivity]. }
  rewrite El. clear El. rewrite Z.eqb_refl. unfold rho0 at 1. cbv beta iota.
  destruct (toint_small 1) as (z & Ez & Hz). rewrite Ez. cbn [bind].
  destruct (Z.ltb_spec 152 z); [lia|]. cbv beta iota. replace (Z.max z 5 - 4)%Z with 1%Z by lia.
  change (1 =? 0)%Z with false. change (mdegre 1 0) with (Ok (1, 1, 1)%Z). cbn [bind]. unfold kern0 at 1. cbn [bind Z.eqb id0].
  assert (Ec : @nltb ExtR Nan (nlit 1 0) = false) by reflexivity. rewrite Ec.
  assert (E01 : @nlit ExtR 1 (-1) = Fin (1 / 10)) by (cbn [nlit ExtR]; rewrite Rlit_neg; reflexivity).
  assert (E5 : @nlit ExtR 5 0 = Fin 5) by (cbn [nlit ExtR]; rewrite Rlit_0; reflexivity).
  rewrite E01, E5. set (fx := smin (Fin 5) _).
  assert (Ep : @nltb ExtR (nlit 0 0) (- nlit 1 0)%num = false) by (cbn [nltb nlit nopp ExtR eopp eltb]; rewrite !Rlit_0; destruct (Rltb_spec 0 (- (1))); [lra|reflexivity]).
  assert (Efx : fx = Fin (1 / 10)).
  { unfold fx. cbn [negb]. rewrite andb_true_r. rewrite Ep. cbn [ndiv nsqrt nmul nlit ExtR ediv esqrt emul].
    unfold smin, smax; cbn [nltb ExtR eltb]. destruct (Rltb_spec (1 / 10) 5); [reflexivity|lra]. }
  rewrite Efx. clear Efx. clearbody fx.
  assert (Es : @neqb ExtR (nlit 0 0) (Fin 0) = true) by (cbn [neqb nlit ExtR eeqb]; rewrite Rlit_0; destruct (Reqb_spec 0 0); [reflexivity|lra]).
  rewrite Es. change ((0 + 1 =? 0)%Z) with false. change ((0 + 1 =? 10)%Z) with false. cbn [andb].
  do 2 eexists. split; [reflexivity|]. split; [|cbn; auto].
  constructor; cbn; auto.
  - rewrite Rlit_neg. f_equal. change (10 ^ 1)%Z with 10%Z. lra.
  - exists (- (1)). split; [rewrite Rlit_0; reflexivity|lra].
  - lia.
Qed.
Fixpoint hk (n : nat) : R := match n with O => 8 / 100 | S n => hk n * 2 end.
Lemma hk_lo n : 8 / 100 <= hk n.
Proof. induction n; cbn; lra. Qed.
Notation reach := (reach (K := ExtR) toint_R kern0 id0 rho0 (Fin T)).
Lemma many N : 30 + 30 * hk N < T -> forall n, (n <= N)%nat -> exists st t, reach start st /\ cond st t (hk n) 2 false /\ t <= 2 * hk n /\
  n_acc (u_hist st) = Z.of_nat (S n) /\ filter (@t_new ExtR) (u_hist st) = firstn 1 (rev (u_hist st)) /\ Datatypes.length (u_hist st) = S (S n).
Proof.
  intros HT. assert (H8 := hk_lo N). induction n as [|n IH]; intros Hn.
  - destruct first as (s1 & a1 & B1 & C1 & Hh1 & Ha1 & Hw1); [lra|].
    destruct (next s1 0 (8 / 100) 5 true C1) as (s2 & a2 & B2 & C2 & Hh2 & Ha2 & Hw2); try lra.
    exists s2, (0 + 8 / 100). split; [|split; [|split]].
    + eapply reachS; [|rewrite (co_t _ _ _ _ _ C1); cbn; destruct (Rltb_spec 0 T); [reflexivity|lra]|exact B2].
      eapply reachS; [apply reach0| |exact B1]. cbn. destruct (Rltb_spec 0 T); [reflexivity|lra].
    + cbn [hk]. replace (8 / 100) with (8 / 100 * 1) at 2 by lra. exact C2.
    + cbn. lra.
    + rewrite Hh2, Hh1. unfold n_acc. cbn [filter rev app firstn Datatypes.length]. rewrite Ha2, Ha1, Hw2, Hw1. cbn. auto.
  - destruct IH as (st & t & HR & HC & Ht & Hacc & Hnew & Hl); [lia|].
    assert (HkN : hk (S n) <= hk N).
    { clear - Hn. induction Hn as [|m Hm IHm]; [lra|]. pose proof (hk_lo m). cbn [hk] in *. lra. }
    assert (H8n := hk_lo n). cbn [hk] in HkN.
    destruct (next st t (hk n) 2 false HC) as (s2 & a2 & B2 & C2 & Hh2 & Ha2 & Hw2); try lra.
    exists s2, (t + hk n). split; [|split; [|split; [|split; [|split]]]].
    + eapply reachS; [exact HR| |exact B2]. rewrite (co_t _ _ _ _ _ HC). cbn. destruct (Rltb_spec t T); [reflexivity|lra].
    + exact C2.
    + cbn [hk]. lra.
    + rewrite Hh2. unfold n_acc in *. cbn [filter]. rewrite Ha2. cbn [Datatypes.length]. lia.
    + rewrite Hh2. cbn [filter rev]. rewrite Hw2, Hnew. clear - Hl. rewrite <- (rev_length (u_hist st)) in Hl. destruct (rev (u_hist st)); [discriminate|]. reflexivity.
    + rewrite Hh2. cbn. lia.
Qed.
End C34.
Lemma hk_def : forall n, exists T, 30 + 30 * hk n < T.
Proof. intros n. exists (31 + 30 * hk n). lra. Qed.
Lemma stale : forall N, exists T st,
  Rock4Spec.reach (K := ExtR) toint_R kern0 id0 rho0 (Fin T) (r4_start id0 0%Z (Fin 0) (Fin 1) (Fin 0) 0 0) st /\
  n_acc (u_hist st) = Z.of_nat (S N) /\ filter (@t_new ExtR) (u_hist st) = firstn 1 (rev (u_hist st)) /\ Datatypes.length (u_hist st) = S (S N).
Proof.
  intros N. destruct (hk_def N) as [T HT]. exists T.
  destruct (many T N HT N (le_n N)) as (st & t & HR & _ & _ & H1 & H2 & H3). exists st. auto.
Qed.

(* ---- what holds of the refresh, in any arithmetic ------------------------------------------ *)
Section Refresh.
Open Scope Z_scope.
Context {K : num}.
Context {W : Type}.
Variable toint : K -> out Z.
Variable kern : Z -> Z -> Z -> W -> K -> out (W * K).
Variable init accept : W -> W.
Variable rho : W -> W * K.
Variable tend : K.
Variables (w0 : W) (t0 h0 hl0 : K) (m1 m2 : Z).
Notation start := (r4_start init w0 t0 h0 hl0 m1 m2).
Notation reach := (Rock4Spec.reach toint kern accept rho tend).
Lemma refresh_accepted st : reach start st -> Forall (fun a => t_acc a = true) (u_hist st) ->
  u_nrho st = (2 * Z.of_nat (Datatypes.length (u_hist st))) mod 10 /\
  forall k a, nth_error (rev (u_hist st)) k = Some a -> t_new a = (Z.of_nat k mod 5 =? 0).
Proof.
  intros HR. induction HR as [|st st' HR IH Ht Hb]; intros HF.
  - cbn. split; [reflexivity|]. intros [|k] a; discriminate.
  - destruct (reach_pass toint kern init accept rho tend _ _ _ (start_cached _ _ _ _ _ _ _) HR Ht Hb) as (a & w1 & w2 & err & Hh & _ & _ & _ & _ & Hn & _ & _ & _ & _ & _ & Ha & _).
    rewrite Hh in HF |- *. inversion HF as [|? ? Hacc HF']; subst. destruct (IH HF') as [I1 I2]. destruct (Ha Hacc) as (_ & _ & _ & _ & _ & Hn').
    split.
    + rewrite Hn', I1. cbn [Datatypes.length]. rewrite Z.add_mod_idemp_l by lia. f_equal. lia.
    + intros k a'. cbn [rev]. intros Hk.
      destruct (Nat.lt_ge_cases k (Datatypes.length (rev (u_hist st)))) as [Hl|Hl].
      * rewrite nth_error_app1 in Hk by exact Hl. apply I2. exact Hk.
      * rewrite nth_error_app2 in Hk by exact Hl. remember (k - _)%nat as j eqn:Ej. destruct j as [|j]; [|destruct j; discriminate].
        cbn in Hk. injection Hk as <-. rewrite Hn, I1. rewrite rev_length in *. assert (k = Datatypes.length (u_hist st)) as -> by lia.
        clear. set (n := Z.of_nat _). change 10 with (2 * 5). rewrite Z.mul_mod_distr_l by lia.
        destruct (Z.eqb_spec (n mod 5) 0) as [->|Hne]; [reflexivity|]. apply Z.eqb_neq. lia.
Qed.
(* at a state where the counter is odd, the radius is not evaluated before the next rejection *)
Lemma refresh_odd st st' : reach start st -> Z.odd (u_nrho st) = true -> nltb (u_t st) tend = true -> d_body toint kern accept rho tend st = Ok st' ->
  exists a, u_hist st' = a :: u_hist st /\ t_new a = false /\ (t_acc a = true -> Z.odd (u_nrho st') = true).
Proof.
  intros HR Ho Ht Hb.
  destruct (reach_pass toint kern init accept rho tend _ _ _ (start_cached _ _ _ _ _ _ _) HR Ht Hb) as (a & w1 & w2 & err & Hh & _ & _ & _ & _ & Hn & _ & _ & _ & _ & _ & Ha & _).
  exists a. split; [exact Hh|]. split; [rewrite Hn; apply Z.eqb_neq; intros E; rewrite E in Ho; discriminate|].
  intros Hacc. destruct (Ha Hacc) as (_ & _ & _ & _ & _ & ->). apply odd_step. exact Ho.
Qed.
End Refresh.

(* ---- C36 ------------------------------------------------------------------------------------ *)
Section Owner.
Open Scope Z_scope.
Context {K : num}.
Variable Sg : Type.
Variable userF : Sg -> vec K -> Sg * vec K.
Variable userrho : Sg -> Sg * (car K).
Variable toint : K -> out Z.
Variables RECF FPA FPB FPBE : Z -> K.
Variable size : Z.
Variables atol rtol : K.
Variable tend : K.
Notation kern := (kernel userF RECF FPA FPB FPBE size atol rtol).
Notation rho := (r4_rho userrho).
Notation reach := (Rock4Spec.reach toint kern k_accept rho tend).
Variables (e0 : est (K := K) Sg) (t0 h0 hl0 : K) (m1 m2 : Z).
Notation start := (r4_start (k_init userF) e0 t0 h0 hl0 m1 m2).
Hypothesis distinct0 : NoDup (ptrs Sg e0).
Lemma y_pointer st : reach start st ->
  (n_acc (u_hist st) = 0 -> e_y (u_w st) = e_y e0) /\ (n_acc (u_hist st) = 1 -> e_y (u_w st) <> e_y e0).
Proof.
  intros HR. induction HR as [|st st' HR IH Ht Hb].
  - cbn [r4_start u_w u_hist]. unfold k_init. destruct (callF _ _ _ _ _). cbn. split; [reflexivity|discriminate].
  - pose proof (reach_distinct Sg userF userrho toint RECF FPA FPB FPBE size atol rtol tend e0 t0 h0 hl0 m1 m2 distinct0 st HR) as HD.
    destruct (reach_pass toint kern (k_init userF) k_accept rho tend _ _ _ (start_cached _ _ _ _ _ _ _) HR Ht Hb) as (a & w1 & w2 & err & Hh & _ & Hq & _ & _ & _ & Hw & _ & Hk & _ & _ & Ha & Hr).
    assert (H1 : ptrs Sg w1 = ptrs Sg (u_w st)).
    { destruct (u_nrho st =? 0); [pose proof (rho_same Sg userrho (u_w st)) as X; rewrite <- Hw in X; cbn [fst] in X; destruct X as (_ & X & _); exact X|congruence]. }
    rewrite <- H1 in HD. assert (H2 : e_y w1 = e_y (u_w st)) by (injection H1; auto).
    pose proof (kernel_ptrs Sg userF RECF FPA FPB FPBE size atol rtol (t_deg a) (t_mz a) (t_mr a) w1 (t_h a)) as X.
    rewrite Hk in X. destruct X as (X1 & X2 & X3 & X4 & X5 & X6 & X7).
    rewrite Hh. unfold n_acc in *. cbn [filter]. destruct (t_acc a); cbn [Datatypes.length].
    + destruct (Ha eq_refl) as [-> _]. cbn. split; [lia|]. intros Hn.
      assert (Hy : e_y w1 = e_y e0) by (rewrite H2; apply IH; clear - Hn; lia). rewrite <- Hy. apply NoDup8 in HD. destruct X7 as [[-> _]|[-> _]]; intros E; symmetry in E; revert E; tauto.
    + destruct (Hr eq_refl) as [-> _]. rewrite X1, H2. exact IH.
Qed.
Lemma caller_array_freed st : reach start st -> e_y (u_w st) <> e_y e0 -> In (e_y e0) (freed (u_w st)).
Proof.
  intros HR Hy. pose proof (ptrs_permuted Sg userF userrho toint RECF FPA FPB FPBE size atol rtol tend e0 t0 h0 hl0 m1 m2 st HR) as HP.
  assert (Hin : In (e_y e0) (ptrs Sg (u_w st))) by (eapply Permutation_in; [exact HP|unfold ptrs; left; reflexivity]).
  unfold ptrs in Hin. unfold freed. cbn in *. intuition congruence.
Qed.
End Owner.

(* a complete call: y' = 0 on [0,1], one component, initial step 1, any finite tables *)
Section Zero.
Variables RECF FPA FPB FPBE : Z -> R.
Definition zeroF (s : unit) (v : vec ExtR) : unit * vec ExtR := (s, fun _ => Fin 0).
Definition zero_rho (s : unit) : unit * ExtR := (s, Fin 0).
(* y is array 1; the solver owns arrays 2 to 8 *)
Definition zero_e : est (K := ExtR) unit := mkEst (fun _ _ => Fin 0) tt 2 3 4 5 6 7 8 1 0%Z.
Notation fin t := (fun z : Z => (Fin (t z) : ExtR)).
Notation kern := (kernel (K := ExtR) zeroF (fin RECF) (fin FPA) (fin FPB) (fin FPBE) 1 (Fin 1) (Fin 1)).
Notation zrun := (rock4 (K := ExtR) toint_R kern (k_init zeroF) k_accept (r4_rho zero_rho) (Fin 1) 1 zero_e (Fin 0) (Fin 1) (Fin 0) 0 0).
Notation f0 := (fun (_ : vec ExtR) (_ : Z) => (Fin 0 : ExtR)).
Lemma zero_err i g : g 0%Z = Fin 0 -> x_err (fin FPA) (fin FPB) (fin FPBE) 1 (Fin 1) (Fin 1) f0 (Fin 1) i g = Fin 0.
Proof.
  intros Hg.
  assert (Ey : x_y (fin FPA) (fin FPB) f0 (Fin 1) i g 0%Z = Fin 0).
  { unfold x_y, v_x_lc4, x_k1, x_k2, x_k3, x_k4. rewrite Hg. cbn. f_equal. ring. }
  unfold x_err, rpp2. change (1 - 1)%Z with 0%Z. unfold for_. change (Z.to_nat (0 - 0 + 1)) with 1%nat. cbn [iter]. cbv beta zeta.
  assert (EA : @mABS ExtR (Fin 0) = Fin 0).
  { unfold mABS. destruct (nleb _ _); [reflexivity|]. cbn. f_equal. ring. }
  rewrite Ey, EA. unfold v_lc5, x_k1, x_k2, x_k3, x_k4, c_e, c_b. cbn [nlit ExtR nadd nmul nsub nopp ndiv eadd emul esub eopp].
  rewrite ediv_fin by lra. cbn [emul eadd esub eopp nsqrt]. rewrite !Rlit_0. rewrite ediv_fin by lra. rewrite esqrt_nonneg by lra.
  f_equal. transitivity (sqrt 0); [f_equal; lra|apply sqrt_0].
Qed.
Lemma zero_run : exists st, zrun = Ok st /\ u_t st = Fin 1 /\ n_acc (u_hist st) = 1%Z.
Proof.
  assert (HN : NoDup (ptrs unit zero_e)) by (unfold ptrs, zero_e; cbn; repeat constructor; cbn; intuition lia).
  unfold rock4. cbn [d_loop]. set (st0 := r4_start _ _ _ _ _ _ _).
  assert (E0 : @nltb ExtR (u_t st0) (Fin 1) = true) by (unfold st0; cbn; destruct (Rltb_spec 0 1); [reflexivity|lra]).
  rewrite E0. unfold d_body. cbv zeta.
  set (he := if nleb (mABS_diff (Fin 1) (u_t st0)) _ then _ else _).
  assert (Ehe : he = Fin 1).
  { unfold he, st0. cbn [r4_start u_t u_h]. rewrite absd by lra. cbn [nleb nmul nlit ExtR emul]. rewrite eleb_fin, Rlit_neg. change (10 ^ 2)%Z with 100%Z.
    destruct (Rleb_spec (1 - 0) (101 / 100 * 1)); [f_equal; lra|reflexivity]. }
  rewrite Ehe. clear Ehe. clearbody he. clear he.
  assert (El : nltb (n := ExtR) (Fin 1) (nlit 10 0 * r4_uround)%num = false).
  { unfold r4_uround. cbn [nltb nmul nlit ExtR emul eltb]. rewrite Rlit_0, Rlit_neg. change (10 ^ 16)%Z with 10000000000000000%Z.
    destruct (Rltb_spec 1 (10 * (1 / 10000000000000000))); [lra|reflexivity]. }
  rewrite El. clear El. change (u_nrho st0 =? 0)%Z with true. cbv iota. change (u_w st0) with (k_init (K := ExtR) zeroF zero_e).
  change (r4_rho zero_rho (k_init zeroF zero_e)) with (k_init (K := ExtR) zeroF zero_e, Fin 0). cbv beta iota.
  destruct (toint_small 1) as (z & Ez & Hz). rewrite Ez. cbn [bind].
  destruct (Z.ltb_spec 152 z); [lia|]. cbv beta iota. replace (Z.max z 5 - 4)%Z with 1%Z by lia.
  change (1 =? u_mdego st0)%Z with false. cbv iota. change (mdegre 1 (u_mp1 st0)) with (Ok (1, 1, 1)%Z). cbn [bind].
  pose proof (kernel_spec unit zeroF (fin RECF) (fin FPA) (fin FPB) (fin FPBE) 1 (Fin 1 : ExtR) (Fin 1 : ExtR) f0 ltac:(reflexivity) (Fin 1 : ExtR) 1 (fun _ => Fin 0 : ExtR) 1 1 (k_init zeroF zero_e)) as X.
  assert (HB : right_block 1 1 1) by (pose proof (selection 1 0 ltac:(lia)) as Y; exact (proj2 Y)).
  specialize (X HB HN eq_refl eq_refl).
  destruct (kernel zeroF _ _ _ _ _ _ _ _ _ _ _ _) as [[w2 err]| | |]; cbn [wp] in X; try contradiction.
  destruct X as (_ & _ & X & _). cbn [snd] in X. rewrite zero_err in X.
  2:{ rewrite G_1. unfold v_x_lc1. cbn. f_equal. ring. }
  subst err. cbn [bind].
  assert (Ec : @nltb ExtR (Fin 0) (nlit 1 0) = true) by (cbn [nltb nlit ExtR eltb]; rewrite Rlit_0; destruct (Rltb_spec 0 1); [reflexivity|lra]).
  rewrite Ec. cbn [bind u_t]. change (u_t st0) with (Fin 0). change (@nadd ExtR (Fin 0) (Fin 1)) with (Fin (0 + 1)).
  replace (0 + 1) with 1 by lra.
  assert (E1 : @nltb ExtR (Fin 1) (Fin 1) = false) by (cbn; destruct (Rltb_spec 1 1); [lra|reflexivity]).
  rewrite E1. eexists. split; [reflexivity|]. split; reflexivity.
Qed.
End Zero.
