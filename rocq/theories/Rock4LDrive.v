(* C39: the driver of Rock4-L in exact arithmetic. *)
From Coq Require Import Reals Lra List FunctionalExtensionality.
From Verif Require Import Base HessModel Spec CMacros Rock4Model Rock4Spec Rock4Proofs Rock4LModel Rock4LSpec Rock4LProofs.
Import ListNotations.
Open Scope R_scope.

Lemma leads_snoc l : forall t t' h d, leads t l t' -> leads t (l ++ [(t', h, d)]) (t' + h).
Proof.
  induction l as [|[[s h0] d0] l IH]; intros t t' h d; cbn.
  - intros ->. split; reflexivity.
  - intros [-> H]. split; [reflexivity|]. apply IH, H.
Qed.

Section Driver.
Variable W : Type.
Variable toint : R -> out Z.
Variable kern : Z -> Z -> Z -> W -> R -> out W.
Variables tend rho t0 h0 : R.
Hypothesis toint_ok : truncates toint.
Variable good : W -> Prop.
Variable step : R -> Z -> W -> W -> Prop.
Hypothesis kern_ok : forall d i r w h, right_block d i r -> good w -> wp (kern d i r w h) (fun w' => good w' /\ step h d w w').
Hypothesis Hrho : 0 <= rho.
Hypothesis Hh0 : 1 / 10 ^ 13 <= h0.
Hypothesis Hdeg : 101 / 100 * h0 * rho + 3 < 353 / 1000 * 152 ^ 2.
Notation lst := (lst (K := Rnum) W).
Notation body := (lv_body (K := Rnum) toint kern tend rho).
Notation loop := (lv_loop (K := Rnum) toint kern tend rho).
Variable w0 : W.
(* one attempted step *)
Notation fine := (fine_step rho h0 tend).
Notation len_ok := (fun x : R * R * Z => snd (fst x) = h0).
Definition deg4 (x : R * R * Z) : Z := (snd x + 4)%Z.
Record inv (st : lst) : Prop := mkInv {
  iv_le : t0 <= v_t st <= tend;
  iv_h : v_h st = h0 \/ (v_h st = tend - v_t st /\ tend - v_t st <= h0);
  iv_more : v_t st < tend -> 1 / 10 ^ 15 <= tend - v_t st /\ v_t st = t0 + INR (List.length (v_hist st)) * h0 /\ Forall len_ok (v_hist st);
  iv_done : v_t st = tend -> v_hist st = [] \/ (exists x l, v_hist st = x :: l /\ Forall len_ok l /\ INR (List.length l) * h0 < tend - t0);
  iv_leads : leads t0 (rev (v_hist st)) (v_t st);
  iv_fine : Forall fine (v_hist st);
  iv_cached : v_mdego st = 0%Z \/ right_block (v_mdego st) (v_mp1 st) (v_mp2 st);
  iv_stages : v_stages st = fold_right Z.max 0%Z (map deg4 (v_hist st)) /\ (v_mdego st = 0%Z \/ (v_mdego st + 4 <= v_stages st)%Z);
  iv_good : good (v_w st);
  iv_follows : follows step (rev (v_hist st)) w0 (v_w st) }.

Lemma fabs_R (x : R) : fabs (K := Rnum) x = Rabs x.
Proof.
  unfold fabs. cbn [nltb nopp nlit Rnum]. rewrite Rlit_0. destruct (Rltb_spec x 0).
  - rewrite Rabs_left; lra.
  - rewrite Rabs_right; lra.
Qed.

Lemma MS_pos d : In d MS -> (1 <= d)%Z.
Proof. assert (H : Forall (fun d => (1 <= d)%Z) MS) by (unfold MS; repeat (constructor; [lia|]); constructor). rewrite Forall_forall in H. apply H. Qed.
Lemma degree_ok h : 0 < h <= 101 / 100 * h0 ->
  exists z, toint (sqrt ((3 + h * rho) / (353 / 1000)) + 1) = Ok z /\ (2 <= z <= 152)%Z /\ h * rho <= 353 / 1000 * (IZR z) ^ 2 - 3 /\
    forall m, (1 <= m)%Z -> h * rho < 353 / 1000 * (IZR (m + 4)) ^ 2 - 3 -> (z <= m + 4)%Z.
Proof.
  intros Hh.
  assert (Hm : h * rho <= 101 / 100 * h0 * rho) by (apply Rmult_le_compat_r; lra).
  assert (Hp : 0 <= h * rho) by (apply Rmult_le_pos; lra).
  set (x := (3 + h * rho) / (353 / 1000)).
  assert (Hx : 8 <= x < 152 ^ 2).
  { unfold x. split.
    - apply Rmult_le_reg_r with (353 / 1000); [lra|]. unfold Rdiv at 2. rewrite Rmult_assoc, Rinv_l by lra. lra.
    - apply Rmult_lt_reg_r with (353 / 1000); [lra|]. unfold Rdiv at 1. rewrite Rmult_assoc, Rinv_l by lra. lra. }
  assert (Hs : 1 < sqrt x < 152).
  { split.
    - rewrite <- sqrt_1. apply sqrt_lt_1; lra.
    - apply Rlt_le_trans with (sqrt (152 ^ 2)); [apply sqrt_lt_1; lra|]. rewrite sqrt_pow2 by lra. lra. }
  destruct (toint_ok (sqrt x + 1)) as (z & Hz & Hz1); [lra|].
  exists z. split; [exact Hz|]. split.
  - split; [apply Z.lt_succ_r; apply lt_IZR; unfold Z.succ; rewrite plus_IZR; apply Rlt_trans with (sqrt x + 1); lra|].
    apply Z.lt_succ_r. apply lt_IZR. change (IZR (Z.succ 152)) with 153. lra.
  - assert (Hsq : x <= IZR z ^ 2).
    { rewrite <- (sqrt_sqrt x) by lra. replace (IZR z ^ 2) with (IZR z * IZR z) by ring. apply Rmult_le_compat; lra. }
    assert (Ex : 3 + h * rho = 353 / 1000 * x) by (unfold x; field). split; [lra|].
    intros m Hm1 Hm2. assert (Hm3 : 1 <= IZR m) by (apply (IZR_le 1); exact Hm1).
    rewrite plus_IZR in Hm2.
    assert (Hs2 : sqrt x < IZR m + 4).
    { rewrite <- (sqrt_pow2 (IZR m + 4)) by lra. apply sqrt_lt_1; [lra|apply pow2_ge_0|]. lra. }
    assert (z < m + 4 + 1)%Z; [|lia]. apply lt_IZR. rewrite !plus_IZR. lra.
Qed.

Lemma body_ok st : inv st -> v_t st < tend ->
  wp (body st) (fun st' => inv st' /\ (v_t st' = tend \/ v_t st' = v_t st + h0)).
Proof.
  intros I Ht. destruct I as [Ile Ih Imore _ Ileads Ifine Icach Istag Igood Ifol].
  destruct (Imore Ht) as (Hrem & Hlen & Hall). clear Imore.
  assert (P15 : 0 < 1 / 10 ^ 15) by lra. assert (P13 : 0 < 1 / 10 ^ 13) by lra.
  unfold lv_body. rewrite !fabs_R. cbn [nsub nleb Rnum].
  replace (@nlit Rnum 101 (-2)) with (101 / 100) by (cbn [nlit Rnum]; rewrite Rlit_neg; change (10 ^ 2)%Z with 100%Z; lra).
  rewrite (Rabs_right (tend - v_t st)) by lra.
  match goal with |- context [@nltb Rnum ?x (@nmul Rnum (nlit 10 0) r4_uround)] => set (he := x) end.
  assert (Hhe : (he = tend - v_t st /\ tend - v_t st <= 101 / 100 * h0) \/ (he = h0 /\ 101 / 100 * h0 < tend - v_t st)).
  { unfold he. change (@nmul Rnum (101 / 100) (v_h st)) with (101 / 100 * v_h st). destruct (Rleb_spec (tend - v_t st) (101 / 100 * v_h st)); destruct Ih as [E1|[E1 E2]]; [left|left|right|]; lra. }
  assert (Hpos : 1 / 10 ^ 15 <= he /\ 0 < he <= 101 / 100 * h0 /\ v_t st + he <= tend) by lra.
  clearbody he.
  replace (nltb (n := Rnum) he (@nmul Rnum (nlit 10 0) r4_uround)) with false.
  2:{ symmetry. unfold r4_uround. cbn [nltb nmul nlit Rnum]. rewrite Rlit_0, Rlit_neg. change (10 ^ 16)%Z with 10000000000000000%Z.
      destruct (Rltb_spec he (10 * (1 / 10000000000000000))); [lra|reflexivity]. }
  cbv iota.
  destruct (degree_ok he ltac:(tauto)) as (z & Hz & Hzb & Hst & Hleast).
  replace (@nadd Rnum _ _) with (sqrt ((3 + he * rho) / (353 / 1000)) + 1).
  2:{ cbn [nlit nsqrt nadd nmul ndiv Rnum]. rewrite !Rlit_0, Rlit_neg. change (10 ^ 3)%Z with 1000%Z. reflexivity. }
  rewrite Hz. cbn [bind]. destruct (Z.ltb_spec 152 z); [lia|].
  set (m := (Z.max z 5 - 4)%Z). assert (Hm : (1 <= m <= 148)%Z) by lia.
  apply wp_bind. apply wp_mono with (fun x => let '(d, i, r, sg) := x in (m <= d)%Z /\ (In d MS /\ forall d', In d' MS -> (m <= d')%Z -> (d <= d')%Z) /\ right_block d i r /\ sg = Z.max (d + 4) (v_stages st)).
  { destruct (Z.eqb_spec m (v_mdego st)) as [Em|Em].
    - cbn [wp]. destruct Icach as [Ez|Hb]; [lia|]. rewrite <- Em in Hb. split; [lia|]. split; [|split; [exact Hb|lia]]. split; [|intros; lia].
      destruct Hb as (B1 & B2 & _). rewrite <- B2. apply nth_In. change (List.length MS) with 50%nat. lia.
    - apply wp_bind. eapply wp_mono; [apply selection; exact Hm|]. intros [[d i] r] [(S1 & S2 & S4) S3]. cbn [wp]. repeat split; try assumption; try apply S3.
      destruct (Z.ltb_spec (v_stages st) (d + 4)); lia. }
  intros [[[d i] r] sg] (Hd1 & (Hd2 & Hd4) & Hd3 & Hsg). cbv beta iota.
  apply wp_bind. eapply wp_mono; [apply kern_ok; [exact Hd3|exact Igood]|]. intros w' [Hg Hw]. cbn [wp].
  assert (Hdb := right_block_bounds _ _ _ Hd3).
  assert (Hfine : fine (v_t st, he, d)).
  { split; [tauto|]. split; [tauto|]. split; [exact Hd2|]. split; [|intros d' M1 M2; apply Hd4; [exact M1|]; assert (M3 := MS_pos d' M1); assert (M4 := Hleast d' M3 M2); lia].
    unfold stable_degree. eapply Rle_trans; [exact Hst|].
    apply Rplus_le_compat_r. apply Rmult_le_compat_l; [lra|]. apply pow_incr. split; [apply IZR_le; lia|]. apply IZR_le. lia. }
  cbn [nltb nadd nsub Rnum].
  split; [|cbn [v_t]; lra].
  constructor; cbn [v_t v_h v_hist v_mdego v_mp1 v_mp2 v_stages v_w].
  - lra.
  - destruct (Rltb_spec tend (v_t st + he + he)) as [X|X].
    + right. split; [reflexivity|]. destruct Hhe as [[E1 E2]|[E1 E2]]; rewrite E1 in *; lra.
    + left. destruct Hhe as [[E1 E2]|[E1 E2]]; [lra|exact E1].
  - intros Hlt. destruct Hhe as [[E1 E2]|[E1 E2]]; [lra|]. rewrite E1 in *. split; [lra|]. split.
    + cbn [List.length]. rewrite S_INR. lra.
    + constructor; [reflexivity|exact Hall].
  - intros _. right. do 2 eexists. split; [reflexivity|]. split; [exact Hall|lra].
  - cbn [rev]. apply leads_snoc. exact Ileads.
  - constructor; assumption.
  - right. exact Hd3.
  - destruct Istag as [G1 G2]. cbn [map fold_right]. rewrite <- G1. unfold deg4 at 1. cbn [snd]. split; [exact Hsg|right; lia].
  - exact Hg.
  - cbn [rev]. econstructor; eassumption.
Qed.

Lemma loop_ok n : forall st, inv st -> tend - v_t st <= INR n * h0 -> wp (loop n st) (fun st' => inv st' /\ v_t st' = tend).
Proof.
  assert (P13 : 0 < 1 / 10 ^ 13) by lra.
  induction n as [|n IH]; intros st I Hn; cbn [lv_loop]; cbn [nltb Rnum]; destruct (Rltb_spec (v_t st) tend) as [Ht|Ht].
  - exfalso. change (INR 0) with 0 in Hn. lra.
  - cbn [wp]. split; [exact I|]. pose proof (iv_le st I). lra.
  - apply wp_bind. eapply wp_mono; [apply body_ok; assumption|]. intros st' [I' Hx]. apply IH; [exact I'|].
    rewrite S_INR in Hn. assert (0 <= INR n) by apply pos_INR. assert (0 <= INR n * h0) by (apply Rmult_le_pos; lra).
    destruct Hx as [E1|E1]; rewrite E1; lra.
  - cbn [wp]. split; [exact I|]. pose proof (iv_le st I). lra.
Qed.

Hypothesis Ht0 : 1 / 10 ^ 15 <= tend - t0.
Lemma driver_ok mp1 mp2 : good w0 ->
  exists fuel st, rock4l (K := Rnum) toint kern tend rho false fuel w0 t0 h0 mp1 mp2 = Ok st /\ v_t st = tend /\
    good_run rho t0 h0 tend (v_hist st) /\
    v_stages st = fold_right Z.max 0%Z (map deg4 (v_hist st)) /\ good (v_w st) /\ follows step (rev (v_hist st)) w0 (v_w st).
Proof.
  intros Hg. assert (P13 : 0 < 1 / 10 ^ 13) by lra. assert (P15 : 0 < 1 / 10 ^ 15) by lra.
  set (st0 := mkV (K := Rnum) t0 h0 0%Z mp1 mp2 0%Z w0 nil).
  assert (I0 : inv st0).
  { constructor; cbn; try lra; auto. 
    - intros _. split; [lra|]. split; [ring|constructor].
    - constructor. }
  set (n := Z.to_nat (up ((tend - t0) / h0))).
  assert (Hq : 0 < (tend - t0) / h0) by (apply Rdiv_lt_0_compat; lra).
  assert (Hn : tend - v_t st0 <= INR n * h0).
  { cbn [v_t st0]. destruct (archimed ((tend - t0) / h0)) as [A1 _]. unfold n. rewrite INR_IZR_INZ, Z2Nat.id by (apply le_IZR; lra).
    replace (tend - t0) with ((tend - t0) / h0 * h0) at 1 by (field; lra). apply Rmult_le_compat_r; lra. }
  pose proof (loop_ok n st0 I0 Hn) as HL. destruct (lv_loop (K := Rnum) toint kern tend rho n st0) as [st| | |] eqn:E; try contradiction.
  destruct HL as [I Et]. exists n, st. unfold rock4l.
  assert (Hx : exists x l, v_hist st = x :: l /\ Forall len_ok l /\ INR (List.length l) * h0 < tend - t0).
  { destruct (iv_done st I Et) as [X|X]; [|exact X]. pose proof (iv_leads st I) as Hl. rewrite X in Hl. cbn in Hl. lra. }
  destruct I as [Ile Ih Imore _ Ileads Ifine Icach Istag Igood Ifol]. destruct Hx as (x & l & E1 & E2 & E3).
  rewrite Et in Ileads. split; [exact E|]. split; [exact Et|]. split; [|split; [apply Istag|split; assumption]].
  split; [exact Ileads|]. split; [exact Ifine|]. split; [exists x, l; auto|].
  rewrite E1. cbn [List.length]. rewrite S_INR. apply Rplus_lt_compat_r. apply Rmult_lt_reg_r with h0; [lra|].
  unfold Rdiv. rewrite Rmult_assoc, Rinv_l by lra. rewrite Rmult_1_r. exact E3.
Qed.
End Driver.

Lemma follows_map {V W} (s1 : R -> Z -> V -> V -> Prop) (s2 : R -> Z -> W -> W -> Prop) (g : V -> W) l v v' :
  (forall h d x x', s1 h d x x' -> s2 h d (g x) (g x')) -> follows s1 l v v' -> follows s2 l (g v) (g v').
Proof. intros H F. induction F; [constructor|]. econstructor; [exact IHF|]. apply H. assumption. Qed.
Lemma applications_snoc l t h d : applications (l ++ [(t, h, d)]) = (applications l + (d + 4))%Z.
Proof. unfold applications. induction l as [|x l IH]; cbn [List.app fold_right snd]; [lia|]. rewrite IH. lia. Qed.
Lemma applications_rev l : applications (rev l) = applications l.
Proof. induction l as [|[[t h] d] l IH]; [reflexivity|]. cbn [rev]. rewrite applications_snoc, IH. unfold applications. cbn [fold_right snd]. lia. Qed.
Lemma follows_count {W} (s : R -> Z -> W -> W -> Prop) (c k : W -> Z) l w w' :
  (forall h d x x', s h d x x' -> c x' = (c x + (d + 4) + 1)%Z /\ k x' = (k x + 1)%Z) -> follows s l w w' ->
  c w' = (c w + applications l + Z.of_nat (List.length l))%Z /\ k w' = (k w + Z.of_nat (List.length l))%Z.
Proof.
  intros H F. induction F; [cbn; lia|]. specialize (H _ _ _ _ H0). rewrite applications_snoc, app_length. cbn [List.length]. lia.
Qed.

(* the whole of operator() *)
Section Runs.
Variable Sg : Type.
Variable A : vec Rnum -> vec Rnum.
Hypothesis HA : linear A.
Variable opL : Sg -> vec Rnum -> vec Rnum -> R -> R -> Sg * vec Rnum.
Variables RECF FPA FPB : Z -> R.
Variable Rel : Z -> Sg -> Prop.
Variable toint : R -> out Z.
Variables tend rho t0 h0 : R.
Variables (y b k1 g0 g1 g2 mp1 mp2 : Z) (e0 : lest (K := Rnum) Sg).
Definition reported (st : lst (K := Rnum) (lest (K := Rnum) Sg)) : Prop :=
  l_nsteps (v_w st) = Z.of_nat (List.length (v_hist st)) /\ v_stages st = fold_right Z.max 0%Z (map deg4 (v_hist st)) /\
  l_funccal (v_w st) = (applications (v_hist st) + l_nsteps (v_w st))%Z /\ Rel (applications (v_hist st)) (l_f (v_w st)).
Hypothesis Htoint : truncates toint.
Hypothesis Hrho : 0 <= rho.
Hypothesis Hh0 : 1 / 10 ^ 13 <= h0.
Hypothesis Hdeg : 101 / 100 * h0 * rho + 3 < 353 / 1000 * 152 ^ 2.
Hypothesis Ht0 : 1 / 10 ^ 15 <= tend - t0.
Hypothesis HR0 : Rel 0 (l_f e0).
Hypothesis HL : doc_L Sg A opL.
Hypothesis RelL : forall n s x u a b, Rel n s -> Rel (n + 1)%Z (fst (opL s x u a b)).
Let cstep (f : vec Rnum -> vec Rnum) (h : R) (d : Z) (e e' : lest (K := Rnum) Sg) : Prop :=
  (exists i r, right_block d i r /\ l_H e' y = rock4_step RECF FPA FPB f d i r h (l_H e y)) /\
  l_funccal e' = (l_funccal e + (d + 4) + 1)%Z /\ l_nsteps e' = (l_nsteps e + 1)%Z.
Let cgood (e : lest (K := Rnum) Sg) : Prop := Rel (l_funccal e - l_nsteps e)%Z (l_f e).
Lemma run_reported f st : cgood (v_w st) -> follows (cstep f) (rev (v_hist st)) (l_init e0) (v_w st) ->
  v_stages st = fold_right Z.max 0%Z (map deg4 (v_hist st)) ->
  rock4_steps RECF FPA FPB f (rev (v_hist st)) (l_H e0 y) (l_H (v_w st) y) /\ reported st.
Proof.
  intros Hg HF Hs. split.
  - unfold rock4_steps. change (l_H e0 y) with ((fun e => l_H e y) (l_init e0)). change (l_H (v_w st) y) with ((fun e => l_H e y) (v_w st)).
    eapply follows_map; [|exact HF]. intros h d x x' [H _]. exact H.
  - apply (follows_count (cstep f) l_funccal l_nsteps) in HF; [|intros h d x x' [_ H]; exact H].
    destruct HF as [F1 F2]. rewrite applications_rev, rev_length in *. cbn [l_init l_funccal l_nsteps] in *.
    unfold reported. split; [lia|]. split; [exact Hs|]. split; [lia|]. unfold cgood in Hg.
    replace (applications (v_hist st)) with (l_funccal (v_w st) - l_nsteps (v_w st))%Z by lia. exact Hg.
Qed.
Lemma linear_run (opLc : Sg -> vec Rnum -> vec Rnum -> R -> R -> R -> Sg * vec Rnum) : doc_Lc Sg A opLc -> (forall n s x u a b c, Rel n s -> Rel (n + 1)%Z (fst (opLc s x u a b c))) -> NoDup [y; k1; g0; g1; g2] ->
  exists fuel st, rock4l (K := Rnum) toint (kernel1 opL opLc RECF FPA FPB y k1 g0 g1 g2) tend rho false fuel (l_init e0) t0 h0 mp1 mp2 = Ok st /\ v_t st = tend /\
    good_run rho t0 h0 tend (v_hist st) /\
    rock4_steps RECF FPA FPB A (rev (v_hist st)) (l_H e0 y) (l_H (v_w st) y) /\ reported st.
Proof.
  intros HLc RLc HN.
  destruct (driver_ok (lest (K := Rnum) Sg) toint (kernel1 (K := Rnum) opL opLc RECF FPA FPB y k1 g0 g1 g2) tend rho t0 h0 Htoint cgood (cstep A)) with (w0 := l_init e0) (mp1 := mp1) (mp2 := mp2)
    as (fuel & st & E & Et & Hr & Hs & Hg & Hf); try assumption.
  - intros d i r e h Hb Hg. eapply wp_mono; [apply (kernel1_spec Sg A HA opL HL RECF FPA FPB Rel RelL opLc HLc RLc y k1 g0 g1 g2 d i r e h _ Hb HN Hg)|].
    intros e' (X1 & X2 & X3 & X4). split; [|split; [exists i, r; auto|auto]]. unfold cgood. rewrite X3, X4.
    replace (l_funccal e + (d + 4) + 1 - (l_nsteps e + 1))%Z with (l_funccal e - l_nsteps e + (d + 4))%Z by lia. exact X2.
  - exists fuel, st. repeat (split; [assumption|]). apply run_reported; assumption.
Qed.
Lemma affine_run (opA : Sg -> vec Rnum -> vec Rnum -> R -> R -> vec Rnum -> Sg * vec Rnum) (opAc : Sg -> vec Rnum -> vec Rnum -> R -> R -> R -> vec Rnum -> Sg * vec Rnum) : imp_A Sg A opA -> imp_Ac Sg A opAc -> (forall n s x u a b g, Rel n s -> Rel (n + 1)%Z (fst (opA s x u a b g))) ->
  (forall n s x u a b c g, Rel n s -> Rel (n + 1)%Z (fst (opAc s x u a b c g))) -> NoDup [y; b; k1; g0; g1; g2] ->
  exists fuel st, rock4l (K := Rnum) toint (kernel2 opL opA opAc RECF FPA FPB y b k1 g0 g1 g2) tend rho false fuel (l_init e0) t0 h0 mp1 mp2 = Ok st /\ v_t st = tend /\
    good_run rho t0 h0 tend (v_hist st) /\
    rock4_steps RECF FPA FPB (affine_rhs A (l_H e0 b)) (rev (v_hist st)) (l_H e0 y) (l_H (v_w st) y) /\ reported st.
Proof.
  intros HAf HAc RA RAc HN.
  destruct (driver_ok (lest (K := Rnum) Sg) toint (kernel2 (K := Rnum) opL opA opAc RECF FPA FPB y b k1 g0 g1 g2) tend rho t0 h0 Htoint
      (fun e => cgood e /\ l_H e b = l_H e0 b) (cstep (affine_rhs A (l_H e0 b)))) with (w0 := l_init e0) (mp1 := mp1) (mp2 := mp2)
    as (fuel & st & E & Et & Hr & Hs & [Hg _] & Hf); try assumption.
  - intros d i r e h Hb [Hg HB]. eapply wp_mono; [apply (kernel2_spec Sg A HA opL HL RECF FPA FPB Rel RelL opA opAc HAf HAc RA RAc y b k1 g0 g1 g2 d i r e h _ Hb HN Hg)|].
    intros e' (X1 & XB & X2 & X3 & X4). rewrite HB in X1, XB. split; [split; [|exact XB]|split; [exists i, r; auto|auto]]. unfold cgood. rewrite X3, X4.
    replace (l_funccal e + (d + 4) + 1 - (l_nsteps e + 1))%Z with (l_funccal e - l_nsteps e + (d + 4))%Z by lia. exact X2.
  - split; [exact HR0|reflexivity].
  - exists fuel, st. repeat (split; [assumption|]). apply run_reported; assumption.
Qed.
End Runs.

(* the documented contract: g is added once, without factor *)
Section Documented.
Variables RECF FPA FPB : Z -> R.
Definition one_op (s : unit) (x u : vec Rnum) (a b : R) : unit * vec Rnum := (tt, fun i => a * 0 + b * u i).
Definition one_opA (s : unit) (x u : vec Rnum) (a b : R) (g : vec Rnum) : unit * vec Rnum := (tt, fun i => a * 0 + b * u i + g i).
Definition one_opAc (s : unit) (x u : vec Rnum) (a b c : R) (g : vec Rnum) : unit * vec Rnum := (tt, fun i => a * 0 + b * x i + c * u i + g i).
Definition zeroA (x : vec Rnum) : vec Rnum := fun _ => 0.
(* y=0 is array 0, b=1 is array 1 *)
Definition doc_start : lest (K := Rnum) unit := mkL (fun p _ => if (p =? 1)%Z then 1 else 0) tt 0 0.
Lemma documented_wrong h : h * RECF 0%Z <> 1 ->
  exists e', kernel2 (K := Rnum) one_op one_opA one_opAc RECF FPA FPB 0 1 2 3 4 5 1 1 1 doc_start h = Ok e' /\
    l_H e' 0%Z 0%Z <> rock4_step RECF FPA FPB (affine_rhs zeroA (l_H doc_start 1%Z)) 1 1 1 h (l_H doc_start 0%Z) 0%Z.
Proof.
  intros Hne. eexists. split; [reflexivity|]. cbn [l_H doc_start]. unfold rock4_step.
  rewrite (fy_horner zeroA) by (intros a b x y; unfold zeroA; cbn; extensionality i; ring).
  unfold Q4, Q3, Q2, Q1, affine_rhs, zeroA, stage, hset. cbn. change (Pos.to_nat 1) with 1%nat. cbn [stages]. unfold row. cbn. rewrite Rlit_0.
  intros X. apply Hne. ring_simplify in X. lra.
Qed.
Lemma documented_ops : linear zeroA /\ doc_L unit zeroA one_op /\ doc_A unit zeroA one_opA /\ doc_Ac unit zeroA one_opAc.
Proof.
  split; [intros a b x y; extensionality i; unfold zeroA; change (0 = a * 0 + b * 0); ring|]. repeat split.
Qed.
End Documented.

(* an object which counts the applications of A *)
Section Counting.
Variable A : vec Rnum -> vec Rnum.
Definition cnt_L (s : Z) (x u : vec Rnum) (a b : R) : Z * vec Rnum := ((s + 1)%Z, fun i => a * A x i + b * u i).
Definition cnt_Lc (s : Z) (x u : vec Rnum) (a b c : R) : Z * vec Rnum := ((s + 1)%Z, fun i => a * A x i + b * x i + c * u i).
Lemma counting_overcount : linear A -> forall (RECF FPA FPB : Z -> R) (toint : R -> out Z) tend rho t0 h0 y k1 g0 g1 g2 mp1 mp2 (e0 : lest (K := Rnum) Z),
  truncates toint -> 0 <= rho -> 1 / 10 ^ 13 <= h0 -> 101 / 100 * h0 * rho + 3 < 353 / 1000 * 152 ^ 2 -> 1 / 10 ^ 15 <= tend - t0 -> NoDup [y; k1; g0; g1; g2] -> l_f e0 = 0%Z ->
  exists fuel st, rock4l (K := Rnum) toint (kernel1 cnt_L cnt_Lc RECF FPA FPB y k1 g0 g1 g2) tend rho false fuel (l_init e0) t0 h0 mp1 mp2 = Ok st /\
    l_funccal (v_w st) = (l_f (v_w st) + l_nsteps (v_w st))%Z /\ (1 <= l_nsteps (v_w st))%Z.
Proof.
  intros HA RECF FPA FPB toint tend rho t0 h0 y k1 g0 g1 g2 mp1 mp2 e0 H1 H2 H3 H4 H5 HN HF.
  destruct (linear_run Z A HA cnt_L RECF FPA FPB (fun n s => n = s) toint tend rho t0 h0 y k1 g0 g1 g2 mp1 mp2 e0) with (opLc := cnt_Lc)
    as (fuel & st & E & _ & (_ & _ & (x & l & Hx & _) & _) & _ & R1 & _ & R2 & R3); try assumption.
  - symmetry. exact HF.
  - intros s x u a b. reflexivity.
  - intros n s x u a b ->. reflexivity.
  - intros s x u a b c. reflexivity.
  - intros n s x u a b c ->. reflexivity.
  - exists fuel, st. split; [exact E|]. split; [rewrite R2, R3; reflexivity|]. rewrite R1, Hx. cbn [List.length]. lia.
Qed.
End Counting.
Definition floor_R (r : R) : out Z := Ok (Int_part r).
Lemma floor_truncates : truncates floor_R.
Proof. intros r _. exists (Int_part r). split; [reflexivity|]. destruct (base_Int_part r). lra. Qed.
Lemma documented_contract_fails : forall (RECF FPA FPB : Z -> R) h, h * RECF 0%Z <> 1 ->
  exists (A : vec Rnum -> vec Rnum) opL opA opAc (e e' : lest (K := Rnum) unit),
    linear A /\ doc_L unit A opL /\ doc_A unit A opA /\ doc_Ac unit A opAc /\
    kernel2 (K := Rnum) opL opA opAc RECF FPA FPB 0 1 2 3 4 5 1 1 1 e h = Ok e' /\
    l_H e' 0%Z 0%Z <> rock4_step RECF FPA FPB (affine_rhs A (l_H e 1%Z)) 1 1 1 h (l_H e 0%Z) 0%Z.
Proof.
  intros RECF FPA FPB h Hne. destruct (documented_wrong RECF FPA FPB h Hne) as (e' & E & N). destruct documented_ops as (H1 & H2 & H3 & H4).
  exists zeroA, one_op, one_opA, one_opAc, doc_start, e'. auto 12.
Qed.
