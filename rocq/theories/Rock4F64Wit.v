(* Runs of the ROCK4 drivers in IEEE double precision that go wrong. *)
From Coq Require Import Reals Lra.
From Flocq Require Import Core BinarySingleNaN.
From Verif Require Import Base HessModel Spec VecFun CMacros Rock4Model Rock4Spec Rock4Proofs Rock4LModel F64 Rock4F64.
Open Scope R_scope.

(* ---- the bodies of the loops, any arithmetic ---- *)
Section Gen.
Context {K : num}.
Variable W : Type.
Variable toint : K -> out Z.
Variable kern : Z -> Z -> Z -> W -> K -> out (W * K).
Variable accept : W -> W.
Variable rho : W -> W * K.
Variable tend : K.
Definition h_cut (st : dst (K := K) W) : K := if nleb (mABS_diff tend (u_t st)) (nlit 101 (-2) * u_h st)%num then mABS_diff tend (u_t st) else u_h st.
Definition next_h (t h fm err : K) : K :=
  let hnew := (h * smin fm (smax (nlit 1 (-1)) (nlit 8 (-1) * nsqrt (nsqrt (nlit 1 0 / err)))))%num in
  if nleb (mABS_diff tend (t + h)%num) (nlit 11 (-1) * hnew)%num then mABS_diff tend (t + h)%num else hnew.
Definition d_arg (h eig : K) : K := (nsqrt ((nlit 3 0 + h * eig) / nlit 353 (-3)) + nlit 1 0)%num.
Definition d_152 (eig : K) : K := (nlit 8 (-1) * (nlit 152 0 * nlit 152 0 * nlit 353 (-3) - nlit 3 0) / eig)%num.
Lemma body_acc (st : dst (K := K) W) h w eig m h2 m2 d i r w2 err :
  h_cut st = h -> nltb h (nlit 10 0 * r4_uround)%num = false ->
  (if (u_nrho st =? 0)%Z then rho (u_w st) else (u_w st, u_eig st)) = (w, eig) ->
  toint (d_arg h eig) = Ok m -> (if (152 <? m)%Z then (d_152 eig, 152%Z) else (h, m)) = (h2, m2) ->
  ((Z.max m2 5 - 4 = u_mdego st /\ (d, i, r) = (u_mdego st, u_mp1 st, u_mp2 st)) \/
   (Z.max m2 5 - 4 <> u_mdego st /\ mdegre (Z.max m2 5 - 4) (u_mp1 st) = Ok (d, i, r)))%Z ->
  kern d i r w h2 = Ok (w2, err) -> nltb err (nlit 1 0) = true -> u_reject st = false -> nltb (nlit 0 0) (u_errp st) = false ->
  exists st', d_body toint kern accept rho tend st = Ok st' /\ u_t st' = (u_t st + h2)%num /\ u_h st' = next_h (u_t st) h2 (u_facmax st) err /\
    u_errp st' = err /\ u_facmax st' = nlit 2 0 /\ u_eig st' = eig /\ u_reject st' = false /\ u_mdego st' = d /\ u_mp1 st' = i /\ u_mp2 st' = r /\ u_w st' = accept w2.
Proof.
  intros E1 E2 E3 E4 E5 E6 E7 E8 E9 E10. unfold d_body. cbv zeta.
  change (if nleb (mABS_diff tend (u_t st)) (nlit 101 (-2) * u_h st)%num then mABS_diff tend (u_t st) else u_h st) with (h_cut st).
  rewrite E1, E2, E3. cbv beta iota. change (nsqrt ((nlit 3 0 + h * eig) / nlit 353 (-3)) + nlit 1 0)%num with (d_arg h eig). rewrite E4. cbn [bind].
  change (nlit 8 (-1) * (nlit 152 0 * nlit 152 0 * nlit 353 (-3) - nlit 3 0) / eig)%num with (d_152 eig). rewrite E5. cbv beta iota.
  assert (E6' : exists sg, (if (Z.max m2 5 - 4 =? u_mdego st)%Z then Ok ((Z.max m2 5 - 4)%Z, u_mp1 st, u_mp2 st, u_stages st)
     else '(mdeg0, mp1, mp2) <- mdegre (Z.max m2 5 - 4) (u_mp1 st);;
      Ok (mdeg0, mp1, mp2, if (u_stages st <? mdeg0 + 4)%Z then (mdeg0 + 4)%Z else u_stages st)) = Ok (d, i, r, sg)).
  { destruct E6 as [[Q1 Q2]|[Q1 Q2]].
    - injection Q2 as -> -> ->. rewrite Q1, Z.eqb_refl. eexists. reflexivity.
    - destruct (Z.eqb_spec (Z.max m2 5 - 4) (u_mdego st)); [contradiction|]. rewrite Q2. cbn [bind]. eexists. reflexivity. }
  destruct E6' as [sg ->]. cbn [bind]. rewrite E7. cbn [bind]. rewrite E8, E9, E10. cbn [andb negb].
  eexists. split; [reflexivity|]. cbn [u_t u_h u_errp u_facmax u_eig u_reject u_mdego u_mp1 u_mp2 u_w]. repeat split.
Qed.
Lemma body_throw (st : dst (K := K) W) h : h_cut st = h -> nltb h (nlit 10 0 * r4_uround)%num = true ->
  d_body toint kern accept rho tend st = Throw "Rock4: step too small".
Proof.
  intros E1 E2. unfold d_body. cbv zeta.
  change (if nleb (mABS_diff tend (u_t st)) (nlit 101 (-2) * u_h st)%num then mABS_diff tend (u_t st) else u_h st) with (h_cut st).
  rewrite E1, E2. reflexivity.
Qed.
Lemma body_ub (st : dst (K := K) W) h w eig s : h_cut st = h -> nltb h (nlit 10 0 * r4_uround)%num = false ->
  (if (u_nrho st =? 0)%Z then rho (u_w st) else (u_w st, u_eig st)) = (w, eig) -> toint (d_arg h eig) = UB s ->
  d_body toint kern accept rho tend st = UB s.
Proof.
  intros E1 E2 E3 E4. unfold d_body. cbv zeta.
  change (if nleb (mABS_diff tend (u_t st)) (nlit 101 (-2) * u_h st)%num then mABS_diff tend (u_t st) else u_h st) with (h_cut st).
  rewrite E1, E2, E3. cbv beta iota. change (nsqrt ((nlit 3 0 + h * eig) / nlit 353 (-3)) + nlit 1 0)%num with (d_arg h eig). rewrite E4. reflexivity.
Qed.
End Gen.
Section GenL.
Context {K : num}.
Variable W : Type.
Variable toint : K -> out Z.
Variable kern : Z -> Z -> Z -> W -> K -> out W.
Variable tend eigmax : K.
Definition hl_cut (st : lst (K := K) W) : K := if nleb (fabs (tend - v_t st)%num) (nlit 101 (-2) * v_h st)%num then fabs (tend - v_t st)%num else v_h st.
Lemma lbody_ok (st : lst (K := K) W) h m d i r w2 : hl_cut st = h -> nltb h (nlit 10 0 * r4_uround)%num = false ->
  toint (d_arg h eigmax) = Ok m -> (m <= 152)%Z ->
  ((Z.max m 5 - 4 = v_mdego st /\ (d, i, r) = (v_mdego st, v_mp1 st, v_mp2 st)) \/
   (Z.max m 5 - 4 <> v_mdego st /\ mdegre (Z.max m 5 - 4) (v_mp1 st) = Ok (d, i, r)))%Z ->
  kern d i r (v_w st) h = Ok w2 ->
  exists st', lv_body toint kern tend eigmax st = Ok st' /\ v_t st' = (v_t st + h)%num /\
    v_h st' = (if nltb tend (v_t st + h + h)%num then (tend - (v_t st + h))%num else h) /\ v_mdego st' = d /\ v_mp1 st' = i /\ v_mp2 st' = r /\ v_w st' = w2.
Proof.
  intros E1 E2 E4 E5 E6 E7. unfold lv_body. cbv zeta.
  change (if nleb (fabs (tend - v_t st)%num) (nlit 101 (-2) * v_h st)%num then fabs (tend - v_t st)%num else v_h st) with (hl_cut st).
  rewrite E1, E2. change (nsqrt ((nlit 3 0 + h * eigmax) / nlit 353 (-3)) + nlit 1 0)%num with (d_arg h eigmax). rewrite E4. cbn [bind].
  destruct (Z.ltb_spec 152 m); [lia|].
  assert (E6' : exists sg, (if (Z.max m 5 - 4 =? v_mdego st)%Z then Ok ((Z.max m 5 - 4)%Z, v_mp1 st, v_mp2 st, v_stages st)
     else '(mdeg0, mp1, mp2) <- mdegre (Z.max m 5 - 4) (v_mp1 st);;
      Ok (mdeg0, mp1, mp2, if (v_stages st <? mdeg0 + 4)%Z then (mdeg0 + 4)%Z else v_stages st)) = Ok (d, i, r, sg)).
  { destruct E6 as [[Q1 Q2]|[Q1 Q2]].
    - injection Q2 as -> -> ->. rewrite Q1, Z.eqb_refl. eexists. reflexivity.
    - destruct (Z.eqb_spec (Z.max m 5 - 4) (v_mdego st)); [contradiction|]. rewrite Q2. cbn [bind]. eexists. reflexivity. }
  destruct E6' as [sg ->]. cbn [bind]. rewrite E7. cbn [bind]. eexists. split; [reflexivity|]. repeat split.
Qed.
Lemma lbody_throw (st : lst (K := K) W) h : hl_cut st = h -> nltb h (nlit 10 0 * r4_uround)%num = true ->
  lv_body toint kern tend eigmax st = Throw "Rock4: step too small".
Proof.
  intros E1 E2. unfold lv_body. cbv zeta.
  change (if nleb (fabs (tend - v_t st)%num) (nlit 101 (-2) * v_h st)%num then fabs (tend - v_t st)%num else v_h st) with (hl_cut st).
  rewrite E1, E2. reflexivity.
Qed.
End GenL.
(* the kernel of Rock4-L with one stage completes: arrays 1 (y) to 5 *)
Lemma k1_ok {K : num} Sg opL opLc (RECF FPA FPB : Z -> K) (e : lest (K := K) Sg) (h : K) :
  exists e', kernel1 opL opLc RECF FPA FPB 1 2 3 4 5 1 1 1 e h = Ok e'.
Proof.
  unfold kernel1, l_recf, l_fpa, l_fpb, l_loop, callL. cbn.
  repeat match goal with |- context [opL ?a ?b ?c ?d ?x] => destruct (opL a b c d x); cbn end. eexists. reflexivity.
Qed.

Ltac sfeq := apply B2SF_inj; vm_compute; reflexivity.
(* ---- Rock4-L, linear problems: any operators, any tables, arrays 1 to 5 ---- *)
Section L.
Variable pow : f64 -> f64 -> f64.
Notation K := (F64 pow).
Variable Sg : Type.
Variable opL : Sg -> vec K -> vec K -> K -> K -> Sg * vec K.
Variable opLc : Sg -> vec K -> vec K -> K -> K -> K -> Sg * vec K.
Variables RECF FPA FPB : Z -> K.
Notation kern := (kernel1 (K := K) opL opLc RECF FPA FPB 1 2 3 4 5).
Lemma one_deg st m (d0 : (v_mdego st = 0 \/ v_mdego st = 1 /\ v_mp1 st = 1 /\ v_mp2 st = 1)%Z) : (m <= 5)%Z ->
  ((Z.max m 5 - 4 = v_mdego (K := K) (W := lest (K := K) Sg) st /\ (1, 1, 1)%Z = (v_mdego st, v_mp1 st, v_mp2 st)) \/
   (Z.max m 5 - 4 <> v_mdego st /\ mdegre (Z.max m 5 - 4) (v_mp1 st) = Ok (1, 1, 1)%Z))%Z.
Proof.
  intros Hm. replace (Z.max m 5 - 4)%Z with 1%Z by lia. destruct d0 as [E|(E1 & E2 & E3)].
  - right. rewrite E. split; [lia|reflexivity].
  - left. rewrite E1, E2, E3. split; reflexivity.
Qed.
Lemma l_past e0 : exists st, rock4l (K := K) f_toint kern (f_lit 9 (-1)) (f_lit 0 0) false 1 e0 (f_lit 6 (-2)) (f_lit 1 0) 0 0 = Ok st /\
  nltb (n := K) (f_lit 9 (-1)) (v_t st) = true.
Proof.
  unfold rock4l. set (s0 := mkV _ _ _ _ _ _ _ _). set (h := nsub (n := K) (f_lit 9 (-1)) (f_lit 6 (-2))).
  destruct (k1_ok Sg opL opLc RECF FPA FPB e0 (h : K)) as [e' Ee].
  destruct (lbody_ok (K := K) (lest Sg) f_toint kern (f_lit 9 (-1) : K) (f_lit 0 0 : K) s0 h 3 1 1 1 e') as (s1 & B & Et & _); [sfeq|vm_compute; reflexivity|vm_compute; reflexivity|lia|apply one_deg; [left; reflexivity|lia]|exact Ee|].
  cbn [lv_loop]. replace (nltb (n := K) (v_t s0) (f_lit 9 (-1))) with true by (vm_compute; reflexivity). rewrite B. cbn [bind].
  assert (Q : nltb (n := K) (v_t s1) (f_lit 9 (-1)) = false) by (rewrite Et; vm_compute; reflexivity). 
  exists s1. rewrite Q. split; [reflexivity|]. rewrite Et. vm_compute. reflexivity.
Qed.
Lemma l_throw e0 : rock4l (K := K) f_toint kern (f_lit 17 (-1)) (f_lit 0 0) false 2 e0 (f_lit 13 (-2)) (f_lit 2 0) 0 0 = Throw "Rock4: step too small".
Proof.
  unfold rock4l. set (s0 := mkV _ _ _ _ _ _ _ _). set (h := nsub (n := K) (f_lit 17 (-1)) (f_lit 13 (-2))).
  destruct (k1_ok Sg opL opLc RECF FPA FPB e0 (h : K)) as [e' Ee].
  destruct (lbody_ok (K := K) (lest Sg) f_toint kern (f_lit 17 (-1) : K) (f_lit 0 0 : K) s0 h 3 1 1 1 e') as (s1 & B & Et & Eh & _); [sfeq|vm_compute; reflexivity|vm_compute; reflexivity|lia|apply one_deg; [left; reflexivity|lia]|exact Ee|].
  cbn [lv_loop]. replace (nltb (n := K) (v_t s0) (f_lit 17 (-1))) with true by (vm_compute; reflexivity). rewrite B. cbn [bind].
  assert (Q : nltb (n := K) (v_t s1) (f_lit 17 (-1)) = true) by (rewrite Et; vm_compute; reflexivity). rewrite Q.
  rewrite (lbody_throw (K := K) (lest Sg) f_toint kern (f_lit 17 (-1) : K) (f_lit 0 0 : K) s1 _ eq_refl); [reflexivity|].
  unfold hl_cut. rewrite Et, Eh. vm_compute. reflexivity.
Qed.
(* t0 = 1e9, tend = 1e9+1, h0 = 1e-8 *)
Definition stuckL (st : lst (K := K) (lest (K := K) Sg)) : Prop := v_t st = f_lit 1 9 /\ v_h st = f_lit 1 (-8) /\ (v_mdego st = 0 \/ v_mdego st = 1 /\ v_mp1 st = 1 /\ v_mp2 st = 1)%Z.
Lemma l_stuck_step st : stuckL st -> exists st', lv_body (K := K) f_toint kern (f_lit 1000000001 0) (f_lit 0 0) st = Ok st' /\ stuckL st'.
Proof.
  intros (Et & Eh & Ed). destruct (k1_ok Sg opL opLc RECF FPA FPB (v_w st) (f_lit 1 (-8) : K)) as [e' Ee].
  destruct (lbody_ok (K := K) (lest Sg) f_toint kern (f_lit 1000000001 0 : K) (f_lit 0 0 : K) st (f_lit 1 (-8)) 3 1 1 1 e') as (s1 & B & Qt & Qh & Q1 & Q2 & Q3 & _).
  - unfold hl_cut. rewrite Et, Eh. sfeq.
  - vm_compute; reflexivity.
  - vm_compute; reflexivity.
  - lia.
  - apply one_deg; [exact Ed|lia].
  - exact Ee.
  - exists s1. split; [exact B|]. unfold stuckL. rewrite Qt, Qh, Q1, Q2, Q3, Et. split; [|split].
    + sfeq.
    + sfeq.
    + right. repeat split.
Qed.
Lemma l_stuck fuel : forall st, stuckL st -> lv_loop (K := K) f_toint kern (f_lit 1000000001 0) (f_lit 0 0) fuel st = Diverge.
Proof.
  induction fuel as [|n IH]; intros st Hs; cbn [lv_loop]; destruct Hs as (Et & Hr) eqn:Hq.
  all: replace (nltb (n := K) (v_t st) (f_lit 1000000001 0)) with true by (rewrite Et; vm_compute; reflexivity).
  - reflexivity.
  - destruct (l_stuck_step st Hs) as (s1 & B & H1). rewrite B. cbn [bind]. apply IH. exact H1.
Qed.
Lemma l_forever e0 fuel : rock4l (K := K) f_toint kern (f_lit 1000000001 0) (f_lit 0 0) false fuel e0 (f_lit 1 9) (f_lit 1 (-8)) 0 0 = Diverge.
Proof. unfold rock4l. apply l_stuck. repeat split. left; reflexivity. Qed.
End L.

(* ---- Rock4-NG: y' = 0, one component; any tables of numbers of at most 2^20 ---- *)
Definition isz (x : f64) : Prop := exists s, x = B754_zero s.
Definition sm (x : f64) : Prop := fin x /\ Rabs (v x) <= IZR (2 ^ 20).
Section NG.
Variable pow : f64 -> f64 -> f64.
Notation K := (F64 pow).
Lemma z_add (x y : f64) : isz x -> isz y -> isz (nadd (n := K) x y).
Proof. intros [[] ->] [[] ->]; eexists; reflexivity. Qed.
Lemma z_mul (a x : f64) : fin a -> isz x -> isz (nmul (n := K) a x).
Proof. intros Ha [s ->]. destruct a as [| | |]; try discriminate Ha; eexists; reflexivity. Qed.
Lemma bnd k a : (0 <= k <= 53)%Z -> Rabs a <= IZR (2 ^ k) -> v (f_of (- 2 ^ k)) <= a <= v (f_of (2 ^ k)).
Proof.
  intros Hk Ha. assert (2 ^ k <= 2 ^ 53)%Z by (apply Z.pow_le_mono_r; lia). assert (0 < 2 ^ k)%Z by (apply Z.pow_pos_nonneg; lia).
  rewrite !(fun z H => proj2 (f_of_val z H)) by lia. rewrite opp_IZR. apply Rabs_le_inv in Ha. lra.
Qed.
Lemma bnd' k a : (0 <= k <= 53)%Z -> v (f_of (- 2 ^ k)) <= a <= v (f_of (2 ^ k)) -> Rabs a <= IZR (2 ^ k).
Proof.
  intros Hk Ha. assert (2 ^ k <= 2 ^ 53)%Z by (apply Z.pow_le_mono_r; lia). assert (0 < 2 ^ k)%Z by (apply Z.pow_pos_nonneg; lia).
  rewrite !(fun z H => proj2 (f_of_val z H)) in Ha by lia. rewrite opp_IZR in Ha. apply Rabs_le. lra.
Qed.
Lemma sm_mul (h c : f64) : sm h -> sm c -> fin (nmul (n := K) h c) /\ Rabs (v (nmul (n := K) h c)) <= IZR (2 ^ 40).
Proof.
  intros [Fh Bh] [Fc Bc]. pose proof (Bmult_correct 53 1024 f64p f64e mode_NE h c) as C.
  assert (B : Rabs (v h * v c) <= IZR (2 ^ 40)).
  { rewrite Rabs_mult. replace (IZR (2 ^ 40)) with (IZR (2 ^ 20) * IZR (2 ^ 20)) by (rewrite <- mult_IZR; reflexivity). apply Rmult_le_compat; try apply Rabs_pos; assumption. }
  apply bnd in B; [|lia]. rewrite (between (f_of (- 2 ^ 40)) (f_of (2 ^ 40))) in C by exact B. destruct C as (C1 & C2 & _). cbn [nmul F64].
  split; [unfold fin in *; rewrite C2, Fh, Fc; reflexivity|]. rewrite C1. apply bnd'; [lia|]. split; [apply rnd_lower; apply B|apply rnd_upper; apply B].
Qed.
Lemma sm_sub (a b : f64) : fin a -> fin b -> Rabs (v a) <= IZR (2 ^ 40) -> Rabs (v b) <= IZR (2 ^ 40) -> fin (nsub (n := K) a b).
Proof.
  intros Fa Fb Ba Bb. destruct (sub_ok pow a b (f_of (- 2 ^ 41)) (f_of (2 ^ 41)) Fa Fb) as [A _]; [|exact A]. apply bnd; [lia|].
  replace (IZR (2 ^ 41)) with (IZR (2 ^ 40) + IZR (2 ^ 40)) by (rewrite <- plus_IZR; reflexivity). unfold Rminus. eapply Rle_trans; [apply Rabs_triang|]. rewrite Rabs_Ropp. lra.
Qed.
Variables RECF FPA FPB FPBE : Z -> K.
Hypothesis tabs : forall z, sm (RECF z) /\ sm (FPA z) /\ sm (FPB z) /\ sm (FPBE z).
Definition zf (s : unit) (x : vec K) : unit * vec K := (s, fun _ => B754_zero false).
Notation f0 := (fun (_ : vec K) (_ : Z) => (B754_zero false : car K)).
Variable h : f64.
Hypothesis smh : sm h.
Lemma G_zero r (y : vec K) : isz (y 0%Z) -> forall n, isz (fst (gs (K := K) RECF f0 (h : K) r y n) 0%Z) /\ isz (fst (gs (K := K) RECF f0 (h : K) r y (S n)) 0%Z).
Proof.
  intros Hy. assert (Z0 : isz (B754_zero false)) by (eexists; reflexivity).
  assert (S1 : isz (fst (gs (K := K) RECF f0 (h : K) r y 1) 0%Z)).
  { cbn [gs fst]. unfold v_x_lc1. apply z_add; [exact Hy|]. apply z_mul; [|exact Z0]. apply sm_mul; [exact smh|apply tabs]. }
  induction n as [|n [I1 I2]]; [split; [exact Hy|exact S1]|]. split; [exact I2|]. rewrite gs_SS. cbn [fst]. unfold v_lc3.
  apply z_add; [apply z_add|].
  - apply z_mul; [|exact Z0]. apply sm_mul; [exact smh|]. unfold c_mu. apply tabs.
  - apply z_mul; [|exact I2]. apply sm_sub.
    + reflexivity.
    + cbn [nopp F64]. unfold fin. rewrite is_finite_Bopp. unfold c_ka. apply (proj1 (tabs _)).
    + change (nlit (n := K) 1 0) with (f_of 1). rewrite (proj2 (small 1 eq_refl)). rewrite Rabs_R1. apply IZR_le. apply Z.leb_le. reflexivity.
    + cbn [nopp F64]. rewrite B2R_Bopp, Rabs_Ropp. unfold c_ka. eapply Rle_trans; [apply (proj1 (tabs _))|]. apply IZR_le. apply Z.leb_le. reflexivity.
  - apply z_mul; [|exact I1]. cbn [nopp F64]. unfold fin. rewrite is_finite_Bopp. unfold c_ka. apply (proj1 (tabs _)).
Qed.
Lemma y_zero i (g : vec K) : isz (g 0%Z) -> isz (x_y (K := K) FPA FPB f0 (h : K) i g 0%Z).
Proof.
  intros Hg. assert (Z0 : isz (B754_zero false)) by (eexists; reflexivity). unfold x_y, v_x_lc4, x_k1, x_k2, x_k3, x_k4.
  repeat apply z_add; [exact Hg| | | |]; (apply z_mul; [|exact Z0]; apply sm_mul; [exact smh|apply tabs]).
Qed.
Lemma err_zero i (g : vec K) : isz (g 0%Z) -> x_err (K := K) FPA FPB FPBE 1 (f_lit 1 0) (f_lit 1 0) f0 (h : K) i g = B754_zero false.
Proof.
  intros Hg. apply y_zero with (i := i) in Hg. assert (Z0 : isz (B754_zero false)) by (eexists; reflexivity).
  unfold x_err, rpp2. change (1 - 1)%Z with 0%Z. unfold for_. change (Z.to_nat (0 - 0 + 1)) with 1%nat. cbn [iter]. cbv beta zeta.
  set (s := v_lc5 _ _ _ _ _ _ _ _ _ _ 0%Z).
  assert (Hs : isz s).
  { unfold s, v_lc5, x_k1, x_k2, x_k3, x_k4. repeat apply z_add; (apply z_mul; [|exact Z0]).
    5: apply sm_mul; [exact smh|apply tabs].
    all: destruct (sm_mul h (c_e FPBE i 1)) as [? ?]; try exact smh; try apply tabs.
    all: apply sm_sub; apply sm_mul; try exact smh; apply tabs. }
  clearbody s. destruct Hs as [s1 ->]. destruct Hg as [s2 ->]. apply B2SF_inj. destruct s1, s2; vm_compute; reflexivity.
Qed.
Definition zst (w : est (K := K) unit) : Prop := NoDup (ptrs unit w) /\ isz (e_H w (e_y w) 0%Z) /\ e_H w (e_fn w) = (fun _ => B754_zero false : car K).
Notation kern := (kernel (K := K) zf RECF FPA FPB FPBE 1 (f_lit 1 0) (f_lit 1 0)).
Lemma k_zero d i r w : right_block d i r -> zst w -> exists w2, kern d i r w h = Ok (w2, B754_zero false : car K) /\ zst (k_accept w2).
Proof.
  intros Hb (HN & Hy & Hf).
  pose proof (kernel_spec (K := K) unit zf RECF FPA FPB FPBE 1 (f_lit 1 0) (f_lit 1 0) f0 ltac:(reflexivity) h r (e_H w (e_y w)) d i w Hb HN eq_refl Hf) as X.
  destruct (kernel _ _ _ _ _ _ _ _ _ _ _ _ _) as [[w2 err]| | |]; cbn [wp fst snd] in X; try contradiction.
  exists w2. destruct X as (X1 & X2 & X3 & X4 & _ & X6 & _ & X8 & X9 & X10 & X11 & X12 & _).
  assert (Gz : isz (G (K := K) RECF f0 h r (e_H w (e_y w)) d 0%Z)) by (unfold G; apply G_zero; exact Hy).
  rewrite err_zero in X3 by exact Gz. split; [rewrite X3; reflexivity|]. unfold zst, k_accept, ptrs. cbn [e_H e_y e_fn e_k1 e_k2 e_k3 e_k4 e_temp e_g0].
  split; [|split].
  - unfold ptrs in HN. rewrite X4, X6, X8, X9, X10, X11. revert HN. clear - X12. destruct X12 as [[-> ->]|[-> ->]]; intros HN; apply NoDup8 in HN;
      destruct HN as (?&?&?&?&?&?&?&?&?&?&?&?&?&?&?&?&?&?&?&?&?&?&?&?&?&?&?&?);
      repeat (apply NoDup_cons; [cbn [In]; repeat (intros [Q|Q]; [congruence|revert Q]); intros []|]); apply NoDup_nil.
  - rewrite X1. apply y_zero. exact Gz.
  - exact X2.
Qed.
End NG.

Section Runs.
Variable pow : f64 -> f64 -> f64.
Notation K := (F64 pow).
Variables RECF FPA FPB FPBE : Z -> K.
Hypothesis tabs : forall z, sm (RECF z) /\ sm (FPA z) /\ sm (FPB z) /\ sm (FPBE z).
Definition crho (x : f64) (s : unit) : unit * K := (s, x).
Notation kern := (kernel (K := K) (zf pow) RECF FPA FPB FPBE 1 (f_lit 1 0) (f_lit 1 0)).
Notation run := (fun rh => rock4 (K := K) f_toint kern (k_init (zf pow)) k_accept (r4_rho (crho rh))).
Notation body := (fun rh => d_body (K := K) f_toint kern k_accept (r4_rho (crho rh))).
Notation loop := (fun rh => d_loop (K := K) f_toint kern k_accept (r4_rho (crho rh))).
Definition caller (e0 : est (K := K) unit) : Prop := NoDup (ptrs unit e0) /\ isz (e_H e0 (e_y e0) 0%Z).
Lemma init_ok e0 : caller e0 -> zst pow (k_init (zf pow) e0).
Proof.
  intros [HN Hy]. unfold zst, k_init, callF, zf. cbn [e_H e_y e_fn ptrs]. unfold ptrs in *. cbn [e_H e_y e_fn e_k1 e_k2 e_k3 e_k4 e_temp e_g0].
  split; [exact HN|]. apply NoDup8 in HN. split; [|apply hset_eq]. rewrite hset_ne by tauto. exact Hy.
Qed.
Definition smb (x : f64) : bool := match B2SF x with SpecFloat.S754_finite _ m e => (Zpos m <? 2 ^ 53)%Z && (e <=? - 33)%Z | _ => false end.
Lemma sm_check (x : f64) : smb x = true -> sm x.
Proof.
  unfold smb. destruct x as [| | |s m e Hb]; cbn [B2SF]; try discriminate. intros H. apply andb_true_iff in H as [H1 H2]. apply Z.ltb_lt in H1. apply Z.leb_le in H2. split; [reflexivity|].
  cbn [B2R]. unfold F2R. cbn [Fnum Fexp].
  rewrite Rabs_mult, (Rabs_right (bpow radix2 e)) by (apply Rle_ge, bpow_ge_0). rewrite <- abs_IZR, abs_cond_Zopp. cbn [Z.abs].
  apply Rle_trans with (bpow radix2 53 * bpow radix2 (-33)).
  - apply Rmult_le_compat; [apply IZR_le; lia|apply bpow_ge_0| |now apply bpow_le]. change (bpow radix2 53) with (IZR (2 ^ 53)). apply IZR_le. lia.
  - rewrite <- bpow_plus. apply Rle_refl.
Qed.
Ltac smc := apply sm_check; vm_compute; reflexivity.
(* one step from t0 to tend = 9/10 gives a larger number *)
Lemma ng_past e0 hl : caller e0 -> exists st, run (f_lit 0 0) (f_lit 9 (-1)) 1%nat e0 (f_lit 6 (-2)) (f_lit 1 0) hl 0%Z 0%Z = Ok st /\ nltb (n := K) (f_lit 9 (-1)) (u_t st) = true.
Proof.
  intros Hc. apply init_ok in Hc. unfold rock4. set (s0 := r4_start _ _ _ _ _ _ _). set (h := nsub (n := K) (f_lit 9 (-1)) (f_lit 6 (-2))).
  assert (smh : sm h) by smc.
  destruct (k_zero pow RECF FPA FPB FPBE tabs h smh 1 1 1 (u_w s0)) as (w2 & Ek & _). { repeat split; lia. } { exact Hc. }
  destruct (body_acc (K := K) _ f_toint kern k_accept (r4_rho (crho (f_lit 0 0))) (f_lit 9 (-1) : K) s0 h (u_w s0) (f_lit 0 0) 3 h 3 1 1 1 w2 (B754_zero false : car K)) as (s1 & B & Et & _).
  - sfeq.
  - vm_compute; reflexivity.
  - reflexivity.
  - vm_compute; reflexivity.
  - reflexivity.
  - right. split; [discriminate|reflexivity].
  - exact Ek.
  - vm_compute; reflexivity.
  - reflexivity.
  - vm_compute; reflexivity.
  - cbn [d_loop]. replace (nltb (n := K) (u_t s0) (f_lit 9 (-1))) with true by (vm_compute; reflexivity). rewrite B. cbn [bind].
    assert (Q : nltb (n := K) (u_t s1) (f_lit 9 (-1)) = false) by (rewrite Et; vm_compute; reflexivity).
    exists s1. rewrite Q. split; [reflexivity|]. rewrite Et. vm_compute. reflexivity.
Qed.
Lemma ng_throw e0 hl : caller e0 -> run (f_lit 0 0) (f_lit 17 (-1)) 2%nat e0 (f_lit 13 (-2)) (f_lit 2 0) hl 0%Z 0%Z = Throw "Rock4: step too small".
Proof.
  intros Hc. apply init_ok in Hc. unfold rock4. set (s0 := r4_start _ _ _ _ _ _ _). set (h := nsub (n := K) (f_lit 17 (-1)) (f_lit 13 (-2))).
  assert (smh : sm h) by smc.
  destruct (k_zero pow RECF FPA FPB FPBE tabs h smh 1 1 1 (u_w s0)) as (w2 & Ek & _). { repeat split; lia. } { exact Hc. }
  destruct (body_acc (K := K) _ f_toint kern k_accept (r4_rho (crho (f_lit 0 0))) (f_lit 17 (-1) : K) s0 h (u_w s0) (f_lit 0 0) 3 h 3 1 1 1 w2 (B754_zero false : car K)) as (s1 & B & Et & Eh & _).
  - sfeq.
  - vm_compute; reflexivity.
  - reflexivity.
  - vm_compute; reflexivity.
  - reflexivity.
  - right. split; [discriminate|reflexivity].
  - exact Ek.
  - vm_compute; reflexivity.
  - reflexivity.
  - vm_compute; reflexivity.
  - cbn [d_loop]. replace (nltb (n := K) (u_t s0) (f_lit 17 (-1))) with true by (vm_compute; reflexivity). rewrite B. cbn [bind].
    replace (nltb (n := K) (u_t s1) (f_lit 17 (-1))) with true by (rewrite Et; vm_compute; reflexivity).
    rewrite (body_throw (K := K) _ f_toint kern k_accept (r4_rho (crho (f_lit 0 0))) (f_lit 17 (-1) : K) s1 _ eq_refl); [reflexivity|].
    unfold h_cut. rewrite Et, Eh. vm_compute. reflexivity.
Qed.
(* rho() = 1e11, h = 1e8: the number of stages does not fit an int *)
Lemma ng_ub e0 hl : run (f_lit 1 11) (f_lit 1 8) 1%nat e0 (f_lit 0 0) (f_lit 1 8) hl 0%Z 0%Z = UB "conversion of a double to int".
Proof.
  unfold rock4. set (s0 := r4_start _ _ _ _ _ _ _). cbn [d_loop]. replace (nltb (n := K) (u_t s0) (f_lit 1 8)) with true by (vm_compute; reflexivity).
  rewrite (body_ub (K := K) _ f_toint kern k_accept (r4_rho (crho (f_lit 1 11))) (f_lit 1 8 : K) s0 (f_lit 1 8) (u_w s0) (f_lit 1 11) "conversion of a double to int"); [reflexivity| | | |].
  - sfeq.
  - vm_compute; reflexivity.
  - reflexivity.
  - vm_compute; reflexivity.
Qed.
(* t0 = 1e9, tend = 1e9+1, h0 = 1, rho() = 2e11 *)
Definition eg : f64 := f_lit 2 11.
Definition h5 : f64 := next_h (K := K) (f_lit 1000000001 0) (f_lit 1 9) (h152 pow eg) (f_lit 5 0) (B754_zero false).
Definition h2' : f64 := next_h (K := K) (f_lit 1000000001 0) (f_lit 1 9) (h152 pow eg) (f_lit 2 0) (B754_zero false).
Definition stuck (st : dst (K := K) (est (K := K) unit)) : Prop :=
  u_t st = f_lit 1 9 /\ ((u_h st = f_lit 1 0 /\ u_facmax st = f_lit 5 0) \/ (u_h st = h5 /\ u_facmax st = f_lit 2 0) \/ (u_h st = h2' /\ u_facmax st = f_lit 2 0)) /\
  u_reject st = false /\ nltb (n := K) (f_lit 0 0) (u_errp st) = false /\ (u_nrho st = 0%Z \/ u_eig st = eg) /\
  (u_mdego st = 0%Z \/ (u_mdego st = 148%Z /\ right_block 148 (u_mp1 st) (u_mp2 st))) /\ zst pow (u_w st).
Lemma eig_is st : (u_nrho (K := K) (W := est (K := K) unit) st = 0%Z \/ u_eig st = eg) -> 
  (if (u_nrho st =? 0)%Z then r4_rho (crho eg) (u_w st) else (u_w st, u_eig st)) = (u_w st, eg).
Proof.
  intros [E|E]; [rewrite E; destruct (u_w st); reflexivity|]. rewrite E. destruct (_ =? _)%Z; [destruct (u_w st); reflexivity|reflexivity].
Qed.
Lemma stuck_step st : stuck st -> exists st', body eg (f_lit 1000000001 0) st = Ok st' /\ stuck st'.
Proof.
  intros (Et & Eh & Er & Ee & En & Em & Ez).
  assert (smh : sm (h152 pow eg)) by smc.
  assert (Ed : exists i r, right_block 148 i r /\ ((Z.max 152 5 - 4 = u_mdego st /\ (148, i, r) = (u_mdego st, u_mp1 st, u_mp2 st)) \/
   (Z.max 152 5 - 4 <> u_mdego st /\ mdegre (Z.max 152 5 - 4) (u_mp1 st) = Ok (148, i, r)))%Z).
  { destruct Em as [E|(E1 & E3)].
    - pose proof (selection 148 (u_mp1 st) ltac:(lia)) as S0. change (Z.max 152 5 - 4)%Z with 148%Z. destruct (mdegre 148 (u_mp1 st)) as [[[d i] r]| | |]; cbn [wp] in S0; try contradiction.
      destruct S0 as [(S1 & S2 & S3) S4]. assert (D : d = 148%Z). { specialize (S3 148%Z). cbn in S1. cbn in S3. lia. }
      subst d. exists i, r. split; [exact S4|]. right. rewrite E. split; [discriminate|reflexivity].
    - exists (u_mp1 st), (u_mp2 st). split; [exact E3|]. left. rewrite E1. split; reflexivity. }
  destruct Ed as (i & r & Hr & Ed). destruct (k_zero pow RECF FPA FPB FPBE tabs _ smh 148 i r (u_w st) Hr Ez) as (w2 & Ek & Hz2).
  assert (X : exists h m, h_cut (K := K) _ (f_lit 1000000001 0) st = h /\ nltb (n := K) h (nlit 10 0 * r4_uround)%num = false /\ f_toint (d_arg (K := K) h eg) = Ok m /\ (152 < m)%Z).
  { unfold h_cut. rewrite Et. destruct Eh as [[-> _]|[[-> _]|[-> _]]].
    - exists (f_lit 1 0). exists 752710%Z. split; [sfeq|]. split; [vm_compute; reflexivity|]. split; [vm_compute; reflexivity|lia].
    - exists h5. exists 304%Z. split; [sfeq|]. split; [vm_compute; reflexivity|]. split; [vm_compute; reflexivity|lia].
    - exists h2'. exists 193%Z. split; [sfeq|]. split; [vm_compute; reflexivity|]. split; [vm_compute; reflexivity|lia]. }
  destruct X as (h & m & X1 & X2 & X3 & X4).
  destruct (body_acc (K := K) _ f_toint kern k_accept (r4_rho (crho eg)) (f_lit 1000000001 0 : K) st h (u_w st) eg m (h152 pow eg) 152 148 i r w2 (B754_zero false : car K)) as (s1 & B & Qt & Qh & Qe & Qf & Qg & Qr & Q1 & Q2 & Q3 & Qw).
  - exact X1.
  - exact X2.
  - apply eig_is. exact En.
  - exact X3.
  - apply Z.ltb_lt in X4. rewrite X4. reflexivity.
  - exact Ed.
  - exact Ek.
  - vm_compute; reflexivity.
  - exact Er.
  - exact Ee.
  - exists s1. split; [exact B|]. unfold stuck. rewrite Qt, Qh, Qe, Qf, Qg, Qr, Q1, Q2, Q3, Qw, Et.
    split; [sfeq|]. split.
    { destruct Eh as [[_ ->]|[[_ ->]|[_ ->]]]; right; [left|right|right]; split; reflexivity. }
    split; [reflexivity|]. split; [vm_compute; reflexivity|]. split; [right; reflexivity|]. split; [right; repeat split; apply Hr|exact Hz2].
Qed.
Lemma stuck_loop fuel : forall st, stuck st -> loop eg (f_lit 1000000001 0) fuel st = Diverge.
Proof.
  induction fuel as [|n IH]; intros st Hs; cbn [d_loop]; pose proof (proj1 Hs) as Et.
  all: replace (nltb (n := K) (u_t st) (f_lit 1000000001 0)) with true by (rewrite Et; vm_compute; reflexivity).
  - reflexivity.
  - destruct (stuck_step st Hs) as (s1 & B & H1). rewrite B. cbn [bind]. apply IH. exact H1.
Qed.
Lemma ng_forever e0 hl fuel : caller e0 -> run eg (f_lit 1000000001 0) fuel e0 (f_lit 1 9) (f_lit 1 0) hl 0%Z 0%Z = Diverge.
Proof.
  intros Hc. apply init_ok in Hc. unfold rock4. apply stuck_loop. unfold stuck, r4_start. cbn [u_t u_h u_facmax u_reject u_errp u_nrho u_mdego u_w].
  repeat split; try (left; split; reflexivity); try (left; reflexivity); try apply Hc.
Qed.
End Runs.
