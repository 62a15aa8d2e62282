(* The drivers of ROCK4 (Rock4-NG and Rock4-L) in IEEE double precision: the time variable. *)
From Coq Require Import Reals Lra.
From Flocq Require Import Core BinarySingleNaN.
From Verif Require Import Base CMacros Rock4Model Rock4LModel F64.
Open Scope R_scope.

Lemma toint_inv (x : f64) m : f_toint x = Ok m -> fin x /\ Btrunc x = m.
Proof. unfold f_toint, fin. destruct (is_finite x); cbn [andb]; [|discriminate]. destruct (_ && _); [|discriminate]. intros H; injection H as <-. split; reflexivity. Qed.
Lemma trunc_big (x : f64) m : f_toint x = Ok m -> (152 < m)%Z -> 152 < v x.
Proof.
  intros H Hm. destruct (toint_inv x m H) as [_ E]. apply (f_equal IZR) in E. rewrite (Btrunc_correct 53 1024 f64e), round_FIX_IZR in E. apply eq_IZR in E.
  destruct (Rle_lt_dec (v x) 152) as [L|]; [exfalso|assumption].
  assert (B : (Ztrunc (v x) <= Ztrunc 152)%Z) by (apply Ztrunc_le; exact L). rewrite Ztrunc_IZR in B.
  lia.
Qed.

Definition tau : f64 := nmul (n := F64 (fun x _ => x)) (f_lit 10 0) (f_lit 1 (-16)).
Lemma tau_pos : fin tau /\ 0 < v tau.
Proof.
  destruct (val_of tau 5070602400912918 (-102)) as [A B]. { vm_compute. reflexivity. }
  split; [exact A|]. rewrite B. apply Rmult_lt_0_compat; [apply IZR_lt; reflexivity|apply bpow_gt_0].
Qed.
Lemma c353 : fin (f_lit 353 (-3)) /\ 3529/10000 <= v (f_lit 353 (-3)) <= 3531/10000.
Proof.
  destruct (val_of (f_lit 353 (-3)) 6359082673847140 (-54)) as [A B]. { vm_compute. reflexivity. }
  split; [exact A|]. rewrite B. change (bpow radix2 (-54)) with (/ IZR (2 ^ 54)). replace (2 ^ 54)%Z with 18014398509481984%Z by reflexivity. lra.
Qed.
Lemma small z : (Z.abs z <=? 2 ^ 53)%Z = true -> fin (f_of z) /\ v (f_of z) = IZR z.
Proof. intros H. apply f_of_val. apply Z.leb_le. exact H. Qed.

Lemma ok_inj {A} (a b : A) : Ok a = Ok b -> a = b.
Proof. intros H; injection H as ->; reflexivity. Qed.
Section Step.
Variable pow : f64 -> f64 -> f64.
Notation K := (F64 pow).
Definition deg_arg (h eig : f64) : f64 := (nsqrt ((nlit 3 0 + (h : K) * eig) / nlit 353 (-3)) + nlit 1 0)%num.
Lemma deg_fin h eig : fin (deg_arg h eig) -> fin h /\ fin eig.
Proof.
  intros H. unfold deg_arg in H. apply add_val in H as (H & _ & _). apply sqrt_val in H as [H _]. apply div_val in H as [H _].
  - apply add_val in H as (_ & H & _). apply mul_val in H as (A & B & _). split; assumption.
  - destruct c353 as [_ C]. cbn [nlit F64]. lra.
Qed.
Lemma deg_big h eig : fin (deg_arg h eig) -> 152 < v (deg_arg h eig) -> 8043 < v h * v eig.
Proof.
  intros H V. unfold deg_arg in *. apply add_val in H as Q. destruct Q as (Hs & _ & V1). rewrite V1 in V. clear V1 H.
  destruct c353 as [_ C]. apply sqrt_val in Hs as Q. destruct Q as (Hy & V2). rewrite V2 in V. clear V2 Hs.
  apply div_val in Hy as Q; [|cbn [nlit F64]; lra]. destruct Q as (Hp & V3). rewrite V3 in V. clear V3 Hy.
  apply add_val in Hp as Q. destruct Q as (_ & Hq & V4). rewrite V4 in V. clear V4 Hp.
  apply mul_val in Hq as Q. destruct Q as (_ & _ & V5). rewrite V5 in V. clear V5 Hq.
  cbn [nlit F64] in V. change (f_lit 1 0) with (f_of 1) in V. change (f_lit 3 0) with (f_of 3) in V.
  rewrite (proj2 (small 1 eq_refl)), (proj2 (small 3 eq_refl)) in V.
  destruct (Rle_lt_dec (v h * v eig) 8043) as [L|]; [exfalso|assumption]. apply (Rlt_not_le _ _ V). clear V.
  rewrite <- (proj2 (small 152 eq_refl)). apply rnd_upper. rewrite (proj2 (small 152 eq_refl)).
  assert (A : rnd (v h * v eig) <= 8043). { rewrite <- (proj2 (small 8043 eq_refl)). apply rnd_upper. rewrite (proj2 (small 8043 eq_refl)). exact L. }
  assert (B : rnd (3 + rnd (v h * v eig)) <= 8046). { rewrite <- (proj2 (small 8046 eq_refl)). apply rnd_upper. rewrite (proj2 (small 8046 eq_refl)). lra. }
  set (p := rnd (3 + rnd (v h * v eig))) in *. set (c := v (f_lit 353 (-3))) in *.
  assert (E : rnd (p / c) <= 22801). { rewrite <- (proj2 (small 22801 eq_refl)). apply rnd_upper. rewrite (proj2 (small 22801 eq_refl)).
    apply (Rmult_le_reg_r c); [lra|]. unfold Rdiv. rewrite Rmult_assoc, Rinv_l, Rmult_1_r by lra. lra. }
  assert (F : rnd (sqrt (rnd (p / c))) <= 151). { rewrite <- (proj2 (small 151 eq_refl)). apply rnd_upper. rewrite (proj2 (small 151 eq_refl)).
    replace 151 with (sqrt 22801). { now apply sqrt_le_1_alt. } replace 22801 with (151 * 151) by ring. apply sqrt_square. lra. }
  lra.
Qed.
Definition h152 (eig : f64) : f64 := (nlit 8 (-1) * (nlit 152 0 * nlit 152 0 * nlit 353 (-3) - nlit 3 0) / (eig : K))%num.
Lemma h152_val h eig : fin h -> 0 <= v h -> 8043 < v h * v eig -> fin (h152 eig) /\ 0 <= v (h152 eig) <= v h.
Proof.
  intros Fh H0 H. unfold h152. set (k := (nlit 8 (-1) * _)%num). 
  destruct (val_of k 7171201313527143 (-40)) as [Fk Vk]. { vm_compute. reflexivity. }
  assert (B : 6000 <= v k <= 6523). { rewrite Vk. change (bpow radix2 (-40)) with (/ IZR (2 ^ 40)). replace (2 ^ 40)%Z with 1099511627776%Z by reflexivity. lra. }
  assert (Pe : 0 < v eig). { destruct (Rle_lt_dec (v eig) 0) as [L|]; [|assumption]. nra. }
  assert (Q : 0 <= v k / v eig <= v h).
  { split; [apply Rle_mult_inv_pos; lra|]. apply (Rmult_le_reg_r (v eig)); [lra|]. unfold Rdiv. rewrite Rmult_assoc, Rinv_l, Rmult_1_r by lra. lra. }
  assert (N : v eig <> 0) by lra. pose proof (Bdiv_correct 53 1024 f64p f64e mode_NE k eig N) as C.
  rewrite (between (B754_zero false) h) in C by (cbn [B2R]; exact Q). destruct C as (C1 & C2 & _). cbn [ndiv F64]. unfold fin. rewrite C2, C1.
  split; [exact Fk|]. split; [|apply rnd_upper; apply Q]. rewrite <- rnd_0. apply rnd_le. apply Q.
Qed.
(* the step chosen by the tests before the call of the kernel *)
Lemma step_h (t e hin eig h : f64) m : fin t -> fin e -> 0 <= v t < v e ->
  h = (if nleb (n := K) (nsub (n := K) e t) (nmul (n := K) (f_lit 101 (-2)) hin) then nsub (n := K) e t else hin) ->
  nltb (n := K) h tau = false -> f_toint (deg_arg h eig) = Ok m ->
  fin h /\ v tau <= v h <= v (nsub (n := K) e t) /\ ((152 < m)%Z -> fin (h152 eig) /\ 0 <= v (h152 eig) <= v h).
Proof.
  intros Ft Fe H01 Eh Hl Hm. destruct (toint_inv _ _ Hm) as [Fx _]. destruct (deg_fin _ _ Fx) as [Fh _].
  destruct tau_pos as [FT PT]. rewrite ltb_ok in Hl by assumption. unfold Rltb in Hl. destruct (Rlt_dec (v h) (v tau)) as [|N]; [discriminate Hl|].
  split; [exact Fh|]. split; [split; [lra|]|].
  - destruct (nleb (n := K) (nsub (n := K) e t) (nmul (n := K) (f_lit 101 (-2)) hin)) eqn:E; rewrite Eh; [apply Rle_refl|].
    apply cut; try assumption; try lra. rewrite <- Eh. exact Fh.
  - intros M. apply (h152_val h eig Fh); [lra|]. apply deg_big; [exact Fx|]. now apply (trunc_big _ m).
Qed.
Lemma abs_diff (t e : f64) : fin t -> fin e -> 0 <= v t < v e -> mABS_diff (K := K) e t = nsub (n := K) e t.
Proof.
  intros Ft Fe H. unfold mABS_diff, n0. cbn [nlit]. change (nlit (n := K) 0 0) with (B754_zero false : f64). destruct (D_val pow t e Ft Fe) as (FD & _ & BD); try lra.
  rewrite leb_ok; [|reflexivity|exact FD]. unfold Rleb. cbn [B2R]. destruct (Rle_dec 0 _) as [|N]; [reflexivity|]. exfalso. apply N. apply BD.
Qed.
Lemma abs_fabs (t e : f64) : fin t -> fin e -> 0 <= v t < v e -> fabs (K := K) (nsub (n := K) e t) = nsub (n := K) e t.
Proof.
  intros Ft Fe H. unfold fabs. change (nlit (n := K) 0 0) with (B754_zero false : f64). destruct (D_val pow t e Ft Fe) as (FD & _ & BD); try lra.
  rewrite ltb_ok; [|exact FD|reflexivity]. unfold Rltb. cbn [B2R]. destruct (Rlt_dec _ 0) as [N|]; [|reflexivity]. exfalso. lra.
Qed.
Definition t_ok (e t t' : f64) : Prop := fin t' /\ v t <= v t' <= v (Bsucc e) /\ (v e <= 2 * v t -> v t' <= v e).
Lemma t_same e t : fin t -> fin e -> fin (Bsucc e) -> 0 <= v t < v e -> t_ok e t t.
Proof. intros Ft Fe Fs H. pose proof (ulp_ge_0 radix2 fe (v e)). split; [exact Ft|]. split; [split; [lra|]|intros _; lra]. rewrite (succ_val t e Fe Fs); lra. Qed.
Lemma ng_time W kern acc rho (e : f64) (st st' : dst (K := K) W) : let t := u_t st in
  fin t -> fin e -> fin (Bsucc e) -> 0 <= v t < v e ->
  d_body (K := K) f_toint kern acc rho e st = Ok st' -> t_ok e t (u_t st').
Proof.
  cbv zeta. intros Ft Fe Fs H. unfold d_body. cbv zeta. rewrite abs_diff by assumption.
  remember (if nleb (n := K) (nsub (n := K) e (u_t st)) (nlit (n := K) 101 (-2) * u_h st)%num then nsub (n := K) e (u_t st) else u_h st) as h eqn:Eh.
  change (nlit (n := K) 10 0 * r4_uround)%num with tau.
  destruct (nltb (n := K) h tau) eqn:Hl; [discriminate|].
  destruct (if (u_nrho st =? 0)%Z then rho (u_w st) else (u_w st, u_eig st)) as [w eig].
  change (nsqrt ((nlit 3 0 + h * eig) / nlit 353 (-3)) + nlit 1 0)%num with (deg_arg h eig).
  destruct (f_toint (deg_arg h eig)) as [m| | |] eqn:Hm; cbn [bind]; try discriminate.
  destruct (step_h (u_t st) e (u_h st) eig h m Ft Fe H Eh Hl Hm) as (Fh & Bh & Hbig). destruct tau_pos as [_ PT].
  change (nlit 8 (-1) * (nlit 152 0 * nlit 152 0 * nlit 353 (-3) - nlit 3 0) / eig)%num with (h152 eig).
  generalize dependent (h152 eig). intros hb Hbig.
  match goal with |- context [if (152 <? m)%Z then ?a else ?c] => set (hm := if (152 <? m)%Z then a else c) end.
  assert (Hh : fin (fst hm) /\ 0 <= v (fst hm) <= v (nsub (n := K) e (u_t st))).
  { unfold hm. destruct (Z.ltb_spec 152 m) as [M|M]; cbn [fst]; [|split; [exact Fh|lra]]. destruct (Hbig M) as [A B]. split; [exact A|lra]. }
  destruct hm as [h2 m2]. cbn [fst] in Hh. destruct Hh as [Fh2 Bh2]. cbv beta iota zeta.
  match goal with |- bind ?X _ = _ -> _ => destruct X as [[[[mdeg mp1] mp2] stg]| | |]; cbn [bind]; try discriminate end.
  match goal with |- bind ?X _ = _ -> _ => destruct X as [[w' err]| | |]; cbn [bind]; try discriminate end.
  match goal with |- (if ?b then _ else _) = _ -> _ => destruct b end; intros Q; apply ok_inj in Q; subst st'; cbn [u_t]; [|now apply t_same].
  destruct (advance pow (u_t st) e Ft Fe Fs) with (h := h2) as (A & B & C); try assumption; try lra. repeat split; try assumption; apply B.
Qed.
Lemma l_time W kern (e eigm : f64) (st st' : lst (K := K) W) : let t := v_t st in
  fin t -> fin e -> fin (Bsucc e) -> 0 <= v t < v e ->
  lv_body (K := K) f_toint kern e eigm st = Ok st' -> t_ok e t (v_t st').
Proof.
  cbv zeta. intros Ft Fe Fs H. unfold lv_body. cbv zeta. rewrite abs_fabs by assumption.
  remember (if nleb (n := K) (nsub (n := K) e (v_t st)) (nlit (n := K) 101 (-2) * v_h st)%num then nsub (n := K) e (v_t st) else v_h st) as h eqn:Eh.
  change (nlit (n := K) 10 0 * r4_uround)%num with tau.
  destruct (nltb (n := K) h tau) eqn:Hl; [discriminate|].
  change (nsqrt ((nlit 3 0 + h * eigm) / nlit 353 (-3)) + nlit 1 0)%num with (deg_arg h eigm).
  destruct (f_toint (deg_arg h eigm)) as [m| | |] eqn:Hm; cbn [bind]; try discriminate.
  destruct (step_h (v_t st) e (v_h st) eigm h m Ft Fe H Eh Hl Hm) as (Fh & Bh & _). destruct tau_pos as [_ PT].
  destruct (152 <? m)%Z; [discriminate|].
  match goal with |- bind ?X _ = _ -> _ => destruct X as [[[[mdeg mp1] mp2] stg]| | |]; cbn [bind]; try discriminate end.
  match goal with |- bind ?X _ = _ -> _ => destruct X as [w'| | |]; cbn [bind]; try discriminate end.
  intros Q; apply ok_inj in Q; subst st'; cbn [v_t].
  destruct (advance pow (v_t st) e Ft Fe Fs) with (h := h) as (A & B & C); try assumption; try lra. repeat split; try assumption; apply B.
Qed.
(* whole runs *)
Definition t_in (e t : f64) : Prop := fin t /\ 0 <= v t <= v (Bsucc e).
Lemma end_reached (t e : f64) : fin t -> fin e -> nltb (n := K) t e = false -> v e <= v t.
Proof. intros Ft Fe H. rewrite ltb_ok in H by assumption. unfold Rltb in H. destruct (Rlt_dec (v t) (v e)); [discriminate H|lra]. Qed.
Lemma not_reached (t e : f64) : fin t -> fin e -> nltb (n := K) t e = true -> v t < v e.
Proof. intros Ft Fe H. rewrite ltb_ok in H by assumption. unfold Rltb in H. destruct (Rlt_dec (v t) (v e)); [assumption|discriminate H]. Qed.
Lemma ng_run W kern acc rho (e : f64) : fin e -> fin (Bsucc e) -> forall fuel (st st' : dst (K := K) W),
  t_in e (u_t st) -> d_loop (K := K) f_toint kern acc rho e fuel st = Ok st' ->
  fin (u_t st') /\ v e <= v (u_t st') <= v (Bsucc e) /\ (v e <= 2 * v (u_t st) -> v (u_t st) <= v e -> v (u_t st') = v e).
Proof.
  intros Fe Fs. induction fuel as [|fuel IH]; intros st st' [Ft H]; cbn [d_loop]; destruct (nltb (n := K) (u_t st) e) eqn:E; try discriminate.
  1, 3: intros Q; injection Q as <-; apply end_reached in E; try assumption; split; [exact Ft|]; split; [lra|]; intros; lra.
  apply not_reached in E; try assumption. destruct (d_body (K := K) f_toint kern acc rho e st) as [s1| | |] eqn:B; cbn [bind]; try discriminate.
  apply ng_time in B; try assumption; try lra. destruct B as (F1 & B1 & B2). intros Q. destruct (IH s1 st') as (P1 & P2 & P3); [split; [exact F1|lra]|exact Q|].
  split; [exact P1|]. split; [exact P2|]. intros H2 _. apply P3; [lra|]. apply B2. exact H2.
Qed.
Lemma l_run W kern (e eigm : f64) : fin e -> fin (Bsucc e) -> forall fuel (st st' : lst (K := K) W),
  t_in e (v_t st) -> lv_loop (K := K) f_toint kern e eigm fuel st = Ok st' ->
  fin (v_t st') /\ v e <= v (v_t st') <= v (Bsucc e) /\ (v e <= 2 * v (v_t st) -> v (v_t st) <= v e -> v (v_t st') = v e).
Proof.
  intros Fe Fs. induction fuel as [|fuel IH]; intros st st' [Ft H]; cbn [lv_loop]; destruct (nltb (n := K) (v_t st) e) eqn:E; try discriminate.
  1, 3: intros Q; injection Q as <-; apply end_reached in E; try assumption; split; [exact Ft|]; split; [lra|]; intros; lra.
  apply not_reached in E; try assumption. destruct (lv_body (K := K) f_toint kern e eigm st) as [s1| | |] eqn:B; cbn [bind]; try discriminate.
  apply l_time in B; try assumption; try lra. destruct B as (F1 & B1 & B2). intros Q. destruct (IH s1 st') as (P1 & P2 & P3); [split; [exact F1|lra]|exact Q|].
  split; [exact P1|]. split; [exact P2|]. intros H2 _. apply P3; [lra|]. apply B2. exact H2.
Qed.
End Step.
(* the conversion to int is defined for h*rho <= 1e18 *)
Lemma lit_le (x : f64) m e a b : B2SF x = SpecFloat.S754_finite false m e -> (0 <=? e)%Z && (a <=? Zpos m * 2 ^ e)%Z && (Zpos m * 2 ^ e <=? b)%Z = true ->
  fin x /\ IZR a <= v x <= IZR b.
Proof.
  intros E H. apply andb_true_iff in H as [H H3]. apply andb_true_iff in H as [H1 H2]. apply Z.leb_le in H1, H2, H3. destruct (val_of x m e E) as [F V]. split; [exact F|].
  rewrite V. assert (P : bpow radix2 e = IZR (2 ^ e)) by (symmetry; apply (IZR_Zpower radix2 e H1)). rewrite P, <- mult_IZR. split; now apply IZR_le.
Qed.
Lemma deg_defined pow h eig : fin h -> fin eig -> 0 <= v h * v eig <= 1000000000000000000 -> exists m, f_toint (deg_arg pow h eig) = Ok m /\ (3 <= m)%Z.
Proof.
  intros Fh Fe B. set (K := F64 pow).
  destruct (lit_le (f_lit 1 18) 7812500000000000 7 1000000000000000000 1000000000000000000) as [Fa Va]; [vm_compute; reflexivity|vm_compute; reflexivity|].
  destruct (lit_le (f_lit 1001 15) 7820312500000000 7 1001000000000000000 1001000000000000000) as [Fb Vb]; [vm_compute; reflexivity|vm_compute; reflexivity|].
  destruct (lit_le (f_lit 284 16) 5546875000000000 9 2840000000000000000 2840000000000000000) as [Fc Vc]; [vm_compute; reflexivity|vm_compute; reflexivity|].
  (* h*eig *)
  assert (Q : fin (nmul (n := K) h eig) /\ 0 <= v (nmul (n := K) h eig) <= 1000000000000000000).
  { pose proof (Bmult_correct 53 1024 f64p f64e mode_NE h eig) as C. rewrite (between (B754_zero false) (f_lit 1 18)) in C by (cbn [B2R]; lra).
    destruct C as (C1 & C2 & _). unfold K. cbn [nmul F64]. split; [unfold fin in *; rewrite C2, Fh, Fe; reflexivity|]. rewrite C1. split.
    - rewrite <- rnd_0. apply rnd_le. lra.
    - apply Rle_trans with (v (f_lit 1 18)); [apply rnd_upper; lra|lra]. }
  destruct Q as [Fq Vq]. set (q := nmul (n := K) h eig) in *.
  assert (P : fin (nadd (n := K) (f_of 3) q) /\ 3 <= v (nadd (n := K) (f_of 3) q) <= 1001000000000000000).
  { destruct (small 3 eq_refl) as [F3 V3]. destruct (add_ok pow (f_of 3) q (f_of 3) (f_lit 1001 15) F3 Fq) as [A1 A2]; [rewrite V3; lra|].
    split; [exact A1|]. unfold K. rewrite A2. split; [rewrite <- V3 at 1; apply rnd_lower; lra|]. apply Rle_trans with (v (f_lit 1001 15)); [apply rnd_upper; rewrite V3; lra|lra]. }
  destruct P as [Fp Vp]. set (p := nadd (n := K) (f_of 3) q) in *. destruct c353 as [F35 V35].
  assert (Y : fin (ndiv (n := K) p (f_lit 353 (-3))) /\ 4 <= v (ndiv (n := K) p (f_lit 353 (-3))) <= 2840000000000000000).
  { assert (N : v (f_lit 353 (-3)) <> 0) by lra. pose proof (Bdiv_correct 53 1024 f64p f64e mode_NE p (f_lit 353 (-3)) N) as C.
    assert (B2 : 4 <= v p / v (f_lit 353 (-3)) <= 2840000000000000000).
    { split; apply (Rmult_le_reg_r (v (f_lit 353 (-3)))); try lra; unfold Rdiv; rewrite Rmult_assoc, Rinv_l, Rmult_1_r by lra; lra. }
    rewrite (between (B754_zero false) (f_lit 284 16)) in C by (cbn [B2R]; lra). destruct C as (C1 & C2 & _). unfold K. cbn [ndiv F64]. split; [unfold fin in *; rewrite C2; exact Fp|]. rewrite C1.
    split; [destruct (small 4 eq_refl) as [_ V4]; rewrite <- V4; apply rnd_lower; lra|]. apply Rle_trans with (v (f_lit 284 16)); [apply rnd_upper; lra|lra]. }
  destruct Y as [Fy Vy]. set (y := ndiv (n := K) p (f_lit 353 (-3))) in *.
  assert (SQ : fin (nsqrt (n := K) y) /\ 2 <= v (nsqrt (n := K) y) <= 1685300000).
  { destruct (Bsqrt_correct 53 1024 f64p f64e mode_NE y) as (C1 & C2 & _). unfold K. cbn [nsqrt F64]. split.
    - unfold fin in *. rewrite C2. clearbody y. destruct y as [| | |[]]; try discriminate Fy; try reflexivity. exfalso. cbn [B2R] in Vy.
      assert (F2R (Float radix2 (cond_Zopp true (Z.pos m)) e) <= 0); [|lra]. apply F2R_le_0. cbn. lia.
    - rewrite C1. destruct (small 2 eq_refl) as [_ V2]. destruct (small 1685300000 eq_refl) as [_ V9]. split.
      + rewrite <- V2. apply rnd_lower. rewrite V2. replace 2 with (sqrt 4) by (replace 4 with (2 * 2) by ring; apply sqrt_square; lra). apply sqrt_le_1_alt. lra.
      + rewrite <- V9. apply rnd_upper. rewrite V9. replace 1685300000 with (sqrt (1685300000 * 1685300000)) by (apply sqrt_square; lra). apply sqrt_le_1_alt. lra. }
  destruct SQ as [Fs Vs]. set (s := nsqrt (n := K) y) in *.
  assert (X : fin (nadd (n := K) s (f_of 1)) /\ 3 <= v (nadd (n := K) s (f_of 1)) <= 1685300001).
  { destruct (small 1 eq_refl) as [F1 V1]. destruct (small 3 eq_refl) as [F3 V3]. destruct (small 1685300001 eq_refl) as [F9 V9]. destruct (add_ok pow s (f_of 1) (f_of 3) (f_of 1685300001) Fs F1) as [A1 A2]; [rewrite V1, V3, V9; lra|].
    split; [exact A1|]. unfold K. rewrite A2. split; [rewrite <- V3; apply rnd_lower; rewrite V1, V3; lra|]. rewrite <- V9; apply rnd_upper; rewrite V1, V9; lra. }
  change (deg_arg pow h eig) with (nadd (n := K) s (f_of 1)). destruct X as [Fx Vx]. set (x := nadd (n := K) s (f_of 1)) in *.
  assert (T : (3 <= Btrunc x <= 1685300001)%Z).
  { pose proof (Btrunc_correct 53 1024 f64e x) as T. rewrite round_FIX_IZR in T. apply eq_IZR in T. rewrite T. split.
    - rewrite <- (Ztrunc_IZR 3). apply Ztrunc_le. lra.
    - rewrite <- (Ztrunc_IZR 1685300001). apply Ztrunc_le. lra. }
  unfold f_toint. unfold fin in Fx. rewrite Fx. exists (Btrunc x). cbn [andb].
  destruct (Z.leb_spec (- 2 ^ 31) (Btrunc x)); [|lia]. destruct (Z.ltb_spec (Btrunc x) (2 ^ 31)); [|lia]. split; [reflexivity|lia].
Qed.
Lemma le_succ (e : f64) : fin e -> fin (Bsucc e) -> v e <= v (Bsucc e).
Proof.
  intros Fe Fs. pose proof (Bsucc_correct 53 1024 f64p f64e e Fe) as C. destruct (Rlt_bool _ _).
  - rewrite (proj1 C). apply succ_ge_id.
  - unfold fin in Fs. rewrite <- is_finite_SF_B2SF, C in Fs. discriminate Fs.
Qed.
(* calls *)
Lemma ng_call pow W kern init acc rho (e : f64) fuel w t0 h0 hl m1 m2 st : fin t0 -> fin e -> fin (Bsucc e) -> 0 <= v t0 <= v e ->
  rock4 (K := F64 pow) (W := W) f_toint kern init acc rho e fuel w t0 h0 hl m1 m2 = Ok st ->
  fin (u_t st) /\ v e <= v (u_t st) <= v (Bsucc e) /\ (v e <= 2 * v t0 -> v (u_t st) = v e).
Proof.
  intros Ft Fe Fs H R. pose proof (le_succ e Fe Fs). unfold rock4 in R.
  destruct (ng_run pow W kern acc rho e Fe Fs fuel (r4_start init w (t0 : car (F64 pow)) h0 hl m1 m2) st (conj Ft (conj (proj1 H) (Rle_trans _ _ _ (proj2 H) (le_succ e Fe Fs)))) R) as (A & B & C).
  split; [exact A|]. split; [exact B|]. intros Q. apply C; [exact Q|apply H].
Qed.
Lemma l_call pow W kern wrong (e eigm : f64) fuel w t0 h0 m1 m2 st : fin t0 -> fin e -> fin (Bsucc e) -> 0 <= v t0 <= v e ->
  rock4l (K := F64 pow) (W := W) f_toint kern e eigm wrong fuel w t0 h0 m1 m2 = Ok st ->
  fin (v_t st) /\ v e <= v (v_t st) <= v (Bsucc e) /\ (v e <= 2 * v t0 -> v (v_t st) = v e).
Proof.
  intros Ft Fe Fs H. unfold rock4l. destruct wrong; [discriminate|]. intros R. pose proof (le_succ e Fe Fs).
  destruct (l_run pow W kern e eigm Fe Fs fuel (mkV (t0 : car (F64 pow)) h0 0 m1 m2 0 w nil) st (conj Ft (conj (proj1 H) (Rle_trans _ _ _ (proj2 H) (le_succ e Fe Fs)))) R) as (A & B & C).
  split; [exact A|]. split; [exact B|]. intros Q. apply C; [exact Q|apply H].
Qed.
