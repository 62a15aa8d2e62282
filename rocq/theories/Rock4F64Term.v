(* Termination of the driver of Rock4-L in IEEE double precision, for steps that are not too
   small. *)
From Coq Require Import Reals Lra.
From Flocq Require Import Core BinarySingleNaN.
From Verif Require Import Base HessModel VecFun CMacros Rock4Model Rock4Spec Rock4Proofs Rock4LModel F64 Rock4F64.
Open Scope R_scope.
Section Term.
Variable pow : f64 -> f64 -> f64.
Notation K := (F64 pow).
Variable W : Type.
Variable kern : Z -> Z -> Z -> W -> K -> out W.
Variables e eigm h0 : f64.
Hypothesis kern_ends : forall d i r w h, kern d i r w h <> Diverge.
Hypothesis Fe : fin e.
Hypothesis Fs : fin (Bsucc e).
Hypothesis Fh0 : fin h0.
Definition unit_end : R := ulp radix2 fe (v (Bsucc e)).
Hypothesis Hu : unit_end <= v h0.
Hypothesis He : 3 * unit_end <= v e.
Notation body := (lv_body (K := K) f_toint kern e eigm).
Notation loop := (lv_loop (K := K) f_toint kern e eigm).
Notation st := (lst (K := K) W).

Lemma mdegre_ends m mp : (1 <= m <= 148)%Z -> mdegre m mp <> Diverge.
Proof. intros H E. pose proof (selection m mp H) as X. rewrite E in X. exact X. Qed.
(* what a body that returns has done *)
Lemma body_form (s s' : st) : fin (v_t s) -> 0 <= v (v_t s) < v e -> body s = Ok s' ->
  let D := nsub (n := K) e (v_t s) in
  exists h, (h = D \/ (h = v_h s /\ fin h /\ v h <= v D)) /\ v_t s' = nadd (n := K) (v_t s) h /\
  v_h s' = (if nltb (n := K) e (nadd (n := K) (v_t s') h) then nsub (n := K) e (v_t s') else h).
Proof.
  cbv zeta. intros Ft H. unfold lv_body. cbv zeta. rewrite abs_fabs by assumption.
  remember (if nleb (n := K) (nsub (n := K) e (v_t s)) (nlit (n := K) 101 (-2) * v_h s)%num then nsub (n := K) e (v_t s) else v_h s) as h eqn:Eh.
  change (nlit (n := K) 10 0 * r4_uround)%num with tau.
  destruct (nltb (n := K) h tau) eqn:Hl; [discriminate|].
  change (nsqrt ((nlit 3 0 + h * eigm) / nlit 353 (-3)) + nlit 1 0)%num with (deg_arg pow h eigm).
  destruct (f_toint (deg_arg pow h eigm)) as [m| | |] eqn:Hm; cbn [bind]; try discriminate.
  destruct (step_h pow (v_t s) e (v_h s) eigm h m Ft Fe H Eh Hl Hm) as (Fh & Bh & _).
  destruct (152 <? m)%Z; [discriminate|].
  match goal with |- bind ?X _ = _ -> _ => destruct X as [[[[mdeg mp1] mp2] stg]| | |]; cbn [bind]; try discriminate end.
  match goal with |- bind ?X _ = _ -> _ => destruct X as [w'| | |]; cbn [bind]; try discriminate end.
  intros Q; apply ok_inj in Q; subst s'; cbn [v_t v_h]. exists h. split; [|split; reflexivity].
  destruct (nleb (n := K) (nsub (n := K) e (v_t s)) (nlit (n := K) 101 (-2) * v_h s)%num) in Eh; [left; exact Eh|right]. split; [exact Eh|]. split; [exact Fh|lra].
Qed.
Lemma body_ends (s : st) : body s <> Diverge.
Proof.
  unfold lv_body. cbv zeta. set (h := if nleb (n := K) _ _ then _ else _). clearbody h. destruct (nltb (n := K) h _); [discriminate|].
  set (x := nadd _ _). clearbody x. destruct (f_toint x) as [m| | |] eqn:Hm; cbn [bind]; try discriminate.
  2:{ unfold f_toint in Hm. destruct (_ && _); discriminate Hm. }
  destruct (Z.ltb_spec 152 m) as [|L]; [discriminate|].
  match goal with |- bind ?X _ <> _ => assert (N : X <> Diverge) end.
  { destruct (Z.eqb _ _); [discriminate|]. pose proof (mdegre_ends (Z.max m 5 - 4) (v_mp1 s) ltac:(lia)) as N. destruct (mdegre _ _) as [[[? ?] ?]| | |]; cbn [bind]; congruence. }
  match goal with |- bind ?X _ <> _ => destruct X as [[[[mdeg mp1] mp2] stg]| | |]; cbn [bind]; try discriminate; try congruence end.
  pose proof (kern_ends mdeg mp1 mp2 (v_w s) h) as N2. destruct (kern mdeg mp1 mp2 (v_w s) h); cbn [bind]; congruence.
Qed.
Lemma ulp_small x : 0 <= x <= v (Bsucc e) -> ulp radix2 fe x <= unit_end.
Proof. intros H. apply ulp_le; [apply fe_ok|apply fexp_monotone|]. rewrite !Rabs_right by lra. lra. Qed.
Lemma rnd_err x : 0 <= x <= v (Bsucc e) -> x - / 2 * unit_end <= rnd x.
Proof.
  intros H. pose proof (error_le_half_ulp radix2 fe (fun n => negb (Z.even n)) x) as E.
  change (round radix2 fe (Znearest (fun n => negb (Z.even n))) x) with (rnd x) in E. pose proof (ulp_small x H). apply Rabs_le_inv in E. lra.
Qed.
Lemma upos : 0 < v e -> 0 < unit_end.
Proof.
  intros H. unfold unit_end. rewrite ulp_neq_0; [apply bpow_gt_0|]. rewrite (succ_val (B754_zero false) e Fe Fs (Rle_refl 0) H).
  pose proof (ulp_ge_0 radix2 fe (v e)). lra.
Qed.
Definition good (s : st) : Prop := v_h s = nsub (n := K) e (v_t s) \/ (fin (v_h s) /\ unit_end <= v (v_h s)).
Lemma succ_gt t : 0 <= v t < v e -> v e + ulp radix2 fe (v e) = v (Bsucc e).
Proof. intros H. symmetry. apply (succ_val t e Fe Fs); lra. Qed.
Lemma D_err (t : f64) : fin t -> 0 <= v t < v e -> v e - v t - / 2 * unit_end <= v (nsub (n := K) e t) /\ v t + v (nsub (n := K) e t) <= v (Bsucc e).
Proof.
  intros Ft H. destruct (D_val pow t e Ft Fe (proj1 H) (proj2 H)) as (FD & VD & BD). pose proof (succ_gt t H) as SG. pose proof (ulp_ge_0 radix2 fe (v e)) as U0.
  rewrite VD. split; [apply rnd_err; lra|].
  pose proof (error_le_half_ulp radix2 fe (fun n => negb (Z.even n)) (v e - v t)) as E.
  change (round radix2 fe (Znearest (fun n => negb (Z.even n))) (v e - v t)) with (rnd (v e - v t)) in E.
  assert (U : ulp radix2 fe (v e - v t) <= ulp radix2 fe (v e)).
  { apply ulp_le; [apply fe_ok|apply fexp_monotone|]. rewrite !Rabs_right by lra. lra. }
  apply Rabs_le_inv in E. lra.
Qed.
Lemma progress (s s' : st) : good s -> fin (v_t s) -> 0 <= v (v_t s) < v e -> body s = Ok s' ->
  v e <= v (v_t s') \/ (good s' /\ v (v_t s) + / 2 * unit_end <= v (v_t s')).
Proof.
  intros G Ft H B. pose proof (upos ltac:(lra)) as UP. destruct (l_time pow W kern e eigm s s' Ft Fe Fs H B) as (F' & B' & _).
  destruct (body_form s s' Ft H B) as (h & Hh & Et & Eh). destruct (D_err (v_t s) Ft H) as [D1 D2]. destruct (D_val pow (v_t s) e Ft Fe (proj1 H) (proj2 H)) as (FD & VD & BD).
  assert (X : (h = nsub (n := K) e (v_t s) /\ v h < unit_end) \/ (fin h /\ unit_end <= v h <= v (nsub (n := K) e (v_t s)))).
  { destruct Hh as [->|(-> & Fh & Lh)].
    - destruct (Rlt_le_dec (v (nsub (n := K) e (v_t s))) unit_end); [left; split; [reflexivity|assumption]|right]. split; [exact FD|lra].
    - destruct G as [->|[_ G]].
      + destruct (Rlt_le_dec (v (nsub (n := K) e (v_t s))) unit_end); [left; split; [reflexivity|assumption]|right]. split; [exact FD|lra].
      + right. split; [exact Fh|lra]. }
  destruct X as [[-> Sm]|[Fh Bh]].
  - left. rewrite Et. rewrite (last_exact pow (v_t s) e Ft Fe (proj1 H) (proj2 H)); [lra|]. lra.
  - right. split.
    + unfold good. rewrite Eh. destruct (nltb (n := K) e (nadd (n := K) (v_t s') h)); [left; reflexivity|right; split; [exact Fh|lra]].
    + destruct (add_ok pow (v_t s) h (B754_zero false) (Bsucc e) Ft Fh) as [_ A]; [cbn [B2R]; lra|]. rewrite Et, A.
      pose proof (rnd_err (v (v_t s) + v h) ltac:(lra)). lra.
Qed.
Lemma loop_ends n : forall s : st, good s -> fin (v_t s) -> 0 <= v (v_t s) <= v (Bsucc e) -> v e - v (v_t s) <= INR n * (/ 2 * unit_end) -> loop (S n) s <> Diverge.
Proof.
  induction n as [|n IH]; intros s G Ft H Hn; cbn [lv_loop]; destruct (nltb (n := K) (v_t s) e) eqn:E; try discriminate; apply (not_reached pow) in E; try assumption.
  - cbn [INR] in Hn. lra.
  - pose proof (body_ends s) as N. destruct (body s) as [s'| | |] eqn:B; cbn [bind]; try congruence.
    assert (H' : 0 <= v (v_t s) < v e) by lra. destruct (l_time pow W kern e eigm s s' Ft Fe Fs H' B) as (F' & B' & _).
    destruct (progress s s' G Ft H' B) as [P|[G' P]].
    + assert (Q : nltb (n := K) (v_t s') e = false). { rewrite ltb_ok by assumption. unfold Rltb. destruct (Rlt_dec _ _); [lra|reflexivity]. }
      change (loop (S n) s' <> Diverge). cbn [lv_loop]. rewrite Q. discriminate.
    + apply (IH s' G' F'); [lra|]. rewrite S_INR in Hn. lra.
Qed.
End Term.
Lemma l_call_ends pow W kern wrong (e eigm : f64) w (t0 h0 : f64) m1 m2 : (forall d i r w h, kern d i r w h <> Diverge) ->
  fin t0 -> fin e -> fin (Bsucc e) -> fin h0 -> 0 <= v t0 <= v e -> unit_end e <= v h0 -> 3 * unit_end e <= v e ->
  exists n, forall fuel, (n <= fuel)%nat -> rock4l (K := F64 pow) (W := W) f_toint kern e eigm wrong fuel w t0 h0 m1 m2 <> Diverge.
Proof.
  intros Hk Ft Fe Fs Fh H Hu He. pose proof (le_succ e Fe Fs) as LS. assert (U0 : 0 <= unit_end e) by apply ulp_ge_0.
  assert (N : exists n, v e - v t0 <= INR n * (/ 2 * unit_end e)).
  { destruct (Rle_lt_or_eq_dec 0 (unit_end e) U0) as [P|P].
    - set (x := (v e - v t0) / (/ 2 * unit_end e)). exists (Z.to_nat (up x)).
      assert (X0 : 0 <= x) by (unfold x; apply Rle_mult_inv_pos; lra). pose proof (proj1 (archimed x)) as A.
      assert (A0 : (0 <= up x)%Z) by (apply le_IZR; lra). rewrite INR_IZR_INZ, Z2Nat.id by exact A0.
      replace (v e - v t0) with (x * (/ 2 * unit_end e)) by (unfold x; field; lra). apply Rmult_le_compat_r; lra.
    - exists 0%nat. cbn [INR]. destruct (Rle_lt_or_eq_dec 0 (v e)) as [Q|Q]; [lra| |lra]. pose proof (upos e Fe Fs Q). lra. }
  destruct N as [n Hn]. exists (S n). intros fuel Hf. unfold rock4l. destruct wrong; [discriminate|].
  replace fuel with (S (fuel - 1)) by lia. apply (loop_ends pow W kern e eigm Hk Fe Fs He (fuel - 1)).
  - right. cbn [v_h]. split; assumption.
  - exact Ft.
  - cbn [v_t]. lra.
  - cbn [v_t]. apply Rle_trans with (1 := Hn). apply Rmult_le_compat_r; [lra|]. apply le_INR. lia.
Qed.
