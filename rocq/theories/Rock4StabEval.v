(* Exact evaluation of the polynomial of a ROCK4 method at a rational point -a/b. *)
From Coq Require Import Bool Reals Lra Lia List ZArith.
From Verif Require Import Base Rock4Poly.
Import ListNotations.
Open Scope R_scope.

Section Eval.
Variables (a b : Z).
Hypothesis Hb : (0 < b)%Z.
Definition SS : Z := (b * T19)%Z.
Definition z0 : R := - (IZR a / IZR b).
(* the stages in units of 2^-300, rounded down, with bounds of the errors *)
Fixpoint zrec (l : list (Z * Z)) (w w' e e' : Z) : Z * Z :=
  match l with
  | [] => (w, e)
  | (m, k) :: t =>
      let c := ((T19 + k) * b - m * a)%Z in
      zrec t ((c * w - k * b * w') / SS)%Z w ((Z.abs c * e + Z.abs (k * b) * e') / SS + 2)%Z e
  end.
(* numbers with common denominator SS^n *)
Definition zu2 (F : fin Z) : Z := (SS - a21 F * a)%Z.
Definition zu3 (F : fin Z) : Z := (SS * SS - a * (a31 F * SS + a32 F * zu2 F))%Z.
Definition zu4 (F : fin Z) : Z := (SS * SS * SS - a * (a41 F * SS * SS + a42 F * zu2 F * SS + a43 F * zu3 F))%Z.
Definition zw (F : fin Z) : Z := (SS * SS * SS * SS - a * (b1 F * SS * SS * SS + b2 F * zu2 F * SS * SS + b3 F * zu3 F * SS + b4 F * zu4 F))%Z.
Definition U : Z := 2 ^ 300.
Definition zlarge (m1 : Z) (l : list (Z * Z)) (F : fin Z) : bool :=
  let '(w, e) := zrec l ((SS - m1 * a) * U / SS) U 1 0 in (SS * SS * SS * SS * U <? (Z.abs w - e) * Z.abs (zw F))%Z.
Definition finR (F : fin Z) : fin R :=
  mkFin (rl (a21 F)) (rl (a31 F)) (rl (a32 F)) (rl (a41 F)) (rl (a42 F)) (rl (a43 F)) (rl (b1 F)) (rl (b2 F)) (rl (b3 F)) (rl (b4 F)).
Definition listR (l : list (Z * Z)) : list (R * R) := map (fun q => (rl (fst q), rl (snd q))) l.

Lemma SS_pos : 0 < IZR SS.
Proof. apply IZR_lt. unfold SS. assert (0 < T19)%Z by reflexivity. nia. Qed.
Lemma b_pos : 0 < IZR b. Proof. now apply IZR_lt. Qed.
Lemma T_pos : 0 < IZR T19. Proof. apply IZR_lt. reflexivity. Qed.
Lemma SS_R : IZR SS = IZR b * IZR T19. Proof. unfold SS. apply mult_IZR. Qed.
Lemma fl_div x : Rabs (IZR (x / SS) - IZR x / IZR SS) <= 1.
Proof.
  assert (HS := SS_pos). assert (Hz : (0 < SS)%Z) by (apply lt_IZR; exact HS).
  rewrite Rabs_minus_sym. now apply fl_ok.
Qed.
Lemma zrec_ok l : forall w w' e e' W W', Rabs (IZR U * W - IZR w) <= IZR e -> Rabs (IZR U * W' - IZR w') <= IZR e' ->
  let '(v, f) := zrec l w w' e e' in Rabs (IZR U * rec z0 (listR l) W W' - IZR v) <= IZR f.
Proof.
  assert (HS := SS_pos). assert (Hb' := b_pos). assert (HT := T_pos).
  induction l as [|[m k] l IH]; intros w w' e e' W W' HW HW'; cbn [listR map rec zrec fst snd]; [exact HW|].
  apply IH; [|exact HW].
  set (c := ((T19 + k) * b - m * a)%Z).
  assert (E : rl m * z0 * W + (1 + rl k) * W - rl k * W' = (IZR c * W - IZR (k * b) * W') / IZR SS).
  { unfold c, rl, z0. rewrite minus_IZR, !mult_IZR, plus_IZR, SS_R. field. lra. }
  rewrite E. assert (F1 := fl_div (c * w - k * b * w')). assert (F2 := fl_div (Z.abs c * e + Z.abs (k * b) * e')).
  set (kb := (k * b)%Z) in *. rewrite minus_IZR, !mult_IZR in F1. rewrite plus_IZR, !mult_IZR in F2. rewrite plus_IZR.
  set (n := IZR ((c * w - kb * w') / SS)) in *. set (g := IZR ((Z.abs c * e + Z.abs kb * e') / SS)) in *.
  assert (X : Rabs (IZR U * ((IZR c * W - IZR kb * W') / IZR SS) - (IZR c * IZR w - IZR kb * IZR w') / IZR SS) <= (IZR (Z.abs c) * IZR e + IZR (Z.abs kb) * IZR e') / IZR SS).
  { replace (IZR U * ((IZR c * W - IZR kb * W') / IZR SS) - (IZR c * IZR w - IZR kb * IZR w') / IZR SS)
      with ((IZR c * (IZR U * W - IZR w) + - IZR kb * (IZR U * W' - IZR w')) * / IZR SS) by (field; lra).
    unfold Rdiv. rewrite Rabs_mult, (Rabs_right (/ _)) by (left; now apply Rinv_0_lt_compat).
    apply Rmult_le_compat_r; [left; now apply Rinv_0_lt_compat|]. eapply Rle_trans; [apply Rabs_triang|].
    rewrite !Rabs_mult, Rabs_Ropp, !abs_IZR.
    apply Rplus_le_compat; apply Rmult_le_compat_l; auto using Rabs_pos. }
  assert (F2' := Rle_abs ((IZR (Z.abs c) * IZR e + IZR (Z.abs kb) * IZR e') / IZR SS - g)).
  rewrite Rabs_minus_sym in F2.
  replace (IZR U * ((IZR c * W - IZR kb * W') / IZR SS) - n) with
    ((IZR U * ((IZR c * W - IZR kb * W') / IZR SS) - (IZR c * IZR w - IZR kb * IZR w') / IZR SS) + - (n - (IZR c * IZR w - IZR kb * IZR w') / IZR SS)) by ring.
  eapply Rle_trans; [apply Rabs_triang|]. rewrite Rabs_Ropp. lra.
Qed.
Lemma zw_ok F : p_w (finR F) z0 = IZR (zw F) / IZR SS ^ 4.
Proof.
  assert (HS := SS_pos). assert (Hb' := b_pos). assert (HT := T_pos).
  assert (E2 : p_u2 (finR F) z0 = IZR (zu2 F) / IZR SS).
  { unfold p_u2, zu2, finR. cbn [a21]. rewrite minus_IZR, mult_IZR, SS_R. unfold z0, rl. field. lra. }
  assert (E3 : p_u3 (finR F) z0 = IZR (zu3 F) / IZR SS ^ 2).
  { unfold p_u3. rewrite E2. unfold zu3, finR. cbn [a31 a32]. rewrite minus_IZR, !mult_IZR, plus_IZR, !mult_IZR, SS_R. unfold z0, rl. field. lra. }
  assert (E4 : p_u4 (finR F) z0 = IZR (zu4 F) / IZR SS ^ 3).
  { unfold p_u4. rewrite E2, E3. unfold zu4, finR. cbn [a41 a42 a43]. rewrite minus_IZR, !mult_IZR, !plus_IZR, !mult_IZR, SS_R. unfold z0, rl. field. lra. }
  unfold p_w. rewrite E2, E3, E4. unfold zw, finR. cbn [b1 b2 b3 b4]. rewrite minus_IZR, !mult_IZR, !plus_IZR, !mult_IZR, SS_R. unfold z0, rl. field. lra.
Qed.
Lemma zlarge_ok m1 l F : zlarge m1 l F = true -> 1 < Rabs (polyR (rl m1) (listR l) (finR F) z0).
Proof.
  assert (HS := SS_pos). assert (Hb' := b_pos). assert (HT := T_pos). assert (HU : 0 < IZR U) by (apply IZR_lt; reflexivity).
  unfold zlarge. assert (X := zrec_ok l ((SS - m1 * a) * U / SS) U 1 0 (1 + rl m1 * z0) 1).
  destruct (zrec l ((SS - m1 * a) * U / SS) U 1 0) as [w e]. intros H. apply Z.ltb_lt in H. apply IZR_lt in H.
  assert (Y : Rabs (IZR U * rec z0 (listR l) (1 + rl m1 * z0) 1 - IZR w) <= IZR e).
  { apply X.
    - rewrite Rabs_minus_sym. assert (F1 := fl_div ((SS - m1 * a) * U)). rewrite mult_IZR, minus_IZR, mult_IZR in F1.
      replace (IZR U * (1 + rl m1 * z0)) with ((IZR SS - IZR m1 * IZR a) * IZR U / IZR SS); [exact F1|]. unfold rl, z0. rewrite SS_R. field. lra.
    - replace (IZR U * 1 - IZR U) with 0 by ring. rewrite Rabs_R0. lra. }
  unfold polyR. rewrite zw_ok. set (r := rec z0 (listR l) (1 + rl m1 * z0) 1) in *.
  rewrite !mult_IZR, minus_IZR, !abs_IZR in H.
  assert (Z1 : Rabs (IZR w) - IZR e <= IZR U * Rabs r).
  { replace (IZR U * Rabs r) with (Rabs (IZR U * r)) by (rewrite Rabs_mult, (Rabs_right (IZR U)) by lra; reflexivity).
    assert (T := Rabs_triang (IZR U * r) (- (IZR U * r - IZR w))). replace (IZR U * r + - (IZR U * r - IZR w)) with (IZR w) in T by ring.
    rewrite Rabs_Ropp in T. lra. }
  assert (Z2 : (Rabs (IZR w) - IZR e) * Rabs (IZR (zw F)) <= IZR U * Rabs r * Rabs (IZR (zw F))) by (apply Rmult_le_compat_r; [apply Rabs_pos|assumption]).
  unfold Rdiv. rewrite !Rabs_mult, (Rabs_right (/ _)) by (left; apply Rinv_0_lt_compat, pow_lt; assumption).
  apply (Rmult_lt_reg_r (IZR SS ^ 4 * IZR U)); [apply Rmult_lt_0_compat; [apply pow_lt|]; assumption|].
  replace (Rabs r * (Rabs (IZR (zw F)) * / IZR SS ^ 4) * (IZR SS ^ 4 * IZR U)) with (IZR U * Rabs r * Rabs (IZR (zw F))) by (field; lra).
  replace (1 * (IZR SS ^ 4 * IZR U)) with (IZR SS * IZR SS * IZR SS * IZR SS * IZR U) by ring. lra.
Qed.
End Eval.
