(* Sums of cosines: bound of the maximum on an interval from the values at its ends, and
   behaviour near 0. *)
From Coq Require Import Reals Lra Lia List ZArith Psatz.
From Verif Require Import Cheb.
Import ListNotations.
Open Scope R_scope.

(* sums of c cos(k t), -k c sin(k t), -k^2 c cos(k t), k counted from the first argument *)
Fixpoint cs (k : nat) (l : list R) (t : R) : R :=
  match l with [] => 0 | c :: l' => c * cos (INR k * t) + cs (S k) l' t end.
Fixpoint cs1 (k : nat) (l : list R) (t : R) : R :=
  match l with [] => 0 | c :: l' => - (INR k * c * sin (INR k * t)) + cs1 (S k) l' t end.
Fixpoint cs2 (k : nat) (l : list R) (t : R) : R :=
  match l with [] => 0 | c :: l' => - (INR k * INR k * c * cos (INR k * t)) + cs2 (S k) l' t end.
(* weighted norms *)
Fixpoint w2 (k : nat) (l : list R) : R :=
  match l with [] => 0 | c :: l' => INR k * INR k * Rabs c + w2 (S k) l' end.
Fixpoint w4 (k : nat) (l : list R) : R :=
  match l with [] => 0 | c :: l' => INR k * INR k * (INR k * INR k) * Rabs c + w4 (S k) l' end.
Fixpoint s2 (k : nat) (l : list R) : R :=
  match l with [] => 0 | c :: l' => INR k * INR k * c + s2 (S k) l' end.

Lemma evn_cs l : forall k t, evn k l (cos t) = cs k l t.
Proof. induction l as [|c l IH]; intros k t; cbn; [reflexivity|]. now rewrite Tn_cos, IH. Qed.

Lemma cs_der l : forall k t, derivable_pt_lim (cs k l) t (cs1 k l t).
Proof.
  induction l as [|c l IH]; intros k t.
  - apply (derivable_pt_lim_const 0).
  - change (derivable_pt_lim (plus_fct (fun u => c * cos (INR k * u)) (cs (S k) l)) t (- (INR k * c * sin (INR k * t)) + cs1 (S k) l t)).
    apply derivable_pt_lim_plus; [|apply IH].
    replace (- (INR k * c * sin (INR k * t))) with (c * (- sin (INR k * t) * (INR k * 1))) by ring.
    apply (derivable_pt_lim_scal (fun u => cos (INR k * u)) c t).
    apply (derivable_pt_lim_comp (fun u => INR k * u) cos t).
    + apply (derivable_pt_lim_scal id (INR k) t 1). apply derivable_pt_lim_id.
    + apply derivable_pt_lim_cos.
Qed.
Lemma cs1_der l : forall k t, derivable_pt_lim (cs1 k l) t (cs2 k l t).
Proof.
  induction l as [|c l IH]; intros k t.
  - apply (derivable_pt_lim_const 0).
  - change (derivable_pt_lim (plus_fct (fun u => - (INR k * c * sin (INR k * u))) (cs1 (S k) l)) t
      (- (INR k * INR k * c * cos (INR k * t)) + cs2 (S k) l t)).
    apply derivable_pt_lim_plus; [|apply IH].
    replace (- (INR k * INR k * c * cos (INR k * t))) with (- (INR k * c * (cos (INR k * t) * (INR k * 1)))) by ring.
    apply (derivable_pt_lim_opp (fun u => INR k * c * sin (INR k * u)) t).
    apply (derivable_pt_lim_scal (fun u => sin (INR k * u)) (INR k * c) t).
    apply (derivable_pt_lim_comp (fun u => INR k * u) sin t).
    + apply (derivable_pt_lim_scal id (INR k) t 1). apply derivable_pt_lim_id.
    + apply derivable_pt_lim_sin.
Qed.
Lemma cs2_bound l : forall k t, Rabs (cs2 k l t) <= w2 k l.
Proof.
  induction l as [|c l IH]; intros k t; cbn; [rewrite Rabs_R0; lra|].
  eapply Rle_trans; [apply Rabs_triang|]. apply Rplus_le_compat; [|apply IH].
  rewrite Rabs_Ropp, !Rabs_mult, (Rabs_right (INR k)) by (apply Rle_ge, pos_INR).
  assert (Rabs (cos (INR k * t)) <= 1) by (apply Rabs_le, COS_bound).
  pose proof (pos_INR k). pose proof (Rabs_pos c). pose proof (Rabs_pos (cos (INR k * t))).
  assert (0 <= INR k * INR k * Rabs c) by (apply Rmult_le_pos; [nra|assumption]). nra.
Qed.

(* a function with f'' >= -m lies below its chord plus m/8 (b-a)^2 *)
Lemma below_chord (f f1 f2 : R -> R) m a b : a <= b -> 0 <= m ->
  (forall t, derivable_pt_lim f t (f1 t)) -> (forall t, derivable_pt_lim f1 t (f2 t)) ->
  (forall t, - m <= f2 t) -> forall t, a <= t <= b -> f t <= Rmax (f a) (f b) + m / 8 * (b - a) ^ 2.
Proof.
  intros Hab Hm D1 D2 B t Ht.
  assert (Hq : 0 <= m / 8 * (b - a) ^ 2) by (apply Rmult_le_pos; [lra|apply pow2_ge_0]).
  destruct (Req_dec t a) as [->|Ha]; [pose proof (Rmax_l (f a) (f b)); lra|].
  destruct (Req_dec t b) as [->|Hb]; [pose proof (Rmax_r (f a) (f b)); lra|].
  assert (Hat : a < t) by lra. assert (Htb : t < b) by lra.
  set (p := fun u => f u + m / 2 * (u * u)).
  set (p1 := fun u => f1 u + m * u).
  assert (Dp : forall u, derivable_pt_lim p u (p1 u)).
  { intros u. unfold p, p1. replace (f1 u + m * u) with (f1 u + m / 2 * (1 * u + u * 1)) by lra.
    apply (derivable_pt_lim_plus f (fun v => m / 2 * (v * v)) u); [apply D1|].
    apply (derivable_pt_lim_scal (fun v => v * v) (m / 2) u).
    apply (derivable_pt_lim_mult id id u 1 1); apply derivable_pt_lim_id. }
  assert (Dp1 : forall u, derivable_pt_lim p1 u (f2 u + m)).
  { intros u. unfold p1. replace (f2 u + m) with (f2 u + m * 1) by ring.
    apply (derivable_pt_lim_plus f1 (fun v => m * v) u); [apply D2|]. apply (derivable_pt_lim_scal id m u). apply derivable_pt_lim_id. }
  destruct (MVT_cor2 p p1 a t Hat (fun c _ => Dp c)) as (c1 & E1 & H1).
  destruct (MVT_cor2 p p1 t b Htb (fun c _ => Dp c)) as (c2 & E2 & H2).
  assert (Hmono : p1 c1 <= p1 c2).
  { destruct (MVT_cor2 p1 (fun u => f2 u + m) c1 c2 (Rlt_trans _ _ _ (proj2 H1) (proj1 H2)) (fun c _ => Dp1 c)) as (c3 & E3 & H3).
    specialize (B c3). nra. }
  (* p t <= chord of p *)
  assert (Hc : (p t - p a) * (b - t) <= (p b - p t) * (t - a)).
  { rewrite E1, E2. assert (0 <= (t - a) * (b - t)) by nra. nra. }
  unfold p in Hc. pose proof (Rmax_l (f a) (f b)). pose proof (Rmax_r (f a) (f b)).
  set (M := Rmax (f a) (f b)) in *.
  assert (Hd : (f t - M) * (b - a) <= m / 2 * ((t - a) * (b - t)) * (b - a)).
  { assert (G1 : f a * (b - t) <= M * (b - t)) by (apply Rmult_le_compat_r; lra).
    assert (G2 : f b * (t - a) <= M * (t - a)) by (apply Rmult_le_compat_r; lra).
    replace ((f t - M) * (b - a)) with
      ((f t + m / 2 * (t * t) - (f a + m / 2 * (a * a))) * (b - t) - (f b + m / 2 * (b * b) - (f t + m / 2 * (t * t))) * (t - a)
       + (f a * (b - t) - M * (b - t)) + (f b * (t - a) - M * (t - a)) + m / 2 * ((t - a) * (b - t)) * (b - a)) by field.
    lra. }
  assert (Hd' : f t - M <= m / 2 * ((t - a) * (b - t))) by (apply (Rmult_le_reg_r (b - a)); [lra|exact Hd]).
  assert (Hs : (t - a) * (b - t) <= (b - a) ^ 2 / 4) by (pose proof (pow2_ge_0 (2 * t - a - b)); nra).
  apply (Rmult_le_compat_l (m / 2)) in Hs; [|lra]. nra.
Qed.

Lemma opp_der f f1 t : derivable_pt_lim f t f1 -> derivable_pt_lim (fun u => - f u) t (- f1).
Proof. exact (derivable_pt_lim_opp f t f1). Qed.

Lemma cs_cell k l a b : a <= b -> forall t, a <= t <= b ->
  Rabs (cs k l t) <= Rmax (Rabs (cs k l a)) (Rabs (cs k l b)) + w2 k l / 8 * (b - a) ^ 2.
Proof.
  intros Hab t Ht.
  assert (H0 : 0 <= w2 k l) by (eapply Rle_trans; [apply Rabs_pos|apply (cs2_bound l k 0)]).
  assert (Hb := fun u => cs2_bound l k u).
  assert (H1 : cs k l t <= Rmax (cs k l a) (cs k l b) + w2 k l / 8 * (b - a) ^ 2).
  { apply (below_chord _ (cs1 k l) (cs2 k l)); trivial; [apply cs_der|apply cs1_der|].
    intros u. specialize (Hb u). unfold Rabs in Hb. destruct (Rcase_abs _) in Hb; lra. }
  assert (H2 : - cs k l t <= Rmax (- cs k l a) (- cs k l b) + w2 k l / 8 * (b - a) ^ 2).
  { apply (below_chord (fun u => - cs k l u) (fun u => - cs1 k l u) (fun u => - cs2 k l u)); trivial.
    - intros u. apply opp_der, cs_der.
    - intros u. apply opp_der, cs1_der.
    - intros u. specialize (Hb u). unfold Rabs in Hb. destruct (Rcase_abs _) in Hb; lra. }
  assert (forall u, u <= Rabs u /\ - u <= Rabs u) as HA by (intros u; split; [apply Rle_abs|rewrite <- Rabs_Ropp; apply Rle_abs]).
  assert (Rmax (cs k l a) (cs k l b) <= Rmax (Rabs (cs k l a)) (Rabs (cs k l b))).
  { apply Rmax_lub; [eapply Rle_trans; [apply HA|apply Rmax_l]|eapply Rle_trans; [apply HA|apply Rmax_r]]. }
  assert (Rmax (- cs k l a) (- cs k l b) <= Rmax (Rabs (cs k l a)) (Rabs (cs k l b))).
  { apply Rmax_lub; [eapply Rle_trans; [apply HA|apply Rmax_l]|eapply Rle_trans; [apply HA|apply Rmax_r]]. }
  apply Rabs_le. lra.
Qed.

(* ---- near 0 ------------------------------------------------------------------- *)
Lemma cos_lower t : 1 - t * t / 2 <= cos t.
Proof.
  assert (forall u, 0 <= u -> 1 - u * u / 2 <= cos u) as H.
  { intros u Hu. destruct (Req_dec u 0) as [->|Hn]; [rewrite cos_0; lra|].
    destruct (MVT_cor2 (fun v => cos v + v * v / 2) (fun v => - sin v + v) 0 u ltac:(lra)) as (c & E & Hc).
    - intros v _. replace (- sin v + v) with (- sin v + (1 * v + v * 1) * / 2) by lra.
      apply (derivable_pt_lim_plus cos (fun w => w * w / 2) v); [apply derivable_pt_lim_cos|].
      unfold Rdiv. 
      assert (D := derivable_pt_lim_scal (fun w => w * w) (/ 2) v (1 * v + v * 1)
        (derivable_pt_lim_mult id id v 1 1 (derivable_pt_lim_id v) (derivable_pt_lim_id v))).
      unfold mult_real_fct in D. replace ((1 * v + v * 1) * / 2) with (/ 2 * (1 * v + v * 1)) by ring.
      intros eps He. destruct (D eps He) as [del Hd]. exists del. intros h Hh Hh'. specialize (Hd h Hh Hh').
      replace ((v + h) * (v + h) * / 2 - v * v * / 2) with (/ 2 * ((v + h) * (v + h)) - / 2 * (v * v)) by ring. exact Hd.
    - rewrite cos_0 in E. assert (sin c <= c) by (left; apply sin_lt_x; lra). nra. }
  destruct (Rle_dec 0 t); [now apply H|]. rewrite <- cos_neg. replace (t * t) with (- t * - t) by ring. apply H. lra.
Qed.
Lemma der_pow n c t : derivable_pt_lim (fun u => c * u ^ n) t (c * (INR n * t ^ pred n)).
Proof. apply (derivable_pt_lim_scal (fun u => u ^ n) c t). apply derivable_pt_lim_pow. Qed.
Lemma sin_lower t : 0 <= t -> t - t ^ 3 / 6 <= sin t.
Proof.
  intros Ht. destruct (Req_dec t 0) as [->|Hn]; [rewrite sin_0; lra|].
  destruct (MVT_cor2 (fun v => sin v + / 6 * v ^ 3) (fun v => cos v + / 6 * (INR 3 * v ^ 2)) 0 t ltac:(lra)) as (c & E & Hc).
  - intros v _. apply (derivable_pt_lim_plus sin (fun u => / 6 * u ^ 3) v); [apply derivable_pt_lim_sin|apply (der_pow 3)].
  - rewrite sin_0 in E. assert (H := cos_lower c). cbn [INR] in E.
    assert (1 * t <= (cos c + / 6 * ((1 + 1 + 1) * c ^ 2)) * t) by (apply Rmult_le_compat_r; nra).
    replace (0 ^ 3) with 0 in E by ring. lra.
Qed.
Lemma cos_upper t : cos t <= 1 - t * t / 2 + t * t * (t * t) / 24.
Proof.
  assert (forall u, 0 <= u -> cos u <= 1 - u * u / 2 + u * u * (u * u) / 24) as H.
  { intros u Hu. destruct (Req_dec u 0) as [->|Hn]; [rewrite cos_0; lra|].
    destruct (MVT_cor2 (fun v => cos v + (/ 2 * v ^ 2 + - / 24 * v ^ 4))
       (fun v => - sin v + (/ 2 * (INR 2 * v ^ 1) + - / 24 * (INR 4 * v ^ 3))) 0 u ltac:(lra)) as (c & E & Hc).
    - intros v _. apply (derivable_pt_lim_plus cos (fun w => / 2 * w ^ 2 + - / 24 * w ^ 4) v); [apply derivable_pt_lim_cos|].
      apply (derivable_pt_lim_plus (fun w => / 2 * w ^ 2) (fun w => - / 24 * w ^ 4) v); [apply (der_pow 2)|apply (der_pow 4)].
    - rewrite cos_0 in E. assert (Hs := sin_lower c ltac:(lra)). cbn [INR] in E.
      assert ((- sin c + (/ 2 * ((1 + 1) * c ^ 1) + - / 24 * ((1 + 1 + 1 + 1) * c ^ 3))) * (u - 0) <= 0 * (u - 0))
        by (apply Rmult_le_compat_r; lra).
      replace (0 ^ 2) with 0 in E by ring. replace (0 ^ 4) with 0 in E by ring. nra. }
  destruct (Rle_dec 0 t); [now apply H|]. rewrite <- cos_neg.
  replace (t * t) with (- t * - t) by ring. apply H. lra.
Qed.

Lemma cs_near0 l : forall k t,
  Rabs (cs k l t - (cs k l 0 - s2 k l * (t * t) / 2)) <= w4 k l * (t * t * (t * t)) / 24.
Proof.
  induction l as [|c l IH]; intros k t; cbn [cs s2 w4].
  - rewrite Rabs_right; lra.
  - specialize (IH (S k) t). rewrite Rmult_0_r, cos_0.
    assert (Hl := cos_lower (INR k * t)). assert (Hu := cos_upper (INR k * t)).
    set (kk := INR k) in *. set (C := cos (kk * t)) in *.
    assert (HC : Rabs (c * (C - (1 - kk * t * (kk * t) / 2))) <= kk * kk * (kk * kk) * Rabs c * (t * t * (t * t)) / 24).
    { rewrite Rabs_mult, (Rabs_right (C - _)) by lra.
      replace (kk * kk * (kk * kk) * Rabs c * (t * t * (t * t)) / 24) with (Rabs c * (kk * t * (kk * t) * (kk * t * (kk * t)) / 24)) by field.
      apply Rmult_le_compat_l; [apply Rabs_pos|]. lra. }
    replace (c * C + cs (S k) l t - (c * 1 + cs (S k) l 0 - (kk * kk * c + s2 (S k) l) * (t * t) / 2))
      with (c * (C - (1 - kk * t * (kk * t) / 2)) + (cs (S k) l t - (cs (S k) l 0 - s2 (S k) l * (t * t) / 2))) by field.
    eapply Rle_trans; [apply Rabs_triang|]. lra.
Qed.

(* ---- distance of two angles from their cosines --------------------------------- *)
Lemma angle_small t : 0 <= t <= PI -> 1 - cos t < 2 / 5 -> t * t <= 24 / 11 * (1 - cos t).
Proof.
  intros Ht Hc. assert (Hu := cos_upper t).
  destruct (Rle_dec t 1) as [H1|H1].
  - assert (0 <= t * t <= 1) by nra. nra.
  - exfalso. assert (H2 : cos t < cos 1) by (apply cos_decreasing_1; [lra|pose proof PI2_1; lra|lra|lra|lra]).
    assert (H3 := cos_upper 1). lra.
Qed.
Lemma spacing a b eta : -1 <= a <= 1 -> -1 <= b <= 1 -> b <= a -> eta < 2 / 5 ->
  (1 - eta - a * b <= 0 \/ (1 - eta - a * b) ^ 2 <= (1 - a * a) * (1 - b * b)) ->
  acos a <= acos b /\ (acos b - acos a) ^ 2 <= 24 / 11 * eta.
Proof.
  intros Ha Hb Hab He H.
  assert (Ba := acos_bound a). assert (Bb := acos_bound b).
  assert (Hm : acos a <= acos b).
  { destruct (Rle_dec (acos a) (acos b)) as [Hx|Hx]; [assumption|]. exfalso.
    assert (Hy : cos (acos a) < cos (acos b)) by (apply cos_decreasing_1; lra).
    rewrite !cos_acos in Hy by assumption. lra. }
  split; [assumption|].
  set (D := acos b - acos a).
  assert (Hcos : 1 - cos D <= eta).
  { unfold D. rewrite cos_minus, !cos_acos, !sin_acos by assumption.
    assert (Hs : 1 - eta - a * b <= sqrt (1 - Rsqr b) * sqrt (1 - Rsqr a)); [|lra].
    rewrite <- sqrt_mult by (unfold Rsqr; nra).
    destruct H as [H|H]; [eapply Rle_trans; [exact H|apply sqrt_pos]|].
    destruct (Rle_dec (1 - eta - a * b) 0) as [Hz|Hz]; [eapply Rle_trans; [exact Hz|apply sqrt_pos]|].
    rewrite <- (sqrt_pow2 (1 - eta - a * b)) by lra. apply sqrt_le_1; [apply pow2_ge_0|unfold Rsqr; nra|unfold Rsqr; lra]. }
  assert (HA := angle_small D ltac:(unfold D; lra) ltac:(lra)). nra.
Qed.
