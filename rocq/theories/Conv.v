(* C95, C96: the exponential function of complex numbers, the solutions of linear differential equations and
   the accumulation of errors. *)
From Coq Require Import Reals Lra Lia Psatz Ring List.
From Verif Require Import Base HessModel Spec Dec RodasStab.
Import ListNotations.
Open Scope R_scope.

(* ---- moduli ---- *)
Definition cn (z : cx) : R := sqrt (norm2 z).
Lemma cn_pos z : 0 <= cn z.
Proof. apply sqrt_pos. Qed.
Lemma cn_sq z : cn z * cn z = norm2 z.
Proof. apply sqrt_sqrt, norm2_pos. Qed.
Lemma cn_le z c : 0 <= c -> norm2 z <= c * c -> cn z <= c.
Proof. intros Hc H. unfold cn. rewrite <- (sqrt_square c Hc). apply sqrt_le_1_alt, H. Qed.
Lemma cn_mul a b : cn (cmul a b) = cn a * cn b.
Proof. unfold cn. rewrite norm2_mul, sqrt_mult; [reflexivity|apply norm2_pos|apply norm2_pos]. Qed.
Lemma cauchy (a b : cx) : fst a * fst b + snd a * snd b <= cn a * cn b.
Proof.
  destruct (Rle_lt_dec (fst a * fst b + snd a * snd b) 0) as [H|H].
  - pose proof (Rmult_le_pos _ _ (cn_pos a) (cn_pos b)). lra.
  - rewrite <- cn_mul. unfold cn. rewrite norm2_mul. rewrite <- (sqrt_square (fst a * fst b + snd a * snd b)) by lra. apply sqrt_le_1_alt. unfold norm2.
    assert (0 <= (fst a * snd b - snd a * fst b) * (fst a * snd b - snd a * fst b)) by apply Rle_0_sqr. lra.
Qed.
Lemma cn_add a b : cn (cadd a b) <= cn a + cn b.
Proof.
  pose proof (cn_pos a). pose proof (cn_pos b). apply cn_le; [lra|]. pose proof (cauchy a b). pose proof (cn_sq a). pose proof (cn_sq b).
  unfold norm2, cadd in *. cbn [fst snd]. nra.
Qed.
Lemma cn_opp a : cn (copp a) = cn a.
Proof. unfold cn, norm2, copp. cbn [fst snd]. f_equal. ring. Qed.
Lemma cn_sub a b : cn (csub a b) <= cn a + cn b.
Proof. unfold csub. eapply Rle_trans; [apply cn_add|]. rewrite cn_opp. lra. Qed.
Lemma cn_cr r : cn (cr r) = Rabs r.
Proof. unfold cn, norm2, cr. cbn [fst snd]. replace (r * r + 0 * 0) with (Rsqr r) by (unfold Rsqr; ring). apply sqrt_Rsqr_abs. Qed.
Lemma cn_0 : cn c0 = 0.
Proof. unfold cn, norm2, c0. cbn [fst snd]. replace (0 * 0 + 0 * 0) with 0 by ring. apply sqrt_0. Qed.
Lemma cn_scal r z : cn (cmul (cr r) z) = Rabs r * cn z.
Proof. rewrite cn_mul, cn_cr. reflexivity. Qed.

(* ---- a bound for the increment from a bound for the derivative ---- *)
Lemma increment (f1 f2 g1 g2 p q : R -> R) (t : R) : 0 <= t ->
  (forall s, derivable_pt_lim f1 s (g1 s)) -> (forall s, derivable_pt_lim f2 s (g2 s)) -> (forall s, derivable_pt_lim p s (q s)) ->
  f1 0 = 0 -> f2 0 = 0 -> p 0 = 0 -> (forall s, 0 <= s <= t -> cn (g1 s, g2 s) <= q s) -> cn (f1 t, f2 t) <= p t.
Proof.
  intros Ht D1 D2 Dp Z1 Z2 Zp H. destruct (Rle_lt_or_eq_dec _ _ Ht) as [Hp| <-].
  2: { rewrite Z1, Z2, Zp. fold c0. rewrite cn_0. lra. }
  set (w := (f1 t, f2 t) : cx).
  set (G := fun s => fst w * f1 s + snd w * f2 s - cn w * p s).
  assert (DG : forall s, derivable_pt_lim G s (fst w * g1 s + snd w * g2 s - cn w * q s)).
  { intros s. unfold G. apply (derivable_pt_lim_minus (fun s => fst w * f1 s + snd w * f2 s) (fun s => cn w * p s)).
    - apply (derivable_pt_lim_plus (fun s => fst w * f1 s) (fun s => snd w * f2 s)); apply derivable_pt_lim_scal; auto.
    - apply derivable_pt_lim_scal; auto. }
  destruct (MVT_cor2 G (fun s => fst w * g1 s + snd w * g2 s - cn w * q s) 0 t Hp) as (c & E & Hc); [intros; apply DG|].
  assert (HG : G t <= 0).
  { assert (G 0 = 0) by (unfold G; rewrite Z1, Z2, Zp; ring). pose proof (cauchy w (g1 c, g2 c)) as C. cbn [fst snd] in C.
    assert (C2 : cn w * cn (g1 c, g2 c) <= cn w * q c) by (apply Rmult_le_compat_l; [apply cn_pos|apply H; lra]). cbn beta in E. nra. }
  assert (Pt : 0 <= p t).
  { destruct (MVT_cor2 p q 0 t Hp) as (d & Ep & Hd); [intros; apply Dp|]. pose proof (H d ltac:(lra)) as Hq. pose proof (cn_pos (g1 d, g2 d)). rewrite Zp in Ep. nra. }
  assert (cn w * cn w <= cn w * p t). { rewrite cn_sq. unfold G in HG. unfold norm2. change (f1 t) with (fst w) in HG. change (f2 t) with (snd w) in HG. lra. }
  pose proof (cn_pos w). fold w. destruct (Rle_lt_dec (cn w) (p t)) as [Hle|Hlt]; [exact Hle|nra].
Qed.

(* ---- the exponential function and its Taylor polynomials ---- *)
Definition cexp (z : cx) : cx := (exp (fst z) * cos (snd z), exp (fst z) * sin (snd z)).
Lemma cexp_add a b : cexp (cadd a b) = cmul (cexp a) (cexp b).
Proof. unfold cexp, cadd, cmul. cbn [fst snd]. rewrite exp_plus, cos_plus, sin_plus. apply cx_eq; cbn [fst snd]; ring. Qed.
Lemma cexp_0 : cexp c0 = c1.
Proof. unfold cexp, c0, c1. cbn [fst snd]. rewrite exp_0, cos_0, sin_0. apply cx_eq; cbn [fst snd]; ring. Qed.
Lemma cexp_cn z : cn (cexp z) = exp (fst z).
Proof.
  unfold cn, norm2, cexp. cbn [fst snd]. pose proof (sin2_cos2 (snd z)) as E. unfold Rsqr in E.
  replace (exp (fst z) * cos (snd z) * (exp (fst z) * cos (snd z)) + exp (fst z) * sin (snd z) * (exp (fst z) * sin (snd z)))
    with (exp (fst z) * exp (fst z) * (sin (snd z) * sin (snd z) + cos (snd z) * cos (snd z))) by ring.
  rewrite E, Rmult_1_r. apply sqrt_square. apply Rlt_le, exp_pos.
Qed.
Lemma cexp_le1 z : fst z <= 0 -> cn (cexp z) <= 1.
Proof. intros H. rewrite cexp_cn, <- exp_0. destruct H as [H| ->]; [apply Rlt_le, exp_increasing, H|lra]. Qed.
Fixpoint cpow (z : cx) (k : nat) : cx := match k with O => c1 | S k => cmul z (cpow z k) end.
Lemma cpow_cn z k : cn (cpow z k) = cn z ^ k.
Proof. induction k as [|k IH]; cbn [cpow pow]; [change c1 with (cr 1); rewrite cn_cr; apply Rabs_R1|rewrite cn_mul, IH; reflexivity]. Qed.
Definition tz (z : cx) (t : R) : cx := (t * fst z, t * snd z).
(* the first k terms of the series of exp(t z) *)
Fixpoint tay (z : cx) (k : nat) (t : R) : cx :=
  match k with O => c0 | S k => cadd (tay z k t) (cmul (cr (t ^ k / INR (fact k))) (cpow z k)) end.
Lemma dl_eq (f : R -> R) t l l' : derivable_pt_lim f t l -> l = l' -> derivable_pt_lim f t l'.
Proof. intros H <-. exact H. Qed.
Lemma D_exp z t : derivable_pt_lim (fun s => fst (cexp (tz z s))) t (fst (cmul z (cexp (tz z t)))) /\ derivable_pt_lim (fun s => snd (cexp (tz z s))) t (snd (cmul z (cexp (tz z t)))).
Proof.
  destruct z as [x y]. unfold cexp, tz, cmul. cbn [fst snd].
  assert (Dx : derivable_pt_lim (fun s => s * x) t x).
  { apply (dl_eq _ _ (1 * x + t * 0)); [|ring]. apply (derivable_pt_lim_mult (fun s => s) (fun _ => x)); [apply derivable_pt_lim_id|apply derivable_pt_lim_const]. }
  assert (Dy : derivable_pt_lim (fun s => s * y) t y).
  { apply (dl_eq _ _ (1 * y + t * 0)); [|ring]. apply (derivable_pt_lim_mult (fun s => s) (fun _ => y)); [apply derivable_pt_lim_id|apply derivable_pt_lim_const]. }
  assert (De : derivable_pt_lim (fun s => exp (s * x)) t (exp (t * x) * x)) by (apply (derivable_pt_lim_comp (fun s => s * x) exp); [exact Dx|apply derivable_pt_lim_exp]).
  assert (Dc : derivable_pt_lim (fun s => cos (s * y)) t (- sin (t * y) * y)) by (apply (derivable_pt_lim_comp (fun s => s * y) cos); [exact Dy|apply derivable_pt_lim_cos]).
  assert (Ds : derivable_pt_lim (fun s => sin (s * y)) t (cos (t * y) * y)) by (apply (derivable_pt_lim_comp (fun s => s * y) sin); [exact Dy|apply derivable_pt_lim_sin]).
  split.
  - replace (x * (exp (t * x) * cos (t * y)) - y * (exp (t * x) * sin (t * y))) with (exp (t * x) * x * cos (t * y) + exp (t * x) * (- sin (t * y) * y)) by ring.
    apply (derivable_pt_lim_mult (fun s => exp (s * x)) (fun s => cos (s * y))); assumption.
  - replace (x * (exp (t * x) * sin (t * y)) + y * (exp (t * x) * cos (t * y))) with (exp (t * x) * x * sin (t * y) + exp (t * x) * (cos (t * y) * y)) by ring.
    apply (derivable_pt_lim_mult (fun s => exp (s * x)) (fun s => sin (s * y))); assumption.
Qed.
Lemma D_pow k t : derivable_pt_lim (fun s => s ^ S k / INR (fact (S k))) t (t ^ k / INR (fact k)).
Proof.
  assert (F : INR (fact k) <> 0) by apply INR_fact_neq_0. assert (N : INR (S k) <> 0) by (apply not_0_INR; lia).
  replace (t ^ k / INR (fact k)) with (INR (S k) * t ^ k * / INR (fact (S k)) + t ^ S k * 0).
  - apply (derivable_pt_lim_mult (fun s => s ^ S k) (fun _ => / INR (fact (S k)))); [apply derivable_pt_lim_pow|apply derivable_pt_lim_const].
  - rewrite Rmult_0_r, Rplus_0_r. replace (fact (S k)) with (S k * fact k)%nat by (cbn [fact]; ring). rewrite mult_INR. field. split; assumption.
Qed.
Lemma D_tay z k t : derivable_pt_lim (fun s => fst (tay z (S k) s)) t (fst (cmul z (tay z k t))) /\ derivable_pt_lim (fun s => snd (tay z (S k) s)) t (snd (cmul z (tay z k t))).
Proof.
  induction k as [|k IH].
  - cbn [tay]. unfold cadd, cmul, cr, c0, cpow, c1. cbn [fst snd pow fact INR]. split.
    + apply (dl_eq _ _ 0); [|ring]. apply (derivable_pt_lim_const (0 + (1 / 1 * 1 - 0 * 0))).
    + apply (dl_eq _ _ 0); [|ring]. apply (derivable_pt_lim_const (0 + (1 / 1 * 0 + 0 * 1))).
  - destruct IH as [I1 I2]. split.
    + change (fun s => fst (tay z (S (S k)) s)) with (fun s => fst (tay z (S k) s) + (s ^ S k / INR (fact (S k)) * fst (cpow z (S k)) - 0 * snd (cpow z (S k)))).
      replace (fst (cmul z (tay z (S k) t))) with (fst (cmul z (tay z k t)) + (t ^ k / INR (fact k) * fst (cpow z (S k)) - 0)).
      * apply (derivable_pt_lim_plus (fun s => fst (tay z (S k) s))); [exact I1|].
        apply (derivable_pt_lim_minus (fun s => s ^ S k / INR (fact (S k)) * fst (cpow z (S k))) (fun _ => 0 * snd (cpow z (S k)))); [|apply derivable_pt_lim_const].
        replace (t ^ k / INR (fact k) * fst (cpow z (S k))) with (t ^ k / INR (fact k) * fst (cpow z (S k)) + t ^ S k / INR (fact (S k)) * 0) by ring.
        apply (derivable_pt_lim_mult (fun s => s ^ S k / INR (fact (S k))) (fun _ => fst (cpow z (S k)))); [apply D_pow|apply derivable_pt_lim_const].
      * cbn [tay cpow]. unfold cadd, cmul, cr. cbn [fst snd]. ring.
    + change (fun s => snd (tay z (S (S k)) s)) with (fun s => snd (tay z (S k) s) + (s ^ S k / INR (fact (S k)) * snd (cpow z (S k)) + 0 * fst (cpow z (S k)))).
      replace (snd (cmul z (tay z (S k) t))) with (snd (cmul z (tay z k t)) + (t ^ k / INR (fact k) * snd (cpow z (S k)) + 0)).
      * apply (derivable_pt_lim_plus (fun s => snd (tay z (S k) s))); [exact I2|].
        apply (derivable_pt_lim_plus (fun s => s ^ S k / INR (fact (S k)) * snd (cpow z (S k))) (fun _ => 0 * fst (cpow z (S k)))); [|apply derivable_pt_lim_const].
        replace (t ^ k / INR (fact k) * snd (cpow z (S k))) with (t ^ k / INR (fact k) * snd (cpow z (S k)) + t ^ S k / INR (fact (S k)) * 0) by ring.
        apply (derivable_pt_lim_mult (fun s => s ^ S k / INR (fact (S k))) (fun _ => snd (cpow z (S k)))); [apply D_pow|apply derivable_pt_lim_const].
      * cbn [tay cpow]. unfold cadd, cmul, cr. cbn [fst snd]. ring.
Qed.
Lemma tay_0 z k : tay z (S k) 0 = c1.
Proof.
  induction k as [|k IH].
  - cbn [tay]. unfold cadd, cmul, cr, c0, cpow, c1. cbn [fst snd pow fact INR]. apply cx_eq; cbn [fst snd]; field.
  - change (tay z (S (S k)) 0) with (cadd (tay z (S k) 0) (cmul (cr (0 ^ S k / INR (fact (S k)))) (cpow z (S k)))). rewrite IH.
    rewrite pow_i by lia. replace (0 / INR (fact (S k))) with 0 by (unfold Rdiv; ring). change (cr 0) with c0. ring.
Qed.
(* Taylor's formula on the left half plane *)
Lemma taylor z k t : fst z <= 0 -> 0 <= t -> cn (csub (cexp (tz z t)) (tay z k t)) <= cn z ^ k * (t ^ k / INR (fact k)).
Proof.
  intros Hz. revert t. induction k as [|k IH]; intros t Ht.
  - cbn [tay pow fact INR]. replace (csub (cexp (tz z t)) c0) with (cexp (tz z t)) by ring.
    eapply Rle_trans; [apply cexp_le1|lra]. unfold tz. cbn [fst]. assert (0 <= t * - fst z) by (apply Rmult_le_pos; lra). lra.
  - set (E := fun k s => csub (cexp (tz z s)) (tay z k s)).
    assert (DE : forall s, derivable_pt_lim (fun s => fst (E (S k) s)) s (fst (cmul z (E k s))) /\ derivable_pt_lim (fun s => snd (E (S k) s)) s (snd (cmul z (E k s)))).
    { intros s. destruct (D_exp z s) as [A1 A2]. destruct (D_tay z k s) as [B1 B2]. unfold E. split.
      - replace (fst (cmul z (csub (cexp (tz z s)) (tay z k s)))) with (fst (cmul z (cexp (tz z s))) - fst (cmul z (tay z k s))) by (unfold csub, cadd, cmul, copp; cbn [fst snd]; ring).
        change (fun s => fst (csub (cexp (tz z s)) (tay z (S k) s))) with (fun s => fst (cexp (tz z s)) - fst (tay z (S k) s)).
        apply (derivable_pt_lim_minus (fun s => fst (cexp (tz z s))) (fun s => fst (tay z (S k) s))); assumption.
      - replace (snd (cmul z (csub (cexp (tz z s)) (tay z k s)))) with (snd (cmul z (cexp (tz z s))) - snd (cmul z (tay z k s))) by (unfold csub, cadd, cmul, copp; cbn [fst snd]; ring).
        change (fun s => snd (csub (cexp (tz z s)) (tay z (S k) s))) with (fun s => snd (cexp (tz z s)) - snd (tay z (S k) s)).
        apply (derivable_pt_lim_minus (fun s => snd (cexp (tz z s))) (fun s => snd (tay z (S k) s))); assumption. }
    assert (E0 : E (S k) 0 = c0). { unfold E. rewrite tay_0. replace (tz z 0) with c0 by (unfold tz, c0; f_equal; ring). rewrite cexp_0. ring. }
    pose proof (increment (fun s => fst (E (S k) s)) (fun s => snd (E (S k) s)) (fun s => fst (cmul z (E k s))) (fun s => snd (cmul z (E k s)))
      (fun s => cn z ^ S k * (s ^ S k / INR (fact (S k)))) (fun s => cn z ^ S k * (s ^ k / INR (fact k))) t Ht) as P.
    change (csub (cexp (tz z t)) (tay z (S k) t)) with (E (S k) t). rewrite (surjective_pairing (E (S k) t)). apply P.
    + intros s. apply DE.
    + intros s. apply DE.
    + intros s. apply (derivable_pt_lim_scal (fun s => s ^ S k / INR (fact (S k)))). apply D_pow.
    + rewrite E0. reflexivity.
    + rewrite E0. reflexivity.
    + rewrite pow_i by lia. unfold Rdiv. ring.
    + intros s Hs. rewrite <- (surjective_pairing (cmul z (E k s))), cn_mul. cbn [pow]. rewrite Rmult_assoc. apply Rmult_le_compat_l; [apply cn_pos|]. apply IH. lra.
Qed.
