(* C95, C96: quotients of polynomials with decimal coefficients against the exponential function; the accumulation of
   errors; the solutions of u' = lambda u + phi. *)
From Coq Require Import Reals Lra Lia Psatz Ring List.
From Verif Require Import Base HessModel Spec Dec RodasStab RodasStab2 Conv.
Import ListNotations.
Open Scope R_scope.

(* ---- bounds of polynomials ---- *)
Definition dabs (a : dec) : dec := (Z.abs (fst a), snd a).
Lemma D2R_abs a : D2R (dabs a) = Rabs (D2R a).
Proof.
  unfold D2R, dabs, Rlit. cbn [fst snd]. rewrite Rabs_mult, abs_IZR. f_equal. symmetry. apply Rabs_pos_eq. apply powerRZ_le. lra.
Qed.
Definition dsum (l : list dec) : dec := List.fold_right (fun a s => dadd (dabs a) s) dz l.
Lemma peval_bound l z : cn z <= 1 -> cn (peval l z) <= D2R (dsum l).
Proof.
  intros Hz. induction l as [|a l IH]; cbn [peval dsum List.fold_right].
  - rewrite cn_0, D2R_z. lra.
  - rewrite D2R_add, D2R_abs. eapply Rle_trans; [apply cn_add|]. rewrite cn_cr, cn_mul. apply Rplus_le_compat_l.
    eapply Rle_trans; [|exact IH]. pose proof (cn_pos (peval l z)). pose proof (cn_pos z). nra.
Qed.
Lemma peval_app l1 l2 z : peval (l1 ++ l2) z = cadd (peval l1 z) (cmul (cpow z (Datatypes.length l1)) (peval l2 z)).
Proof. induction l1 as [|a l1 IH]; cbn [List.app peval Datatypes.length cpow]; [ring|]. rewrite IH. ring. Qed.

(* l is F times the Taylor polynomial of degree p of exp(t z) *)
Definition is_tay (p : nat) (t : R) (F : dec) (l : list dec) : Prop := forall z, peval l z = cmul (cr (D2R F)) (tay z (S p) t).
Definition err_poly (P Q : list dec) (F : dec) (l : list dec) : list dec := padd (pscal F P) (pscal (dopp d1) (pmul Q l)).
Definition acc_check (P Q : list dec) (p : nat) (F : dec) (l : list dec) : bool :=
  match err_poly P Q F l with
  | nil => false
  | c :: D => (fst c =? 0)%Z && Nat.leb p (Datatypes.length D) && dnonneg F && negb (fst F =? 0)%Z &&
    dnonneg (dsub (dmul F (1%Z, (-12)%Z)) (dsum (List.firstn p D))) && dnonneg (dsub (dmul (3%Z, 0%Z) F) (dsum (List.skipn p D)))
  end.
Definition delta (p : nat) (r : R) : R := r * (1 / 10 ^ 12 + 4 * r ^ p).
Lemma pow_le1 r p : 0 <= r <= 1 -> 0 <= r ^ p <= 1.
Proof. intros H. induction p as [|p IH]; cbn [pow]; [lra|]. nra. Qed.
Lemma acc_small P Q p F l t z : acc_check P Q p F l = true -> is_tay p t F l -> 0 <= t <= 1 -> fst z <= 0 -> cn z <= 1 -> 1 <= cn (peval Q z) ->
  cn (csub (peval P z) (cmul (peval Q z) (cexp (tz z t)))) <= cn (peval Q z) * delta p (cn z).
Proof.
  intros HC HT Ht Hz Hs HQ. unfold acc_check in HC.
  assert (ED : forall z, peval (err_poly P Q F l) z = csub (cmul (cr (D2R F)) (peval P z)) (cmul (peval Q z) (peval l z))).
  { intros w. unfold err_poly. rewrite peval_add, !peval_scal, peval_mul, D2R_opp, D2R_1. apply cx_eq; unfold csub, cadd, cmul, copp, cr; cbn [fst snd]; ring. }
  specialize (ED z). destruct (err_poly P Q F l) as [|c D]; [discriminate|].
  apply andb_prop in HC. destruct HC as [HC H2]. apply andb_prop in HC. destruct HC as [HC H1]. apply andb_prop in HC. destruct HC as [HC HF]. apply andb_prop in HC. destruct HC as [HC HF0].
  apply andb_prop in HC. destruct HC as [Hc HL]. apply Z.eqb_eq in Hc. apply Nat.leb_le in HL. apply D2R_nonneg in HF0, H1, H2. rewrite !D2R_sub in *. rewrite D2R_mul in H1, H2.
  assert (E3 : D2R (3%Z, 0%Z) = 3) by (unfold D2R, Rlit; cbn [fst snd powerRZ]; lra). rewrite E3 in H2.
  assert (F0 : D2R F <> 0).
  { apply Bool.negb_true_iff, Z.eqb_neq in HF. unfold D2R, Rlit. apply Rmult_integral_contrapositive. split; [apply not_0_IZR, HF|apply powerRZ_NOR; lra]. }
  set (f := D2R F) in *. assert (Fp : 0 < f) by lra.
  assert (E12 : D2R (1%Z, (-12)%Z) = 1 / 10 ^ 12) by (unfold D2R, Rlit; cbn [fst snd]; unfold powerRZ; simpl; field).
  rewrite E12 in H1.
  assert (B : cn (peval (c :: D) z) <= cn z * (f * (1 / 10 ^ 12) + 3 * f * cn z ^ p)).
  { cbn [peval]. replace (D2R c) with 0 by (destruct c as [m e]; cbn [fst] in Hc; subst m; symmetry; apply D2R_zero).
    change (cr 0) with c0. replace (cadd c0 (cmul z (peval D z))) with (cmul z (peval D z)) by ring. rewrite cn_mul. apply Rmult_le_compat_l; [apply cn_pos|].
    rewrite <- (List.firstn_skipn p D), peval_app. eapply Rle_trans; [apply cn_add|]. apply Rplus_le_compat.
    - eapply Rle_trans; [apply peval_bound, Hs|]. lra.
    - rewrite cn_mul, cpow_cn, List.firstn_length_le by exact HL. rewrite Rmult_comm. apply Rmult_le_compat_r; [apply pow_le, cn_pos|].
      eapply Rle_trans; [apply peval_bound, Hs|]. lra. }
  rewrite ED, HT in B. fold f in B. pose proof (taylor z (S p) t Hz (proj1 Ht)) as T.
  set (X := csub (peval P z) (cmul (peval Q z) (cexp (tz z t)))) in *. set (r := cn z) in *. assert (r0 : 0 <= r) by apply cn_pos.
  assert (EX : cmul (cr f) X = cadd (csub (cmul (cr f) (peval P z)) (cmul (peval Q z) (cmul (cr f) (tay z (S p) t)))) (copp (cmul (cr f) (cmul (peval Q z) (csub (cexp (tz z t)) (tay z (S p) t)))))) by (unfold X; ring).
  assert (T1 : cn (csub (cexp (tz z t)) (tay z (S p) t)) <= r ^ S p).
  { eapply Rle_trans; [exact T|]. rewrite <- (Rmult_1_r (r ^ S p)) at 2. apply Rmult_le_compat_l; [apply pow_le, r0|].
    pose proof (pow_le1 t (S p) Ht) as Hp. assert (1 <= INR (fact (S p))) by (apply (le_INR 1), lt_O_fact).
    apply (Rmult_le_reg_r (INR (fact (S p)))); [lra|]. unfold Rdiv. rewrite Rmult_assoc, Rinv_l by lra. lra. }
  assert (N : f * cn X <= r * (f * (1 / 10 ^ 12) + 3 * f * r ^ p) + f * (cn (peval Q z) * r ^ S p)).
  { replace (f * cn X) with (cn (cmul (cr f) X)) by (rewrite cn_scal, Rabs_pos_eq by lra; reflexivity). rewrite EX.
    eapply Rle_trans; [apply cn_add|]. apply Rplus_le_compat; [exact B|]. rewrite cn_opp, cn_scal, Rabs_pos_eq by lra. apply Rmult_le_compat_l; [lra|].
    rewrite cn_mul. apply Rmult_le_compat_l; [apply cn_pos|exact T1]. }
  unfold delta. fold r. change (r ^ S p) with (r * r ^ p) in N. set (q := cn (peval Q z)) in *.
  assert (rp : 0 <= r ^ p) by (apply pow_le, r0).
  apply (Rmult_le_reg_l f); [exact Fp|]. eapply Rle_trans; [exact N|].
  set (s := r ^ p) in *. assert (0 <= r * s) by (apply Rmult_le_pos; assumption).
  assert (e0 : 0 < 1 / 10 ^ 12) by lra. set (e := 1 / 10 ^ 12) in *.
  assert (K1 : 0 <= f * r * e * (q - 1)). { clearbody f e q s r. assert (0 <= f * r) by nra. assert (0 <= f * r * e) by nra. nra. }
  assert (K2 : 0 <= f * (r * s) * (q - 1)). { clearbody f e q s r. assert (0 <= f * (r * s)) by nra. nra. }
  match goal with |- ?x <= ?y => replace y with (x + (f * r * e * (q - 1) + 3 * (f * (r * s) * (q - 1)))) by ring end. clearbody f e q s r. lra.
Qed.
Lemma acc_all P Q p F l t z : acc_check P Q p F l = true -> is_tay p t F l -> 0 <= t <= 1 -> fst z <= 0 -> 1 <= cn (peval Q z) -> cn (peval P z) <= cn (peval Q z) ->
  cn (csub (peval P z) (cmul (peval Q z) (cexp (tz z t)))) <= cn (peval Q z) * delta p (cn z).
Proof.
  intros HC HT Ht Hz HQ HP. destruct (Rle_lt_dec (cn z) 1) as [Hs|Hs]; [apply (acc_small P Q p F l); assumption|].
  eapply Rle_trans; [apply cn_sub|]. rewrite cn_mul. assert (E : cn (cexp (tz z t)) <= 1) by (apply cexp_le1; unfold tz; cbn [fst]; nra).
  apply Rle_trans with (cn (peval Q z) * 2); [nra|]. apply Rmult_le_compat_l; [lra|]. unfold delta.
  assert (1 <= cn z ^ p) by (apply pow_R1_Rle; lra). assert (0 < 1 / 10 ^ 12) by lra. nra.
Qed.

(* ---- the accumulation of errors ---- *)
Lemma err_step (P Q U U' V E : cx) d : 0 < cn Q -> cn P <= cn Q -> cn (csub P (cmul Q E)) <= cn Q * d -> cmul Q U' = cmul P U ->
  cn (csub U' (cmul E V)) <= cn (csub U V) + d * cn V.
Proof.
  intros HQ HP HE H. apply (Rmult_le_reg_l (cn Q)); [exact HQ|]. rewrite <- cn_mul.
  replace (cmul Q (csub U' (cmul E V))) with (cadd (cmul P (csub U V)) (cmul (csub P (cmul Q E)) V)).
  2: { transitivity (csub (cmul Q U') (cmul Q (cmul E V))); [rewrite H; ring|ring]. }
  eapply Rle_trans; [apply cn_add|]. rewrite !cn_mul. pose proof (cn_pos V). pose proof (cn_pos (csub U V)). nra.
Qed.

(* ---- the solutions of u' = lambda u and u' = phi ---- *)
Lemma constant_after (f : R -> R) t : 0 <= t -> (forall s, derivable_pt_lim f s 0) -> f t = f 0.
Proof.
  intros [Ht| <-] H; [|reflexivity]. destruct (MVT_cor2 f (fun _ => 0) 0 t Ht) as (c & E & _); [intros; apply H|]. lra.
Qed.
Lemma exp_unique (x y : R -> R) (a b t : R) : 0 <= t -> (forall s, derivable_pt_lim x s (a * x s - b * y s)) -> (forall s, derivable_pt_lim y s (b * x s + a * y s)) ->
  (x t, y t) = cmul (cexp (tz (a, b) t)) (x 0, y 0).
Proof.
  intros Ht Dx Dy. set (w := (- a, - b) : cx).
  assert (D1 : forall s, derivable_pt_lim (fun s => fst (cmul (cexp (tz w s)) (x s, y s))) s 0).
  { intros s. destruct (D_exp w s) as [A1 A2]. unfold cmul in A1, A2 |- *. cbn [fst snd] in *.
    eapply dl_eq; [apply (derivable_pt_lim_minus (fun s => fst (cexp (tz w s)) * x s) (fun s => snd (cexp (tz w s)) * y s)); apply derivable_pt_lim_mult; [exact A1|apply Dx|exact A2|apply Dy]|].
    unfold w. cbn [fst snd]. ring. }
  assert (D2 : forall s, derivable_pt_lim (fun s => snd (cmul (cexp (tz w s)) (x s, y s))) s 0).
  { intros s. destruct (D_exp w s) as [A1 A2]. unfold cmul in A1, A2 |- *. cbn [fst snd] in *.
    eapply dl_eq; [apply (derivable_pt_lim_plus (fun s => fst (cexp (tz w s)) * y s) (fun s => snd (cexp (tz w s)) * x s)); apply derivable_pt_lim_mult; [exact A1|apply Dy|exact A2|apply Dx]|].
    unfold w. cbn [fst snd]. ring. }
  pose proof (constant_after _ t Ht D1) as E1. pose proof (constant_after _ t Ht D2) as E2. cbn beta in E1, E2.
  assert (E0 : cexp (tz w 0) = c1) by (replace (tz w 0) with c0 by (unfold tz, c0; f_equal; ring); apply cexp_0).
  rewrite E0 in E1, E2.
  assert (EE : cmul (cexp (tz w t)) ((x t, y t) : cx) = cmul c1 ((x 0, y 0) : cx)) by (apply cx_eq; assumption).
  transitivity (cmul (cmul (cexp (tz (a, b) t)) (cexp (tz w t))) ((x t, y t) : cx)).
  - rewrite <- cexp_add. replace (cadd (tz (a, b) t) (tz w t)) with c0 by (unfold cadd, tz, w, c0; cbn [fst snd]; f_equal; ring). rewrite cexp_0. apply cx_eq; unfold cmul, c1; cbn [fst snd]; ring.
  - transitivity (cmul (cexp (tz (a, b) t)) (cmul (cexp (tz w t)) ((x t, y t) : cx))); [unfold cmul; cbn [fst snd]; f_equal; ring|]. rewrite EE. unfold cmul, c1; cbn [fst snd]; f_equal; ring.
Qed.
Lemma line_unique (x : R -> R) (c t : R) : 0 <= t -> (forall s, derivable_pt_lim x s c) -> x t = x 0 + c * t.
Proof.
  intros Ht Dx. assert (D : forall s, derivable_pt_lim (fun s => x s - c * s) s 0).
  { intros s. eapply dl_eq; [apply (derivable_pt_lim_minus x (fun s => c * s)); [apply Dx|apply derivable_pt_lim_scal, derivable_pt_lim_id]|ring]. }
  pose proof (constant_after _ t Ht D) as E. cbn beta in E. lra.
Qed.
