(* A checker, in integer arithmetic, for |p(x)| <= 1 on [-1,1], where p is known by an
   enclosure of its Chebyshev coefficients; soundness. *)
From Coq Require Import Bool Reals Lra Lia List ZArith Psatz.
From Verif Require Import Cheb CosSum.
Import ListNotations.
Open Scope R_scope.

(* ---- boxes: coefficients, l1 error, l1 norm -------------------------------------- *)
Definition box : Type := list Z * Z * Z.
Definition good (Sc : R) (X : box) (phi : R -> R) : Prop :=
  let '(P, e, n) := X in enc Sc P (IZR e) phi /\ norm1 (toR P) <= IZR n /\ (0 <= e)%Z /\ (0 <= n)%Z.

Definition btwox (X : box) : box := let '(P, e, n) := X in (twox P, 2 * e, 2 * n)%Z.
Definition bint (c : Z) (X : box) : box := let '(P, e, n) := X in (scal c P, Z.abs c * e, Z.abs c * n)%Z.
Definition bscal (c t : Z) (X : box) : box := let '(P, e, n) := X in (scal c P, Z.abs c * e + t * (n + e), Z.abs c * n)%Z.
Definition badd (X Y : box) : box := let '(P, e, n) := X in let '(Q, f, m) := Y in (padd P Q, e + f, n + m)%Z.
Fixpoint zsum (l : list Z) : Z := match l with [] => 0%Z | c :: t => (Z.abs c + zsum t)%Z end.
Definition bshr (q : Z) (X : box) : box := let '(P, e, n) := X in
  let P' := map (fun x => Z.shiftr x q) P in (P', Z.shiftr e q + 1 + Z.of_nat (length P), zsum P')%Z.

Lemma good_ext Sc X f g : (forall x, f x = g x) -> good Sc X f -> good Sc X g.
Proof. destruct X as [[P e] n]. intros H (A & B). split; [|exact B]. eapply enc_ext; eauto. Qed.
Lemma good_sc Sc Sc' X f : Sc = Sc' -> good Sc X f -> good Sc' X f.
Proof. now intros ->. Qed.
Lemma good_twox Sc X f : good Sc X f -> good Sc (btwox X) (fun x => 2 * x * f x).
Proof.
  destruct X as [[P e] n]. intros (A & B & He & Hn). unfold btwox. split; [|split; [|lia]].
  - rewrite mult_IZR. now apply enc_twox.
  - rewrite toR_twox, mult_IZR. eapply Rle_trans; [apply norm1_rtwox|lra].
Qed.
Lemma good_int Sc X f c : good Sc X f -> good Sc (bint c X) (fun x => IZR c * f x).
Proof.
  destruct X as [[P e] n]. intros (A & B & He & Hn). unfold bint. split; [|split; [|lia]].
  - rewrite mult_IZR, abs_IZR. now apply enc_scal.
  - rewrite toR_scal, mult_IZR, abs_IZR, norm1_rscal. apply Rmult_le_compat_l; [apply Rabs_pos|assumption].
Qed.
Lemma good_add Sc X f Y g : good Sc X f -> good Sc Y g -> good Sc (badd X Y) (fun x => f x + g x).
Proof.
  destruct X as [[P e] n], Y as [[Q k] m]. intros (A & B & He & Hn) (A' & B' & He' & Hn'). unfold badd. split; [|split; [|lia]].
  - rewrite plus_IZR. now apply enc_padd.
  - rewrite toR_padd, plus_IZR. eapply Rle_trans; [apply norm1_rpadd|lra].
Qed.
Lemma good_scal Sc X f c t T ga : good Sc X f -> Rabs (T * ga - IZR c) <= IZR t -> good (Sc * T) (bscal c t X) (fun x => ga * f x).
Proof.
  destruct X as [[P e] n]. intros (A & B & He & Hn) HT. unfold bscal.
  assert (Ht : (0 <= t)%Z) by (apply le_IZR; eapply Rle_trans; [apply Rabs_pos|exact HT]).
  split; [|split; [|nia]].
  - destruct A as (dl & A1 & A2 & A3).
    exists (rpadd (rscal (IZR c) dl) (rscal (T * ga - IZR c) (rpadd (toR P) dl))). repeat split.
    + eapply Rle_trans; [apply norm1_rpadd|]. rewrite !norm1_rscal, !plus_IZR, !mult_IZR, !plus_IZR, abs_IZR.
      assert (HN := norm1_rpadd (toR P) dl). assert (H0 := norm1_pos (rpadd (toR P) dl)).
      assert (Rabs (IZR c) * norm1 dl <= Rabs (IZR c) * IZR e) by (apply Rmult_le_compat_l; [apply Rabs_pos|assumption]).
      assert (Rabs (T * ga - IZR c) * norm1 (rpadd (toR P) dl) <= IZR t * norm1 (rpadd (toR P) dl)) by (apply Rmult_le_compat_r; assumption).
      assert (IZR t * norm1 (rpadd (toR P) dl) <= IZR t * (IZR n + IZR e)) by (apply Rmult_le_compat_l; [now apply IZR_le|lra]). lra.
    + rewrite length_rpadd, !length_rscal, length_rpadd, length_scal, length_toR. lia.
    + intros x. rewrite toR_scal. unfold ev in *. rewrite evn_rpadd, !evn_rscal, evn_rpadd. specialize (A3 x).
      replace (Sc * T * (ga * f x)) with (T * ga * (Sc * f x)) by ring. rewrite A3. ring.
  - rewrite toR_scal, mult_IZR, abs_IZR, norm1_rscal. apply Rmult_le_compat_l; [apply Rabs_pos|assumption].
Qed.
Lemma zsum_norm l : norm1 (toR l) <= IZR (zsum l).
Proof. induction l as [|c l IH]; cbn [toR map norm1 zsum]; [lra|]. fold (toR l). rewrite plus_IZR, abs_IZR. lra. Qed.
Lemma zsum_pos l : (0 <= zsum l)%Z.
Proof. induction l; cbn; lia. Qed.
Lemma shr_map q P : (0 <= q)%Z -> map (fun x => Z.shiftr x q) P = rdiv (2 ^ q) P.
Proof. intros Hq. apply map_ext. intros x. now apply Z.shiftr_div_pow2. Qed.
Lemma good_shr Sc X f q : (0 <= q)%Z -> good Sc X f -> good (Sc / IZR (2 ^ q)) (bshr q X) f.
Proof.
  destruct X as [[P e] n]. intros Hq (A & B & He & Hn). unfold bshr. rewrite (shr_map q P Hq).
  assert (Hp : (0 < 2 ^ q)%Z) by (now apply Z.pow_pos_nonneg).
  rewrite Z.shiftr_div_pow2 by assumption.
  assert (Hd := Z.div_pos e (2 ^ q) He Hp).
  split; [|split; [apply zsum_norm|split; [lia|apply zsum_pos]]].
  apply (enc_weaken _ _ (IZR e / IZR (2 ^ q) + INR (length P))); [|now apply enc_rdiv].
  rewrite !plus_IZR, <- INR_IZR_INZ. apply Rplus_le_compat_r.
  assert (Hp' : 0 < IZR (2 ^ q)) by (apply (IZR_lt 0); assumption).
  apply (Rmult_le_reg_r (IZR (2 ^ q))); [assumption|]. unfold Rdiv. rewrite Rmult_assoc, Rinv_l, Rmult_1_r by lra.
  rewrite <- plus_IZR, <- mult_IZR. apply IZR_le.
  pose proof (Z.div_mod e (2 ^ q)). pose proof (Z.mod_pos_bound e (2 ^ q)). lia.
Qed.

(* ---- Clenshaw ----------------------------------------------------------------------- *)
(* values b_0, b_1 of Clenshaw's recurrence at A/2^22, rounded *)
Fixpoint clen (A : Z) (l : list Z) : Z * Z :=
  match l with
  | [] => (0, 0)%Z
  | c :: t => let '(b1, b2) := clen A t in ((c + Z.shiftr (A * b1) 21 - b2)%Z, b1)
  end.
Definition DD : Z := 2 ^ 22.
Lemma HDD : IZR DD = 4194304. Proof. reflexivity. Qed.
(* sum of l_j cos(al + j ph) *)
Fixpoint csg (al ph : R) (l : list R) : R :=
  match l with [] => 0 | c :: t => c * cos al + csg (al + ph) ph t end.
Lemma csg_bound ph l : forall al, Rabs (csg al ph l) <= norm1 l.
Proof.
  induction l as [|c l IH]; intros al; cbn [csg norm1]; [rewrite Rabs_R0; lra|].
  eapply Rle_trans; [apply Rabs_triang|]. apply Rplus_le_compat; [|apply IH]. rewrite Rabs_mult.
  assert (Rabs (cos al) <= 1) by (apply Rabs_le, COS_bound). pose proof (Rabs_pos c). nra.
Qed.
Lemma clen_spec A ph l : cos ph = IZR A / IZR DD -> exists r, norm1 r <= INR (length l) /\
  let '(b0, b1) := clen A l in
  forall al, csg al ph (toR l) + csg al ph r = IZR b0 * cos al - IZR b1 * cos (al - ph).
Proof.
  intros Hph. induction l as [|c l (r & Hn & IH)].
  - exists []. split; [cbn; lra|]. intros al. cbn. ring.
  - cbn [clen]. destruct (clen A l) as [b1 b2]. set (x := cos ph) in *.
    set (f := Z.shiftr (A * b1) 21).
    assert (Hf : Rabs (IZR f - 2 * x * IZR b1) <= 1).
    { unfold f. rewrite Z.shiftr_div_pow2 by lia.
      assert (H := Z.div_mod (A * b1) (2 ^ 21) ltac:(lia)). assert (H' := Z.mod_pos_bound (A * b1) (2 ^ 21) ltac:(lia)).
      set (qq := (A * b1 / 2 ^ 21)%Z) in *. set (rr := ((A * b1) mod 2 ^ 21)%Z) in *.
      apply (f_equal IZR) in H. rewrite plus_IZR, !mult_IZR in H.
      assert (HD : IZR DD = 2 * IZR (2 ^ 21)) by (rewrite <- mult_IZR; reflexivity).
      assert (Hp : 0 < IZR (2 ^ 21)) by (apply IZR_lt; lia).
      replace (IZR qq - 2 * x * IZR b1) with (- (IZR rr / IZR (2 ^ 21))).
      - rewrite Rabs_Ropp, Rabs_right.
        + apply (Rmult_le_reg_r (IZR (2 ^ 21))); [assumption|]. unfold Rdiv. rewrite Rmult_assoc, Rinv_l by lra.
          rewrite Rmult_1_r, Rmult_1_l. apply IZR_le. lia.
        + apply Rle_ge, Rmult_le_pos; [apply IZR_le; lia|left; now apply Rinv_0_lt_compat].
      - rewrite Hph, HD. apply (Rmult_eq_reg_r (IZR (2 ^ 21))); [|lra].
        replace ((IZR qq - 2 * (IZR A / (2 * IZR (2 ^ 21))) * IZR b1) * IZR (2 ^ 21)) with (IZR (2 ^ 21) * IZR qq - IZR A * IZR b1) by (field; lra).
        rewrite H. field. lra. }
    exists ((IZR f - 2 * x * IZR b1) :: r). split.
    { cbn [norm1]. change (length (c :: l)) with (S (length l)). rewrite S_INR. lra. }
    intros al. cbn [toR map csg]. fold (toR l). rewrite minus_IZR, plus_IZR.
    specialize (IH (al + ph)). replace (al + ph - ph) with al in IH by ring.
    replace (IZR c * cos al + csg (al + ph) ph (toR l) + ((IZR f - 2 * x * IZR b1) * cos al + csg (al + ph) ph r))
      with (IZR c * cos al + (IZR f - 2 * x * IZR b1) * cos al + (csg (al + ph) ph (toR l) + csg (al + ph) ph r)) by ring.
    rewrite IH, cos_plus, cos_minus. fold x. ring.
Qed.

(* coefficients of even and odd index *)
Fixpoint split2 {T : Type} (l : list T) : list T * list T :=
  match l with
  | [] => ([], [])
  | a :: t => let '(u, v) := split2 t in (a :: v, u)
  end.
Lemma split2_map {T U : Type} (f : T -> U) l : split2 (map f l) = (map f (fst (split2 l)), map f (snd (split2 l))).
Proof. induction l as [|a l IH]; [reflexivity|]. cbn. rewrite IH. destruct (split2 l). reflexivity. Qed.
Lemma split2_length {T : Type} (l : list T) : (length (fst (split2 l)) + length (snd (split2 l)) = length l)%nat.
Proof. induction l as [|a l IH]; [reflexivity|]. cbn. destruct (split2 l) as [u v]. cbn in *. lia. Qed.
Lemma cs_split l : forall k t, let '(u, v) := split2 l in
  cs k l t = csg (INR k * t) (2 * t) u + csg (INR (S k) * t) (2 * t) v.
Proof.
  induction l as [|a l IH]; intros k t; cbn [split2]; [cbn; ring|].
  specialize (IH (S k) t). destruct (split2 l) as [u v]. cbn [cs csg]. rewrite IH.
  replace (INR k * t + 2 * t) with (INR (S (S k)) * t) by (rewrite !S_INR; ring). ring.
Qed.
Lemma csg_pi (m m' : Z) l : forall al t, Z.odd m = Z.odd m' ->
  csg (IZR m * PI + al) (2 * (PI - t)) l = csg (IZR m' * PI + al) (- (2 * t)) l.
Proof.
  assert (P : forall k b, cos (IZR (2 * k) * PI + b) = cos b).
  { intros k b. rewrite mult_IZR. replace (2 * IZR k * PI + b) with (b + 2 * (IZR k) * PI) by ring.
    destruct (Z_le_gt_dec 0 k) as [Hk|Hk].
    - rewrite <- (Z2Nat.id k Hk), <- INR_IZR_INZ. apply cos_period.
    - rewrite <- (cos_period (b + 2 * IZR k * PI) (Z.to_nat (- k))). f_equal.
      rewrite INR_IZR_INZ, Z2Nat.id by lia. rewrite opp_IZR. ring. }
  assert (Q : forall a b c, Z.odd a = Z.odd b -> cos (IZR a * PI + c) = cos (IZR b * PI + c)).
  { intros a b c H. assert (He : Z.odd (a - b) = false) by (rewrite Z.odd_sub, H; destruct (Z.odd b); reflexivity).
    rewrite <- Z.negb_even in He. apply negb_false_iff, Z.even_spec in He. destruct He as [k Hk].
    replace a with (2 * k + b)%Z by lia. rewrite plus_IZR.
    replace ((IZR (2 * k) + IZR b) * PI + c) with (IZR (2 * k) * PI + (IZR b * PI + c)) by ring. apply P. }
  revert m m'. induction l as [|c l IH]; intros m m' al t H; cbn [csg]; [reflexivity|].
  rewrite (Q m m' al H). f_equal.
  replace (IZR m * PI + al + 2 * (PI - t)) with (IZR (m + 2) * PI + (al - 2 * t)) by (rewrite plus_IZR; ring).
  replace (IZR m' * PI + al + - (2 * t)) with (IZR m' * PI + (al - 2 * t)) by ring.
  apply IH. rewrite Z.odd_add, H. destruct (Z.odd m'); reflexivity.
Qed.
Lemma csg_neg l : forall al ph, csg (- al) (- ph) l = csg al ph l.
Proof.
  induction l as [|c l IH]; intros al ph; cbn [csg]; [reflexivity|]. rewrite cos_neg.
  replace (- al + - ph) with (- (al + ph)) by ring. now rewrite IH.
Qed.
Lemma csg_shift l : forall al ph, csg (PI + al) ph l = - csg al ph l.
Proof.
  induction l as [|c l IH]; intros al ph; cbn [csg]; [ring|].
  rewrite Rplus_assoc, IH, Rplus_comm, (Rplus_comm PI), neg_cos. ring.
Qed.
Lemma cs_pair l t : let '(u, v) := split2 l in
  cs 0 l t = csg 0 (2 * t) u + csg t (2 * t) v /\ cs 0 l (PI - t) = csg 0 (2 * t) u - csg t (2 * t) v.
Proof.
  assert (H := cs_split l 0 t). assert (H' := cs_split l 0 (PI - t)). destruct (split2 l) as [u v]. cbn [INR] in *.
  rewrite !Rmult_0_l, !Rmult_1_l in *. split; [exact H|]. rewrite H'.
  assert (E1 := csg_pi 0 0 u 0 t eq_refl). rewrite !Rmult_0_l, !Rplus_0_l in E1. rewrite E1.
  assert (E2 := csg_pi 1 1 v (- t) t eq_refl). rewrite !Rmult_1_l in E2.
  change (csg (PI - t) (2 * (PI - t)) v) with (csg (PI + - t) (2 * (PI - t)) v). rewrite E2, csg_shift, csg_neg.
  assert (E3 := csg_neg u 0 (2 * t)). rewrite Ropp_0 in E3. rewrite E3. ring.
Qed.

Section Check.
Variables (C : list Z) (e : Z).
Definition Ce : list Z := fst (split2 C).
Definition Co : list Z := snd (split2 C).
(* cos(theta) for the angle theta = acos(A/2^22)/2, rounded down, times 2^22 *)
Definition half (A : Z) : Z := Z.sqrt ((DD + A) * 2 ^ 21).
(* bounds of the values at theta and pi-theta; at pi-theta *)
Definition eval2 (le lo : list Z) (n : Z) (A : Z) : Z :=
  let '(e0, e1) := clen A le in let '(o0, o1) := clen A lo in
  (Z.shiftr (Z.abs (DD * e0 - A * e1) + Z.abs (o0 - o1) * (half A + 1)) 22 + n)%Z.
Definition eval1 (le lo : list Z) (n : Z) (A : Z) : Z :=
  let '(e0, e1) := clen A le in let '(o0, o1) := clen A lo in
  (Z.shiftr (Z.abs (DD * e0 - A * e1 - (o0 - o1) * half A) + Z.abs (o0 - o1)) 22 + n)%Z.

Fixpoint zw2 (k : Z) (l : list Z) : Z := match l with [] => 0%Z | c :: t => (k * k * Z.abs c + zw2 (k + 1) t)%Z end.
Fixpoint zw4 (k : Z) (l : list Z) : Z := match l with [] => 0%Z | c :: t => (k * k * (k * k) * Z.abs c + zw4 (k + 1) t)%Z end.
Fixpoint zs2 (k : Z) (l : list Z) : Z := match l with [] => 0%Z | c :: t => (k * k * c + zs2 (k + 1) t)%Z end.


Definition W2 : Z := let n := Z.of_nat (length C) in (zw2 0 C + n * n * e)%Z.
Definition W4 : Z := let n := Z.of_nat (length C) in (zw4 0 C + n * n * (n * n) * e)%Z.
Definition S2lo : Z := let n := Z.of_nat (length C) in (zs2 0 C - n * n * e)%Z.
Definition S2hi : Z := let n := Z.of_nat (length C) in (zs2 0 C + n * n * e)%Z.
Fixpoint zs0 (l : list Z) : Z := match l with [] => 0%Z | c :: t => (c + zs0 t)%Z end.
(* lower bound of the scale *)
Definition Sclo : Z := (zs0 C - e)%Z.

Definition cell_ok (Sl w2 A B Va Vb : Z) : bool :=
  let sg := Z.min (Sl - Z.max Va Vb) (w2 / 40) in
  let Q := (3 * w2 * (DD * DD - A * B) - 44 * sg * (DD * DD))%Z in
  (0 <=? sg)%Z && (0 <? w2)%Z && ((Q <=? 0)%Z || (Q * Q <=? 9 * w2 * w2 * ((DD * DD - A * A) * (DD * DD - B * B)))%Z).
Fixpoint cover (eval pt : Z -> Z) (fuel : nat) (Sl w2 i j A B Va Vb : Z) : bool :=
  if cell_ok Sl w2 A B Va Vb then true else
  match fuel with
  | O => false
  | S fuel => let m := ((i + j) / 2)%Z in let M := pt m in let Vm := eval M in
     if (Z.abs M <=? DD)%Z then
       if cover eval pt fuel Sl w2 i m A M Va Vm then cover eval pt fuel Sl w2 m j M B Vm Vb else false
     else false
  end.
(* the whole check: both angles from the point of index i0 on, the large angle before it, and
   the small angle before it by the expansion at 0 *)
Definition check (pt : Z -> Z) (i0 : Z) : bool :=
  let w2 := W2 in let A := pt i0 in let Sl := Sclo in
  let le := Ce in let lo := Co in let n := (1 + Z.of_nat (length C) + e)%Z in
  (Z.abs A <=? DD)%Z && (0 <? Sl)%Z && (0 <=? e)%Z && (5 * (DD - A) <? 2 * DD)%Z &&
  (6 * W4 * (DD - A) <=? 12 * 11 * DD * S2lo)%Z && (3 * S2hi * (DD - A) <=? 11 * DD * Sl)%Z &&
  cover (eval1 le lo n) pt 17 Sl w2 0 i0 DD A (eval1 le lo n DD) (eval1 le lo n A) &&
  cover (eval2 le lo n) pt 17 Sl w2 i0 (2 ^ 17) A (- DD) (eval2 le lo n A) (eval2 le lo n (- DD)).

(* ---- soundness ---- *)
Variable Sc : R.
Variable phi : R -> R.
Hypothesis Henc : enc Sc C (IZR e) phi.
Hypothesis H1 : phi 1 = 1.

Lemma w2_norm l : forall k, w2 k l <= (INR k + INR (length l)) ^ 2 * norm1 l.
Proof.
  induction l as [|c l IH]; intros k; cbn [w2 norm1]; [cbn; lra|].
  change (length (c :: l)) with (S (length l)). specialize (IH (S k)). rewrite S_INR in *.
  pose proof (Rabs_pos c). pose proof (pos_INR k). pose proof (pos_INR (length l)). pose proof (norm1_pos l).
  set (a := INR k) in *. set (b := INR (length l)) in *. set (n := norm1 l) in *. set (cc := Rabs c) in *.
  replace (a + (b + 1)) with (a + 1 + b) by ring.
  assert (a * a * cc <= (a + 1 + b) ^ 2 * cc) by (apply Rmult_le_compat_r; nra). lra.
Qed.
Lemma w4_norm l : forall k, w4 k l <= (INR k + INR (length l)) ^ 4 * norm1 l.
Proof.
  induction l as [|c l IH]; intros k; cbn [w4 norm1]; [cbn; lra|].
  change (length (c :: l)) with (S (length l)). specialize (IH (S k)). rewrite S_INR in *.
  pose proof (Rabs_pos c). pose proof (pos_INR k). pose proof (pos_INR (length l)). pose proof (norm1_pos l).
  set (a := INR k) in *. set (b := INR (length l)) in *. set (n := norm1 l) in *. set (cc := Rabs c) in *.
  replace (a + (b + 1)) with (a + 1 + b) by ring.
  assert (a * a * (a * a) * cc <= (a + 1 + b) ^ 4 * cc).
  { apply Rmult_le_compat_r; [assumption|]. replace (a * a * (a * a)) with (a ^ 4) by ring. apply pow_incr. lra. }
  lra.
Qed.
Lemma w2_pos l : forall k, 0 <= w2 k l.
Proof. intros k. eapply Rle_trans; [apply Rabs_pos|apply (cs2_bound l k 0)]. Qed.
Lemma s2_w2 l : forall k, Rabs (s2 k l) <= w2 k l.
Proof.
  induction l as [|c l IH]; intros k; cbn [s2 w2]; [rewrite Rabs_R0; lra|].
  eapply Rle_trans; [apply Rabs_triang|]. rewrite !Rabs_mult, (Rabs_right (INR k)) by (apply Rle_ge, pos_INR).
  specialize (IH (S k)). lra.
Qed.
Lemma w2_add a : forall b k, w2 k (rpadd a b) <= w2 k a + w2 k b.
Proof.
  induction a as [|u a IH]; intros [|v b] k; cbn [rpadd w2]; try lra.
  specialize (IH b (S k)). pose proof (Rabs_triang u v). pose proof (pos_INR k).
  assert (INR k * INR k * Rabs (u + v) <= INR k * INR k * (Rabs u + Rabs v)) by (apply Rmult_le_compat_l; nra). lra.
Qed.
Lemma w4_add a : forall b k, w4 k (rpadd a b) <= w4 k a + w4 k b.
Proof.
  induction a as [|u a IH]; intros [|v b] k; cbn [rpadd w4]; try lra.
  specialize (IH b (S k)). pose proof (Rabs_triang u v). pose proof (pos_INR k).
  assert (0 <= INR k * INR k) by nra.
  assert (INR k * INR k * (INR k * INR k) * Rabs (u + v) <= INR k * INR k * (INR k * INR k) * (Rabs u + Rabs v)) by (apply Rmult_le_compat_l; nra). lra.
Qed.
Lemma s2_add a : forall b k, s2 k (rpadd a b) = s2 k a + s2 k b.
Proof. induction a as [|u a IH]; intros [|v b] k; cbn [rpadd s2]; rewrite ?IH; ring. Qed.
Lemma zw2_R l : forall k, IZR (zw2 (Z.of_nat k) l) = w2 k (toR l).
Proof.
  induction l as [|c l IH]; intros k; cbn [zw2 toR map w2]; [reflexivity|]. fold (toR l).
  rewrite plus_IZR, !mult_IZR, abs_IZR, <- INR_IZR_INZ. specialize (IH (S k)). rewrite Nat2Z.inj_succ in IH. unfold Z.succ in IH. now rewrite IH.
Qed.
Lemma zw4_R l : forall k, IZR (zw4 (Z.of_nat k) l) = w4 k (toR l).
Proof.
  induction l as [|c l IH]; intros k; cbn [zw4 toR map w4]; [reflexivity|]. fold (toR l).
  rewrite plus_IZR, !mult_IZR, abs_IZR, <- INR_IZR_INZ. specialize (IH (S k)). rewrite Nat2Z.inj_succ in IH. unfold Z.succ in IH. now rewrite IH.
Qed.
Lemma zs2_R l : forall k, IZR (zs2 (Z.of_nat k) l) = s2 k (toR l).
Proof.
  induction l as [|c l IH]; intros k; cbn [zs2 toR map s2]; [reflexivity|]. fold (toR l).
  rewrite plus_IZR, !mult_IZR, <- INR_IZR_INZ. specialize (IH (S k)). rewrite Nat2Z.inj_succ in IH. unfold Z.succ in IH. now rewrite IH.
Qed.


Lemma zs0_R l k : IZR (zs0 l) = evn k (toR l) 1.
Proof. revert k. induction l as [|c l IH]; intros k; cbn [zs0 toR map evn]; [reflexivity|]. fold (toR l). rewrite plus_IZR, Tn_1, (IH (S k)). ring. Qed.
Definition th (A : Z) : R := acos (IZR A / IZR DD) / 2.
Lemma bnd A : (Z.abs A <= DD)%Z -> -1 <= IZR A / IZR DD <= 1.
Proof.
  intros HA. assert (IZR (- DD) <= IZR A <= IZR DD) by (split; apply IZR_le; lia).
  rewrite opp_IZR, HDD in H. rewrite HDD. lra.
Qed.
Lemma half_ok A : (Z.abs A <= DD)%Z -> IZR (half A) <= cos (th A) * IZR DD <= IZR (half A) + 1.
Proof.
  intros HA. assert (Hb := bnd A HA). set (y := IZR A / IZR DD) in *.
  assert (Hc : cos (2 * th A) = y) by (unfold th; replace (2 * (acos (IZR A / IZR DD) / 2)) with (acos y) by (fold y; field); now apply cos_acos).
  assert (Ht : 0 <= th A <= PI / 2) by (unfold th; pose proof (acos_bound (IZR A / IZR DD)); lra).
  assert (Hp : 0 <= cos (th A)) by (apply cos_ge_0; pose proof PI_RGT_0; lra).
  rewrite cos_2a_cos in Hc.
  assert (HDp : 0 < IZR DD) by (rewrite HDD; lra).
  assert (HX : (cos (th A) * IZR DD) * (cos (th A) * IZR DD) = IZR ((DD + A) * 2 ^ 21)).
  { rewrite mult_IZR, plus_IZR. replace (IZR A) with (y * IZR DD) by (unfold y; field; lra).
    replace (IZR (2 ^ 21)) with (IZR DD / 2) by (rewrite HDD; change (2 ^ 21)%Z with 2097152%Z; lra).
    rewrite <- Hc. field. }
  set (w := cos (th A) * IZR DD) in *. assert (Hw : 0 <= w) by (unfold w; nra).
  unfold half. set (Z0 := ((DD + A) * 2 ^ 21)%Z) in *.
  assert (HZ0 : (0 <= Z0)%Z) by (unfold Z0; lia).
  destruct (Z.sqrt_spec Z0 HZ0) as [L1 L2]. set (h := Z.sqrt Z0) in *. assert (Hh : (0 <= h)%Z) by (apply Z.sqrt_nonneg).
  apply IZR_le in L1, Hh. apply IZR_lt in L2. rewrite mult_IZR in L1. rewrite mult_IZR, succ_IZR in L2. rewrite <- HX in L1, L2.
  split; [|left]; [apply Rsqr_incr_0_var|apply Rsqr_incrst_0]; unfold Rsqr; lra.
Qed.
(* the exact coefficients *)
Lemma exact_list : exists L, (forall x, Sc * phi x = ev L x) /\ w2 0 L <= IZR W2 /\ w4 0 L <= IZR W4 /\
  IZR S2lo <= s2 0 L <= IZR S2hi /\ IZR Sclo <= Sc /\
  forall A, (Z.abs A <= DD)%Z ->
    let n := (1 + Z.of_nat (length C) + e)%Z in
    Rabs (cs 0 L (th A)) <= IZR (eval2 Ce Co n A) /\ Rabs (cs 0 L (PI - th A)) <= IZR (eval2 Ce Co n A) /\
    Rabs (cs 0 L (PI - th A)) <= IZR (eval1 Ce Co n A).
Proof.
  destruct Henc as (dl & A1 & A2 & A3). exists (rpadd (toR C) dl).
  assert (Hn : INR (length dl) <= INR (length C)) by (now apply le_INR).
  assert (Hp := norm1_pos dl). assert (Hl := pos_INR (length dl)).
  assert (H2 : w2 0 dl <= INR (length C) * INR (length C) * IZR e).
  { eapply Rle_trans; [apply w2_norm|]. cbn [INR]. rewrite Rplus_0_l. apply Rmult_le_compat; try assumption; nra. }
  assert (H4 : w4 0 dl <= INR (length C) * INR (length C) * (INR (length C) * INR (length C)) * IZR e).
  { eapply Rle_trans; [apply w4_norm|]. cbn [INR]. rewrite Rplus_0_l.
    replace (INR (length C) * INR (length C) * (INR (length C) * INR (length C))) with (INR (length C) ^ 4) by ring.
    apply Rmult_le_compat; [apply pow_le; lra|lra|apply pow_incr; lra|lra]. }
  assert (Hab : forall u, - Rabs u <= u <= Rabs u) by (intros u; unfold Rabs; destruct (Rcase_abs u); lra).
  split; [|split; [|split; [|split; [|split]]]].
  - intros x. rewrite A3. unfold ev. now rewrite evn_rpadd.
  - unfold W2. rewrite plus_IZR, !mult_IZR, <- INR_IZR_INZ, (zw2_R C 0 : IZR (zw2 0 C) = _). eapply Rle_trans; [apply w2_add|lra].
  - unfold W4. rewrite plus_IZR, !mult_IZR, <- INR_IZR_INZ, (zw4_R C 0 : IZR (zw4 0 C) = _). eapply Rle_trans; [apply w4_add|lra].
  - unfold S2lo, S2hi. rewrite minus_IZR, plus_IZR, !mult_IZR, <- INR_IZR_INZ, (zs2_R C 0 : IZR (zs2 0 C) = _), s2_add.
    assert (H := s2_w2 dl 0). assert (H' := Hab (s2 0 dl)). lra.
  - unfold Sclo. rewrite minus_IZR, (zs0_R C 0). specialize (A3 1). rewrite H1 in A3. unfold ev in A3.
    assert (H := evn_bound dl 0 1 ltac:(lra)). assert (H' := Hab (evn 0 dl 1)). lra.
  - intros A HA n. set (t := th A).
    assert (Hph : cos (2 * t) = IZR A / IZR DD).
    { unfold t, th. replace (2 * (acos (IZR A / IZR DD) / 2)) with (acos (IZR A / IZR DD)) by field. apply cos_acos. now apply bnd. }
    assert (HDp : 0 < IZR DD) by (rewrite HDD; lra).
    assert (Hadd : forall s, cs 0 (rpadd (toR C) dl) s = cs 0 (toR C) s + cs 0 dl s).
    { intros s. rewrite <- !evn_cs. apply evn_rpadd. }
    assert (Hdl : forall s, Rabs (cs 0 dl s) <= IZR e).
    { intros s. rewrite <- evn_cs. eapply Rle_trans; [apply evn_bound, COS_bound|assumption]. }
    assert (HP := cs_pair (toR C) t). unfold toR in HP. rewrite split2_map in HP. destruct HP as [HP1 HP2].
    change (fst (split2 C)) with Ce in *. change (snd (split2 C)) with Co in *. fold (toR Ce) in *. fold (toR Co) in *. fold (toR C) in *.
    destruct (clen_spec A (2 * t) Ce Hph) as (re & Ne & Ee). destruct (clen_spec A (2 * t) Co Hph) as (ro & No & Eo).
    unfold eval2, eval1. destruct (clen A Ce) as [e0 e1]. destruct (clen A Co) as [o0 o1].
    specialize (Ee 0). specialize (Eo t). rewrite cos_0 in Ee.
    replace (0 - 2 * t) with (- (2 * t)) in Ee by ring. rewrite cos_neg, Hph in Ee.
    replace (t - 2 * t) with (- t) in Eo by ring. rewrite cos_neg in Eo.
    assert (Hlen : INR (length Ce) + INR (length Co) = INR (length C)) by (rewrite <- plus_INR; f_equal; apply split2_length).
    assert (Be := csg_bound (2 * t) re 0). assert (Bo := csg_bound (2 * t) ro t).
    assert (Hh := half_ok A HA). fold t in Hh.
    set (he := half A) in *. set (U := IZR e0 * 1 - IZR e1 * (IZR A / IZR DD)) in *.
    set (o := (o0 - o1)%Z) in *.
    assert (Eo' : csg t (2 * t) (toR Co) + csg t (2 * t) ro = IZR o * cos t) by (rewrite Eo; unfold o; rewrite minus_IZR; ring).
    assert (HU : IZR (DD * e0 - A * e1) = U * IZR DD).
    { unfold U. rewrite minus_IZR, !mult_IZR. field. lra. }
    assert (Hsh : forall V R0, (0 <= V)%Z -> R0 * IZR DD <= IZR V -> R0 <= IZR (Z.shiftr V 22) + 1).
    { intros V R0 HV HR. rewrite Z.shiftr_div_pow2 by lia. change (2 ^ 22)%Z with DD.
      apply (Rmult_le_reg_r (IZR DD)); [assumption|]. eapply Rle_trans; [exact HR|].
      rewrite <- plus_IZR, <- mult_IZR. apply IZR_le.
      pose proof (Z.div_mod V DD). pose proof (Z.mod_pos_bound V DD). unfold DD in *. lia. }
    assert (Hhe : (0 <= he)%Z) by apply Z.sqrt_nonneg. assert (Hhe' := IZR_le _ _ Hhe).
    assert (HV2 : Rabs U + Rabs (IZR o * cos t) <= IZR (Z.shiftr (Z.abs (DD * e0 - A * e1) + Z.abs o * (he + 1)) 22) + 1).
    { apply Hsh; [apply Z.add_nonneg_nonneg; [lia|apply Z.mul_nonneg_nonneg; lia]|]. rewrite plus_IZR, mult_IZR, !abs_IZR, plus_IZR, HU, !Rabs_mult, (Rabs_right (IZR DD)) by lra.
      rewrite Rmult_plus_distr_r. apply Rplus_le_compat_l. rewrite Rmult_assoc. apply Rmult_le_compat_l; [apply Rabs_pos|].
      rewrite Rabs_right; [lra|]. nra. }
    assert (HV1 : Rabs (U - IZR o * cos t) <= IZR (Z.shiftr (Z.abs (DD * e0 - A * e1 - o * he) + Z.abs o) 22) + 1).
    { apply Hsh; [lia|]. rewrite plus_IZR, !abs_IZR, minus_IZR, HU, mult_IZR.
      rewrite <- (Rabs_right (IZR DD)) at 1 by lra. rewrite <- Rabs_mult.
      replace ((U - IZR o * cos t) * IZR DD) with (U * IZR DD - IZR o * IZR he + IZR o * (IZR he - cos t * IZR DD)) by ring.
      eapply Rle_trans; [apply Rabs_triang|]. apply Rplus_le_compat_l. rewrite Rabs_mult.
      assert (Rabs (IZR he - cos t * IZR DD) <= 1) by (apply Rabs_le; lra).
      pose proof (Rabs_pos (IZR o)). nra. }
    assert (Hnn : IZR n = 1 + INR (length C) + IZR e) by (unfold n; rewrite !plus_IZR, <- INR_IZR_INZ; reflexivity).
    rewrite !plus_IZR, Hnn, !Hadd, HP1, HP2.
    assert (D1 := Hdl t). assert (D2 := Hdl (PI - t)).
    set (ce := csg 0 (2 * t) (toR Ce)) in *. set (co := csg t (2 * t) (toR Co)) in *.
    set (d1 := cs 0 dl t) in *. set (d2 := cs 0 dl (PI - t)) in *.
    set (se := csg 0 (2 * t) re) in *. set (so := csg t (2 * t) ro) in *. set (oo := IZR o * cos t) in *.
    assert (K1 := Hab se). assert (K2 := Hab so). assert (K3 := Hab d1). assert (K4 := Hab d2). assert (K5 := Hab U). assert (K6 := Hab oo).
    assert (K7 := Hab (U - oo)).
    repeat split; apply Rabs_le; lra.
Qed.

(* cells *)
Section Cells.
Variable g : R -> R.
Variables (w : R) (Sl : Z).
Hypothesis Hcell : forall a b t, a <= b -> a <= t <= b -> Rabs (g t) <= Rmax (Rabs (g a)) (Rabs (g b)) + w / 8 * (b - a) ^ 2.
Hypothesis Hw0 : 0 <= w.
Lemma cell_sound W A B Va Vb : w <= IZR W -> (Z.abs A <= DD)%Z -> (Z.abs B <= DD)%Z ->
  Rabs (g (th A)) <= IZR Va -> Rabs (g (th B)) <= IZR Vb ->
  cell_ok Sl W A B Va Vb = true -> forall x, IZR B / IZR DD <= x <= IZR A / IZR DD -> Rabs (g (acos x / 2)) <= IZR Sl.
Proof.
  intros HW HA HB HVa HVb H x Hx. unfold cell_ok in H.
  set (sg := Z.min (Sl - Z.max Va Vb) (W / 40)) in *.
  set (Q := (3 * W * (DD * DD - A * B) - 44 * sg * (DD * DD))%Z) in *.
  apply andb_prop in H. destruct H as [H HQ]. apply andb_prop in H. destruct H as [Hs Hw].
  apply Z.leb_le in Hs. apply Z.ltb_lt in Hw.
  assert (HDp : 0 < IZR DD) by (rewrite HDD; lra).
  assert (Ha := bnd A HA). assert (Hb := bnd B HB). unfold th in *.
  set (a := IZR A / IZR DD) in *. set (b := IZR B / IZR DD) in *.
  assert (EA : IZR A = a * IZR DD) by (unfold a; field; lra).
  assert (EB : IZR B = b * IZR DD) by (unfold b; field; lra).
  set (w' := IZR W) in *. assert (Hw' : 0 < w') by (apply (IZR_lt 0); assumption).
  set (s := IZR sg). assert (Hs' : 0 <= s) by (apply (IZR_le 0); assumption).
  set (eta := 44 * s / (3 * w')).
  assert (Hs10 : 40 * s <= w').
  { unfold s, w'. rewrite <- mult_IZR. apply IZR_le. pose proof (Z.div_mod W 40). pose proof (Z.mod_pos_bound W 40). lia. }
  assert (He0 : eta < 2 / 5).
  { unfold eta. apply (Rmult_lt_reg_r (3 * w')); [lra|]. replace (44 * s / (3 * w') * (3 * w')) with (44 * s) by (field; lra). lra. }
  assert (EQ : IZR Q = 3 * w' * (IZR DD * IZR DD) * (1 - eta - a * b)).
  { unfold Q. rewrite minus_IZR, !mult_IZR, minus_IZR, !mult_IZR, EA, EB. fold w' s. unfold eta. field. lra. }
  assert (Hk : 0 < 3 * w' * (IZR DD * IZR DD)) by (apply Rmult_lt_0_compat; nra).
  destruct (spacing a b eta Ha Hb ltac:(lra) He0) as [Hm Hd].
  { apply orb_prop in HQ. destruct HQ as [HQ|HQ].
    - left. apply Z.leb_le in HQ. apply IZR_le in HQ. rewrite EQ in HQ.
      apply (Rmult_le_reg_l (3 * w' * (IZR DD * IZR DD))); [assumption|]. lra.
    - right. apply Z.leb_le in HQ. apply IZR_le in HQ. rewrite !mult_IZR, !minus_IZR, !mult_IZR, EQ, EA, EB in HQ. fold w' in HQ.
      apply (Rmult_le_reg_l ((3 * w' * (IZR DD * IZR DD)) * (3 * w' * (IZR DD * IZR DD)))); [apply Rmult_lt_0_compat; assumption|].
      eapply Rle_trans; [|eapply Rle_trans; [exact HQ|]]; right; ring. }
  assert (Hx1 : -1 <= x <= 1) by lra.
  assert (Hord : forall u v, -1 <= u <= 1 -> -1 <= v <= 1 -> u <= v -> acos v <= acos u).
  { intros u v Hu Hv Huv. destruct (Rle_dec (acos v) (acos u)) as [Hy|Hy]; [assumption|]. exfalso.
    assert (Bu := acos_bound u). assert (Bv := acos_bound v).
    assert (Hz : cos (acos v) < cos (acos u)) by (apply cos_decreasing_1; lra).
    rewrite !cos_acos in Hz by assumption. lra. }
  assert (O1 := Hord x a Hx1 Ha (proj2 Hx)). assert (O2 := Hord b x Hb Hx1 (proj1 Hx)).
  assert (HC := Hcell (acos a / 2) (acos b / 2) (acos x / 2) ltac:(lra) ltac:(lra)).
  eapply Rle_trans; [exact HC|].
  assert (Hmax : Rmax (Rabs (g (acos a / 2))) (Rabs (g (acos b / 2))) <= IZR Sl - s).
  { assert (Hv : IZR (Z.max Va Vb) <= IZR Sl - s) by (unfold s; rewrite <- minus_IZR; apply IZR_le; lia).
    apply Rmax_lub; (eapply Rle_trans; [eassumption|]); (eapply Rle_trans; [|exact Hv]); apply IZR_le; lia. }
  assert (w / 8 * (acos b / 2 - acos a / 2) ^ 2 <= s); [|lra].
  replace (acos b / 2 - acos a / 2) with ((acos b - acos a) / 2) by field.
  replace (((acos b - acos a) / 2) ^ 2) with ((acos b - acos a) ^ 2 / 4) by field.
  assert (Hq := pow2_ge_0 (acos b - acos a)).
  apply Rle_trans with (w' / 8 * (24 / 11 * eta / 4)); [apply Rmult_le_compat; lra|].
  unfold eta. right. field. lra.
Qed.
Lemma cover_sound W ev0 pt fuel : w <= IZR W -> (forall A, (Z.abs A <= DD)%Z -> Rabs (g (th A)) <= IZR (ev0 A)) ->
  forall i j A B Va Vb, (Z.abs A <= DD)%Z -> (Z.abs B <= DD)%Z ->
  Rabs (g (th A)) <= IZR Va -> Rabs (g (th B)) <= IZR Vb ->
  cover ev0 pt fuel Sl W i j A B Va Vb = true -> forall x, IZR B / IZR DD <= x <= IZR A / IZR DD -> Rabs (g (acos x / 2)) <= IZR Sl.
Proof.
  intros HW HE. induction fuel as [|fuel IH]; intros i j A B Va Vb HA HB HVa HVb H x Hx; cbn [cover] in H.
  - destruct (cell_ok Sl W A B Va Vb) eqn:Hc; [|discriminate]. exact (cell_sound W A B Va Vb HW HA HB HVa HVb Hc x Hx).
  - destruct (cell_ok Sl W A B Va Vb) eqn:Hc; [exact (cell_sound W A B Va Vb HW HA HB HVa HVb Hc x Hx)|]. clear Hc.
    set (m := ((i + j) / 2)%Z) in *. set (M := pt m) in *.
    destruct (Z.abs M <=? DD)%Z eqn:HM; [|discriminate]. apply Z.leb_le in HM.
    destruct (cover ev0 pt fuel Sl W i m A M Va (ev0 M)) eqn:H1'; [|discriminate].
    assert (HVm := HE M HM).
    destruct (Rle_dec (IZR M / IZR DD) x) as [Hy|Hy].
    + exact (IH i m A M Va (ev0 M) HA HM HVa HVm H1' x (conj Hy (proj2 Hx))).
    + apply (IH m j M B (ev0 M) Vb HM HB HVm HVb H x). lra.
Qed.
End Cells.

Lemma check_sound pt i0 : check pt i0 = true -> forall x, -1 <= x <= 1 -> Rabs (phi x) <= 1.
Proof.
  intros H x Hx. unfold check in H.
  repeat (apply andb_prop in H; destruct H as [H ?]).
  destruct exact_list as (L & HL & HW2 & HW4 & HS2 & HSl & HE).
  set (A := pt i0) in *. cbv zeta in HE. set (n := (1 + Z.of_nat (length C) + e)%Z) in *.
  repeat match goal with K : (_ <=? _)%Z = true |- _ => apply Z.leb_le in K | K : (_ <? _)%Z = true |- _ => apply Z.ltb_lt in K end.
  assert (HSl' : 0 < IZR Sclo) by (apply (IZR_lt 0); assumption).
  enough (HG : Rabs (ev L x) <= Sc).
  { rewrite <- HL, Rabs_mult, Rabs_right in HG by lra. apply (Rmult_le_reg_l Sc); lra. }
  assert (HDp : 0 < IZR DD) by (rewrite HDD; lra).
  set (a := IZR A / IZR DD).
  assert (EA : IZR A = a * IZR DD) by (unfold a; field; lra).
  assert (HAa : -1 <= a <= 1) by (apply bnd; assumption).
  assert (HDD1 : (Z.abs DD <= DD)%Z) by (unfold DD; lia). assert (HDD2 : (Z.abs (- DD) <= DD)%Z) by (unfold DD; lia).
  assert (E1 : IZR DD / IZR DD = 1) by (field; lra).
  assert (E2 : IZR (- DD) / IZR DD = -1) by (rewrite opp_IZR; field; lra).
  assert (Hc1 : forall a b t, a <= b -> a <= t <= b -> Rabs (cs 0 L t) <= Rmax (Rabs (cs 0 L a)) (Rabs (cs 0 L b)) + w2 0 L / 8 * (b - a) ^ 2)
    by (intros; now apply cs_cell).
  assert (Hc2 : forall a b t, a <= b -> a <= t <= b ->
    Rabs (cs 0 L (PI - t)) <= Rmax (Rabs (cs 0 L (PI - a))) (Rabs (cs 0 L (PI - b))) + w2 0 L / 8 * (b - a) ^ 2).
  { intros u v t Huv Ht. rewrite Rmax_comm. replace ((v - u) ^ 2) with (((PI - u) - (PI - v)) ^ 2) by ring.
    apply cs_cell; lra. }
  assert (Hw0 := w2_pos L 0).
  (* every angle is th or PI - th of some cosine *)
  assert (Hsmall : forall y, -1 <= y <= 1 -> y <= a -> Rabs (cs 0 L (acos y / 2)) <= IZR Sclo).
  { intros y Hy Hya.
    assert (CV := cover_sound (cs 0 L) (w2 0 L) Sclo Hc1 Hw0 W2 (eval2 Ce Co n) pt 17 HW2 (fun A0 HA0 => proj1 (HE A0 HA0))
      i0 (2 ^ 17) A (- DD)%Z _ _ ltac:(assumption) HDD2 (proj1 (HE A ltac:(assumption))) (proj1 (HE (- DD)%Z HDD2)) ltac:(assumption) y).
    apply CV. rewrite E2. fold a. lra. }
  assert (Hlarge : forall y, -1 <= y <= 1 -> Rabs (cs 0 L (PI - acos y / 2)) <= IZR Sclo).
  { intros y Hy. destruct (Rle_dec y a) as [Hya|Hya].
    - assert (CV := cover_sound (fun t => cs 0 L (PI - t)) (w2 0 L) Sclo Hc2 Hw0 W2 (eval2 Ce Co n) pt 17 HW2 (fun A0 HA0 => proj1 (proj2 (HE A0 HA0)))
        i0 (2 ^ 17) A (- DD)%Z _ _ ltac:(assumption) HDD2 (proj1 (proj2 (HE A ltac:(assumption)))) (proj1 (proj2 (HE (- DD)%Z HDD2))) ltac:(assumption) y).
      apply CV. rewrite E2. fold a. lra.
    - assert (CV := cover_sound (fun t => cs 0 L (PI - t)) (w2 0 L) Sclo Hc2 Hw0 W2 (eval1 Ce Co n) pt 17 HW2 (fun A0 HA0 => proj2 (proj2 (HE A0 HA0)))
        0 i0 DD A _ _ HDD1 ltac:(assumption) (proj2 (proj2 (HE DD HDD1))) (proj2 (proj2 (HE A ltac:(assumption)))) ltac:(assumption) y).
      apply CV. rewrite E1. fold a. lra. }
  rewrite <- (cos_acos x Hx). unfold ev. rewrite evn_cs. set (t := acos x).
  assert (Bt : 0 <= t <= PI) by apply acos_bound.
  destruct (Rle_dec t (PI / 2)) as [Hh|Hh].
  - set (y := cos (2 * t)). assert (Hy : -1 <= y <= 1) by apply COS_bound.
    assert (Ey : t = acos y / 2) by (unfold y; rewrite acos_cos by lra; field).
    destruct (Rle_dec y a) as [Hya|Hya]; [rewrite Ey; eapply Rle_trans; [now apply Hsmall|assumption]|].
    assert (Hsum : cs 0 L 0 = Sc).
    { rewrite <- evn_cs, cos_0. change (evn 0 L 1) with (ev L 1). rewrite <- HL, H1. ring. }
    assert (HN := cs_near0 L 0 t). rewrite Hsum in HN.
    assert (Ha5 : 5 * (1 - a) < 2).
    { match goal with K : (5 * (DD - A) < 2 * DD)%Z |- _ => apply IZR_lt in K; rewrite !mult_IZR, minus_IZR, EA in K end.
      apply (Rmult_lt_reg_r (IZR DD)); [assumption|]. lra. }
    assert (Ht : t * t <= 6 / 11 * (1 - a)).
    { assert (K := angle_small (2 * t) ltac:(lra)). fold y in K. specialize (K ltac:(lra)). lra. }
    assert (Hc4 : 6 * IZR W4 * (1 - a) <= 12 * 11 * IZR S2lo).
    { match goal with K : (6 * W4 * (DD - A) <= _)%Z |- _ => apply IZR_le in K; rewrite !mult_IZR, minus_IZR, EA in K end.
      apply (Rmult_le_reg_r (IZR DD)); [assumption|]. lra. }
    assert (Hc3 : 3 * IZR S2hi * (1 - a) <= 11 * IZR Sclo).
    { match goal with K : (3 * S2hi * (DD - A) <= _)%Z |- _ => apply IZR_le in K; rewrite !mult_IZR, minus_IZR, EA in K end.
      apply (Rmult_le_reg_r (IZR DD)); [assumption|]. lra. }
    set (tt := t * t) in *. assert (Htt : 0 <= tt) by (unfold tt; nra).
    set (u := s2 0 L * tt / 2). set (v := w4 0 L * (tt * tt) / 24).
    assert (Hw40 : 0 <= w4 0 L).
    { clear. generalize 0%nat. induction L as [|c l IH]; intros k; cbn; [lra|]. specialize (IH (S k)).
      assert (0 <= INR k * INR k * (INR k * INR k) * Rabs c); [|lra]. apply Rmult_le_pos; [|apply Rabs_pos].
      pose proof (pos_INR k). assert (0 <= INR k * INR k) by nra. nra. }
    assert (Hv : v <= u).
    { unfold u, v. replace (w4 0 L * (tt * tt) / 24) with (w4 0 L * tt / 12 * (tt / 2)) by field.
      replace (s2 0 L * tt / 2) with (s2 0 L * (tt / 2)) by field. apply Rmult_le_compat_r; [lra|].
      assert (w4 0 L * tt <= IZR W4 * (6 / 11 * (1 - a))) by (apply Rmult_le_compat; lra). lra. }
    assert (Hu : u <= Sc).
    { unfold u. assert (s2 0 L * tt <= IZR S2hi * (6 / 11 * (1 - a))); [|lra].
      apply Rle_trans with (IZR S2hi * tt); [apply Rmult_le_compat_r; lra|].
      apply Rmult_le_compat_l; [|assumption].
      destruct (Rle_dec 0 (IZR S2hi)); [assumption|]. exfalso.
      assert (IZR S2lo < 0) by lra.
      assert (0 <= IZR W4 * (1 - a)); [|lra]. apply Rmult_le_pos; lra. }
    assert (0 <= v) by (unfold v; assert (0 <= w4 0 L * (tt * tt)) by (apply Rmult_le_pos; nra); lra).
    apply Rabs_le. fold u v in HN. unfold Rabs in HN. destruct (Rcase_abs _) in HN; lra.
  - set (y := cos (2 * (PI - t))). assert (Hy : -1 <= y <= 1) by apply COS_bound.
    assert (Ey : t = PI - acos y / 2) by (unfold y; rewrite acos_cos by lra; field).
    rewrite Ey. eapply Rle_trans; [now apply Hlarge|assumption].
Qed.
End Check.
