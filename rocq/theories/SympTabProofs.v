(* C45, C56, C57: what the tables of the symplectic integrator satisfy.  The checks are done on integers
   (numbers with D digits after the binary point) and carried to the reals with an error bound. *)
From Coq Require Import Reals Lra ZArith List Lia.
From Verif Require Import Base FieldLU HessModel Spec HessPathProofs CMacros SympModel SympTables SympSpec SympProofs SympTop SympQuad.
Import ListNotations.
Open Scope Z_scope.

(* element i of a table *)
Definition tabv {K : num} (l : list (Z * Z)) (i : Z) : K := let p := nth (Z.to_nat i) l (0, 0) in nlit (fst p) (snd p).

Lemma Rlit_pow m e : 0 <= e -> Rlit m e = IZR (m * 10 ^ e).
Proof. intros H. destruct e; [rewrite Rlit_0; f_equal; change (10 ^ 0) with 1; lia|apply Rlit_pos10|lia]. Qed.
Lemma Rlit_div m e : e < 0 -> Rlit m e = (IZR m / IZR (10 ^ (- e)))%R.
Proof. intros H. destruct e; try lia. apply Rlit_neg. Qed.

Section Fixed.
Variables (D : Z) (HD : 0 <= D).
Definition toz (p : Z * Z) : Z := let (m, e) := p in if e <? 0 then (m * 2 ^ D) / 10 ^ (- e) else m * 10 ^ e * 2 ^ D.
(* z is the D-digit value of m*10^e; t = 10^-e *)
Definition okz (p : Z * Z) (t z : Z) : bool := let (m, e) := p in
  if e <? 0 then Z.abs (Z.shiftl m D - z * t) <=? t else m * 10 ^ e * 2 ^ D =? z.
Fixpoint okl (e0 t0 : Z) (l : list (Z * Z)) (zl : list Z) : bool := match l, zl with
  | [], [] => true
  | p :: l, z :: zl => if snd p =? e0 then okz p t0 z && okl e0 t0 l zl else (fun t => okz p t z && okl (snd p) t l zl) (10 ^ (- snd p))
  | _, _ => false end.
Definition dl : R := (/ IZR (2 ^ D))%R.
Definition near (n : Z) (x : R) (z : Z) : Prop := (Rabs (x - IZR z * dl) <= IZR n * dl)%R.
Definition fx (l : list Z) (i : Z) : Z := nth (Z.to_nat i) l 0.
Lemma P_pos : 0 < 2 ^ D.
Proof. apply Z.pow_pos_nonneg; lia. Qed.
Lemma PR_pos : (0 < IZR (2 ^ D))%R.
Proof. apply (IZR_lt 0), P_pos. Qed.
Lemma dl_pos : (0 < dl)%R.
Proof. apply Rinv_0_lt_compat, PR_pos. Qed.
Lemma dl_one : (IZR (2 ^ D) * dl = 1)%R.
Proof. apply Rinv_r, Rgt_not_eq, PR_pos. Qed.
Lemma okz_near p z : okz p (10 ^ (- snd p)) z = true -> near 1 (Rlit (fst p) (snd p)) z.
Proof.
  destruct p as [m e]. unfold okz, near. rewrite Z.shiftl_mul_pow2 by exact HD. cbn [fst snd]. pose proof dl_one as H1. pose proof dl_pos as H0. destruct (Z.ltb_spec e 0) as [He|He]; intros H.
  - apply Z.leb_le in H. rewrite Rlit_div by exact He. set (t := 10 ^ (- e)) in *. assert (Ht : 0 < t) by (apply Z.pow_pos_nonneg; lia).
    assert (HtR : (0 < IZR t)%R) by (apply (IZR_lt 0), Ht).
    apply IZR_le in H. rewrite abs_IZR, minus_IZR, !mult_IZR in H.
    replace (IZR m / IZR t - IZR z * dl)%R with ((IZR m * IZR (2 ^ D) - IZR z * IZR t) * (dl * / IZR t))%R
      by (transitivity (IZR m * / IZR t * (IZR (2 ^ D) * dl) - IZR z * dl * (IZR t * / IZR t))%R; [ring|rewrite H1, Rinv_r by lra; unfold Rdiv; ring]).
    assert (Hi : (0 < / IZR t)%R) by (apply Rinv_0_lt_compat, HtR). rewrite Rabs_mult, (Rabs_pos_eq (dl * _)) by nra.
    assert (E : (IZR t * (dl * / IZR t) = dl)%R) by (field; lra). rewrite Rmult_1_l. rewrite <- E at 2. apply Rmult_le_compat_r; [nra|exact H].
  - apply Z.eqb_eq in H. subst z. rewrite Rlit_pow by lia. rewrite (mult_IZR (m * 10 ^ e)), Rmult_assoc, H1. rewrite Rminus_diag_eq by ring. rewrite Rabs_R0. lra.
Qed.
Lemma fx_near l zl : okl 0 1 l zl = true -> forall i, near 1 (tabv (K := Rnum) l i) (fx zl i).
Proof.
  intros H i. unfold tabv, fx. generalize (Z.to_nat i). clear i. cbn [nlit Rnum].
  assert (N0 : near 1 (Rlit 0 0) 0). { apply (okz_near (0, 0)). reflexivity. }
  assert (T : forall e0 t0 zl, t0 = 10 ^ (- e0) -> okl e0 t0 l zl = true -> forall n, near 1 (Rlit (fst (nth n l (0, 0))) (snd (nth n l (0, 0)))) (nth n zl 0)); [|apply (T 0 1 zl eq_refl H)]. clear H zl.
  induction l as [|p l IH]; intros e0 t0 [|z zl] Ht H k; cbn in H; try discriminate.
  - destruct k; exact N0.
  - destruct (Z.eqb_spec (snd p) e0) as [E|E]; apply andb_true_iff in H; destruct H as [H1 H2].
    + destruct k as [|k]; [|exact (IH e0 t0 zl Ht H2 k)]. cbn [nth]. apply okz_near. rewrite E, <- Ht. exact H1.
    + destruct k as [|k]; [apply okz_near, H1|exact (IH _ _ zl eq_refl H2 k)].
Qed.
Lemma near_add n n' x y a b : near n x a -> near n' y b -> near (n + n') (x + y) (a + b).
Proof. unfold near. intros H1 H2. rewrite !plus_IZR. replace (x + y - (IZR a + IZR b) * dl)%R with ((x - IZR a * dl) + (y - IZR b * dl))%R by ring. eapply Rle_trans; [apply Rabs_triang|lra]. Qed.
Lemma near_sub n n' x y a b : near n x a -> near n' y b -> near (n + n') (x - y) (a - b).
Proof. unfold near. intros H1 H2. rewrite plus_IZR, minus_IZR. replace (x - y - (IZR a - IZR b) * dl)%R with ((x - IZR a * dl) + - (y - IZR b * dl))%R by ring. eapply Rle_trans; [apply Rabs_triang|]. rewrite Rabs_Ropp. lra. Qed.
Lemma near_weak n n' x a : near n x a -> n <= n' -> near n' x a.
Proof. unfold near. intros H1 H2. apply IZR_le in H2. pose proof dl_pos. nra. Qed.
Definition mulr (a b : Z) : Z := Z.shiftr (a * b) D.
Lemma mulr_div a b : mulr a b = (a * b) / 2 ^ D.
Proof. unfold mulr. apply Z.shiftr_div_pow2, HD. Qed.
Definition unit (a : Z) : Prop := Z.abs a <= 2 ^ D.
Lemma near_mul n n' x y a b : near n x a -> near n' y b -> 0 <= n <= 2 ^ D -> unit a -> unit b -> near (n + 2 * n' + 1) (x * y) (mulr a b).
Proof.
  unfold near, unit. intros H1 H2 Hn Ha Hb. rewrite mulr_div. pose proof dl_one as E1. pose proof dl_pos as E0. pose proof P_pos as PP.
  pose proof (Z.div_mod (a * b) (2 ^ D) ltac:(lia)) as Em. pose proof (Z.mod_pos_bound (a * b) (2 ^ D) PP) as Hm.
  set (q := a * b / 2 ^ D) in *. set (r := (a * b) mod 2 ^ D) in *. apply (f_equal IZR) in Em. rewrite plus_IZR, !mult_IZR in Em.
  destruct Hm as [Hm1 Hm2]. apply IZR_le in Hm1. apply IZR_lt in Hm2. apply IZR_le in Ha, Hb. rewrite abs_IZR in Ha, Hb. destruct Hn as [Hn1 Hn2]. apply IZR_le in Hn1, Hn2.
  rewrite !plus_IZR, mult_IZR. set (P := IZR (2 ^ D)) in *. set (A := (IZR a * dl)%R) in *. set (B := (IZR b * dl)%R) in *.
  assert (HA : (Rabs A <= 1)%R). { unfold A. rewrite Rabs_mult, (Rabs_pos_eq dl) by lra. rewrite <- E1. apply Rmult_le_compat_r; lra. }
  assert (HB : (Rabs B <= 1)%R). { unfold B. rewrite Rabs_mult, (Rabs_pos_eq dl) by lra. rewrite <- E1. apply Rmult_le_compat_r; lra. }
  assert (EAB : (A * B = IZR q * dl + IZR r * dl * dl)%R).
  { unfold A, B. transitivity (IZR a * IZR b * dl * dl)%R; [ring|]. rewrite Em. transitivity (IZR q * dl * (P * dl) + IZR r * dl * dl)%R; [ring|]. rewrite E1. ring. }
  assert (Hr : (0 <= IZR r * dl * dl <= dl)%R).
  { split; [apply Rmult_le_pos; [apply Rmult_le_pos|]; lra|]. rewrite <- (Rmult_1_l dl) at 3. apply Rmult_le_compat_r; [lra|]. rewrite <- E1. apply Rmult_le_compat_r; lra. }
  replace (x * y - IZR q * dl)%R with ((x - A) * (y - B) + A * (y - B) + B * (x - A) + IZR r * dl * dl)%R
    by (replace (IZR r * dl * dl)%R with (A * B - IZR q * dl)%R by lra; ring).
  eapply Rle_trans; [apply Rabs_triang|]. rewrite (Rabs_pos_eq (IZR r * dl * dl)) by lra.
  eapply Rle_trans; [apply Rplus_le_compat_r, Rabs_triang|]. eapply Rle_trans; [apply Rplus_le_compat_r, Rplus_le_compat_r, Rabs_triang|]. rewrite !Rabs_mult.
  pose proof (Rabs_pos (x - A)) as p1. pose proof (Rabs_pos (y - B)) as p2. pose proof (Rabs_pos A) as p3. pose proof (Rabs_pos B) as p4.
  assert (Q0 : (Rabs (x - A) <= 1)%R). { eapply Rle_trans; [exact H1|]. rewrite <- E1. apply Rmult_le_compat_r; lra. }
  assert (Q1 : (Rabs (x - A) * Rabs (y - B) <= 1 * (IZR n' * dl))%R) by (apply Rmult_le_compat; lra).
  assert (Q2 : (Rabs A * Rabs (y - B) <= 1 * (IZR n' * dl))%R) by (apply Rmult_le_compat; lra).
  assert (Q3 : (Rabs B * Rabs (x - A) <= 1 * (IZR n * dl))%R) by (apply Rmult_le_compat; lra). lra.
Qed.
Lemma near_le n x z M : near n x z -> Z.abs z + n <= M -> (Rabs x <= IZR M * dl)%R.
Proof.
  unfold near. intros H1 H2. apply IZR_le in H2. rewrite plus_IZR, abs_IZR in H2. pose proof dl_pos. replace x with ((x - IZR z * dl) + IZR z * dl)%R by ring.
  eapply Rle_trans; [apply Rabs_triang|]. rewrite (Rabs_mult (IZR z)), (Rabs_pos_eq dl) by lra. nra.
Qed.
Lemma near_ge n x z M : near n x z -> M <= Z.abs z - n -> (IZR M * dl <= Rabs x)%R.
Proof.
  unfold near. intros H1 H2. apply IZR_le in H2. rewrite minus_IZR, abs_IZR in H2. pose proof dl_pos.
  assert (Rabs (IZR z * dl) <= Rabs x + IZR n * dl)%R.
  { replace (IZR z * dl)%R with (x + - (x - IZR z * dl))%R by ring. eapply Rle_trans; [apply Rabs_triang|]. rewrite Rabs_Ropp. lra. }
  rewrite Rabs_mult, (Rabs_pos_eq dl) in * by lra. nra.
Qed.
(* sums *)
Fixpoint zsumn (k : nat) (lo : Z) (g : Z -> Z) : Z := match k with O => 0 | S k => g lo + zsumn k (lo + 1) g end.
Definition zsum (s : Z) (g : Z -> Z) : Z := zsumn (Z.to_nat s) 0 g.
Lemma near_sum s (g : Z -> R) (G : Z -> Z) n : 0 <= s -> (forall i, 0 <= i < s -> near n (g i) (G i)) -> near (s * n) (rsum 0 (s - 1) g) (zsum s G).
Proof.
  intros Hs H. unfold rsum, sum, zsum. replace (Z.to_nat (s - 1 - 0 + 1)) with (Z.to_nat s) by lia.
  assert (A : forall k lo, 0 <= lo -> lo + Z.of_nat k <= s -> near (Z.of_nat k * n) (sumn R 0%R Rplus k lo g) (zsumn k lo G)).
  { induction k as [|k IH]; intros lo Hlo Hk; cbn [sumn zsumn].
    - unfold near. cbn. rewrite !Rmult_0_l, Rminus_diag_eq by ring. rewrite Rabs_R0. lra.
    - replace (Z.of_nat (S k) * n) with (n + Z.of_nat k * n) by lia. apply near_add; [apply H; lia|apply IH; lia]. }
  specialize (A (Z.to_nat s) 0 ltac:(lia) ltac:(lia)). rewrite Z2Nat.id in A by lia. exact A.
Qed.
(* powers *)
Fixpoint pows (k : nat) (c acc : Z) : list Z := match k with O => [] | S k => acc :: pows k c (mulr acc c) end.
Lemma mulr_unit a b : 0 <= a <= 2 ^ D -> 0 <= b <= 2 ^ D -> 0 <= mulr a b <= 2 ^ D.
Proof.
  intros Ha Hb. rewrite mulr_div. pose proof P_pos. split; [apply Z.div_pos; nia|]. apply Z.div_le_upper_bound; [lia|]. nia.
Qed.
Lemma pows_near n (x : R) c : near n x c -> 0 <= n -> 0 <= c <= 2 ^ D -> forall k N m (y : R) acc, near m y acc -> 0 <= m -> 0 <= acc <= 2 ^ D -> (k < N)%nat ->
  m + Z.of_nat N * (2 * n + 1) <= 2 ^ D ->
  near (m + Z.of_nat k * (2 * n + 1)) (y * x ^ k) (nth k (pows N c acc) 0) /\ 0 <= nth k (pows N c acc) 0 <= 2 ^ D.
Proof.
  intros Hc Hn Bc. induction k as [|k IH]; intros N m y acc Ha Hm Ba Hk HN; (destruct N as [|N]; [lia|]); cbn [pows nth].
  - split; [|exact Ba]. cbn [pow]. rewrite Rmult_1_r. apply (near_weak m); [exact Ha|lia].
  - assert (HM : near (m + 2 * n + 1) (y * x) (mulr acc c)) by (apply near_mul; [exact Ha|exact Hc|nia|unfold unit; lia|unfold unit; lia]).
    destruct (IH N (m + 2 * n + 1) (y * x)%R (mulr acc c) HM ltac:(lia) (mulr_unit _ _ Ba Bc) ltac:(lia) ltac:(lia)) as [A B]. split; [|exact B].
    cbn [pow]. replace (y * (x * x ^ k))%R with (y * x * x ^ k)%R by ring. apply (near_weak _ _ _ _ A). lia.
Qed.

Section Tab.
Variables (s : Z) (la lb : list (Z * Z)) (za zb : list Z) (Hs : 0 <= s).
Let A := TA s (tabv (K := Rnum) la).
Let b := tabv (K := Rnum) lb.
Definition all2 (P : Z -> Z -> bool) : bool := forallb (fun i => forallb (P i) (zrange 0 (s - 1))) (zrange 0 (s - 1)).
Lemma all2_ok P : all2 P = true -> forall i j, 0 <= i < s -> 0 <= j < s -> P i j = true.
Proof.
  unfold all2. intros H i j Hi Hj. rewrite forallb_forall in H. specialize (H i ltac:(apply zrange_In; lia)). rewrite forallb_forall in H. apply H. apply zrange_In. lia.
Qed.
Definition bounded : bool := (12 <=? 2 ^ D) && (okl 0 1 la za && okl 0 1 lb zb) && (forallb (fun z => Z.abs z <=? 2 ^ D) za && forallb (fun z => Z.abs z <=? 2 ^ D) zb).
Lemma unit_nth l : forallb (fun z => Z.abs z <=? 2 ^ D) l = true -> forall i, unit (fx l i).
Proof.
  intros H i. unfold fx, unit. destruct (nth_in_or_default (Z.to_nat i) l 0) as [E|E].
  - rewrite forallb_forall in H. apply Z.leb_le, (H _ E).
  - rewrite E. pose proof P_pos. cbn. lia.
Qed.
Lemma bounded_ok : bounded = true -> 12 <= 2 ^ D /\ (forall i, near 1 (tabv (K := Rnum) la i) (fx za i)) /\ (forall i, near 1 (b i) (fx zb i)) /\ (forall i, unit (fx za i)) /\ (forall i, unit (fx zb i)).
Proof.
  unfold bounded. rewrite !andb_true_iff. intros [[H0 [H1 H2]] [H3 H4]]. apply Z.leb_le in H0.
  repeat split; [exact H0|apply fx_near, H1|apply fx_near, H2|apply unit_nth, H3|apply unit_nth, H4].
Qed.
(* Cooper's condition *)
Definition zcooper (i j : Z) : Z := mulr (fx zb i) (fx za (i * s + j)) + mulr (fx zb j) (fx za (j * s + i)) - mulr (fx zb i) (fx zb j).
Lemma cooper_near : bounded = true -> forall i j, near 12 (cooper A b i j) (zcooper i j).
Proof.
  intros H i j. destruct (bounded_ok H) as (H0 & Na & Nb & Ua & Ub). unfold cooper, zcooper, A, TA.
  change 12 with ((1 + 2 * 1 + 1) + (1 + 2 * 1 + 1) + (1 + 2 * 1 + 1)). apply near_sub; [apply near_add|]; apply near_mul; auto; lia.
Qed.
Definition max_cooper (E : Z) : bool := all2 (fun i j => (j <? i) || (Z.abs (zcooper i j) + 12 <=? E)).
Lemma cooper_sym i j : cooper A b i j = cooper A b j i.
Proof. unfold cooper. ring. Qed.
Lemma max_cooper_ok E : bounded = true -> max_cooper E = true -> forall i j, 0 <= i < s -> 0 <= j < s -> (Rabs (cooper A b i j) <= IZR E * dl)%R.
Proof.
  intros H1 H2.
  assert (T : forall i j, 0 <= i < s -> 0 <= j < s -> i <= j -> (Rabs (cooper A b i j) <= IZR E * dl)%R).
  { intros i j Hi Hj Hij. pose proof (all2_ok _ H2 i j Hi Hj) as M. apply orb_true_iff in M. destruct M as [M|M]; [apply Z.ltb_lt in M; lia|]. apply Z.leb_le in M.
    exact (near_le _ _ _ _ (cooper_near H1 i j) M). }
  intros i j Hi Hj. destruct (Z_le_dec i j) as [L|L]; [apply T; assumption|]. rewrite cooper_sym. apply T; lia.
Qed.
Lemma forallb_ex {T} (p : T -> bool) l : forallb p l = false -> exists x, In x l /\ p x = false.
Proof. induction l as [|x l IH]; cbn; [discriminate|]. destruct (p x) eqn:E; [|eauto]. cbn. intros H. destruct (IH H) as (y & Hy & Py). eauto. Qed.
Definition some_cooper (E : Z) : bool := negb (all2 (fun i j => Z.abs (zcooper i j) - 12 <? E)).
Lemma some_cooper_ok E : bounded = true -> some_cooper E = true -> exists i j, 0 <= i < s /\ 0 <= j < s /\ (IZR E * dl <= Rabs (cooper A b i j))%R.
Proof.
  intros H1 H2. apply negb_true_iff in H2. unfold all2 in H2.
  destruct (forallb_ex _ _ H2) as (i & Hi & H3). destruct (forallb_ex _ _ H3) as (j & Hj & H4). apply zrange_In in Hi, Hj.
  exists i, j. split; [lia|]. split; [lia|]. apply Z.ltb_ge in H4. exact (near_ge _ _ _ _ (cooper_near H1 i j) H4).
Qed.
(* the abscissae and the order conditions *)
Definition abscissa (i : Z) : R := rsum 0 (s - 1) (fun j => A i j).
Definition zc (i : Z) : Z := zsum s (fun j => fx za (i * s + j)).
Lemma zc_near : bounded = true -> forall i, near s (abscissa i) (zc i).
Proof. intros H i. destruct (bounded_ok H) as (H0 & Na & Nb & Ua & Ub). replace s with (s * 1) at 1 by lia. apply near_sum; [exact Hs|]. intros j Hj. apply Na. Qed.
Definition zpw (i : Z) : list Z := pows (Z.to_nat (2 * s + 1)) (zc i) (2 ^ D).
Definition in01 : bool := ((2 * s + 1) * (2 * s + 1) <=? 2 ^ D) && forallb (fun i => (0 <=? zc i) && (zc i <=? 2 ^ D)) (zrange 0 (s - 1)).
Lemma zpw_near : bounded = true -> in01 = true -> forall i k, 0 <= i < s -> 0 <= k <= 2 * s ->
  near (k * (2 * s + 1)) (abscissa i ^ Z.to_nat k) (fx (zpw i) k) /\ unit (fx (zpw i) k).
Proof.
  intros H I01 i k Hi Hk. apply andb_true_iff in I01. destruct I01 as [I0 I1]. apply Z.leb_le in I0. rewrite forallb_forall in I1. specialize (I1 i ltac:(apply zrange_In; lia)).
  apply andb_true_iff in I1. destruct I1 as [I1 I2]. apply Z.leb_le in I1, I2.
  assert (N1 : near 0 1 (2 ^ D)). { unfold near. rewrite dl_one. rewrite Rminus_diag_eq by reflexivity. rewrite Rabs_R0, Rmult_0_l. lra. }
  pose proof P_pos as PP.
  destruct (pows_near s (abscissa i) (zc i) (zc_near H i) Hs ltac:(lia) (Z.to_nat k) (Z.to_nat (2 * s + 1)) 0 1 (2 ^ D) N1 ltac:(lia) ltac:(lia) ltac:(lia) ltac:(rewrite Z2Nat.id by lia; lia)) as [P1 P2].
  rewrite Rmult_1_l, Z2Nat.id in P1 by lia. split; [exact P1|]. unfold unit, fx, zpw. lia.
Qed.
(* sum_i b_i c_i^(k-1) = 1/k *)
Definition quadrature_defect (k : Z) : R := (rsum 0 (s - 1) (fun i => b i * abscissa i ^ Z.to_nat (k - 1)) - / IZR k)%R.
Definition okB (E k : Z) (W : list (list Z)) : bool :=
  Z.abs (k * zsum s (fun i => mulr (fx (nth (Z.to_nat i) W []) (k - 1)) (fx zb i)) - 2 ^ D) + k * (s * ((k - 1) * (2 * s + 1) + 3)) <=? k * E.
Definition pwtab : list (list Z) := map zpw (zrange 0 (s - 1)).
Lemma pwtab_nth i : 0 <= i < s -> nth (Z.to_nat i) pwtab [] = zpw i.
Proof.
  intros Hi. unfold pwtab. rewrite (nth_indep _ [] (zpw 0)) by (rewrite map_length; unfold zrange; rewrite map_length, seq_length; lia). rewrite map_nth. f_equal.
  unfold zrange. rewrite (nth_indep _ 0 (0 + Z.of_nat 0)) by (rewrite map_length, seq_length; lia). rewrite (map_nth (fun k => 0 + Z.of_nat k)). rewrite seq_nth by lia. lia.
Qed.
Lemma zsumn_ext k : forall lo g h, (forall i, lo <= i < lo + Z.of_nat k -> g i = h i) -> zsumn k lo g = zsumn k lo h.
Proof. induction k as [|k IH]; intros lo g h H; cbn [zsumn]; [reflexivity|]. rewrite (H lo) by lia. f_equal. apply IH. intros i Hi. apply H. lia. Qed.
Lemma zsum_ext g h : (forall i, 0 <= i < s -> g i = h i) -> zsum s g = zsum s h.
Proof. intros H. apply zsumn_ext. intros i Hi. apply H. lia. Qed.
Lemma scaled n x z k E (y : R) w N : near n x z -> near N y w -> 0 < k -> Z.abs (k * z - w) + (k * n + N) <= k * E -> (Rabs (x - y / IZR k) <= IZR E * dl)%R.
Proof.
  intros H HY Hk HE. assert (HkR : (0 < IZR k)%R) by (apply (IZR_lt 0), Hk).
  assert (NK : near (k * n + N) (IZR k * x - y) (k * z - w)).
  { apply near_sub; [|exact HY]. unfold near in *. rewrite !mult_IZR. replace (IZR k * x - IZR k * IZR z * dl)%R with (IZR k * (x - IZR z * dl))%R by ring.
    rewrite Rabs_mult, (Rabs_pos_eq (IZR k)) by lra. rewrite Rmult_assoc. apply Rmult_le_compat_l; lra. }
  pose proof (near_le _ _ _ _ NK HE) as L. rewrite mult_IZR in L. apply (Rmult_le_reg_l (IZR k)); [exact HkR|].
  rewrite <- (Rabs_pos_eq (IZR k)) at 1 by lra. rewrite <- Rabs_mult. replace (IZR k * (x - y / IZR k))%R with (IZR k * x - y)%R by (field; lra). lra.
Qed.
Lemma okB_ok E k : bounded = true -> in01 = true -> 1 <= k <= 2 * s -> okB E k pwtab = true -> (Rabs (quadrature_defect k) <= IZR E * dl)%R.
Proof.
  intros H I01 Hk HB. unfold okB in HB. apply Z.leb_le in HB. destruct (bounded_ok H) as (H0 & Na & Nb & Ua & Ub).
  rewrite (zsum_ext _ (fun i => mulr (fx (zpw i) (k - 1)) (fx zb i))) in HB by (intros i Hi; rewrite pwtab_nth by exact Hi; reflexivity).
  unfold quadrature_defect. replace (/ IZR k)%R with (1 / IZR k)%R by (unfold Rdiv; ring).
  assert (N1 : near 0 1 (2 ^ D)). { unfold near. rewrite dl_one. rewrite Rminus_diag_eq by reflexivity. rewrite Rabs_R0, Rmult_0_l. lra. }
  assert (PB := I01). apply andb_true_iff in PB. destruct PB as [PB _]. apply Z.leb_le in PB.
  eapply (scaled (s * ((k - 1) * (2 * s + 1) + 3))); [|exact N1|lia|rewrite Z.add_0_r; exact HB].
  apply near_sum; [exact Hs|]. intros i Hi. destruct (zpw_near H I01 i (k - 1) Hi ltac:(lia)) as [P1 P2].
  rewrite Rmult_comm. replace ((k - 1) * (2 * s + 1) + 3) with ((k - 1) * (2 * s + 1) + 2 * 1 + 1) by lia. apply near_mul; auto. nia.
Qed.
(* sum_j a_ij c_j^(k-1) = c_i^k / k *)
Definition stage_defect (i k : Z) : R := (rsum 0 (s - 1) (fun j => A i j * abscissa j ^ Z.to_nat (k - 1)) - abscissa i ^ Z.to_nat k / IZR k)%R.
Definition okC (E i k : Z) (W : list (list Z)) : bool :=
  Z.abs (k * zsum s (fun j => mulr (fx (nth (Z.to_nat j) W []) (k - 1)) (fx za (i * s + j))) - fx (nth (Z.to_nat i) W []) k) + (k * (s * ((k - 1) * (2 * s + 1) + 3)) + k * (2 * s + 1)) <=? k * E.
Lemma okC_ok E i k : bounded = true -> in01 = true -> 0 <= i < s -> 1 <= k <= 2 * s -> okC E i k pwtab = true -> (Rabs (stage_defect i k) <= IZR E * dl)%R.
Proof.
  intros H I01 Hi Hk HB. unfold okC in HB. apply Z.leb_le in HB. destruct (bounded_ok H) as (H0 & Na & Nb & Ua & Ub).
  rewrite (zsum_ext _ (fun j => mulr (fx (zpw j) (k - 1)) (fx za (i * s + j)))) in HB by (intros j Hj; rewrite pwtab_nth by exact Hj; reflexivity).
  rewrite pwtab_nth in HB by exact Hi. unfold stage_defect.
  assert (PB := I01). apply andb_true_iff in PB. destruct PB as [PB _]. apply Z.leb_le in PB.
  eapply (scaled (s * ((k - 1) * (2 * s + 1) + 3))); [|apply (proj1 (zpw_near H I01 i k Hi ltac:(lia)))|lia|exact HB].
  apply near_sum; [exact Hs|]. intros j Hj. destruct (zpw_near H I01 j (k - 1) Hj ltac:(lia)) as [P1 P2].
  rewrite Rmult_comm. replace ((k - 1) * (2 * s + 1) + 3) with ((k - 1) * (2 * s + 1) + 2 * 1 + 1) by lia. unfold A, TA. apply near_mul; auto. nia.
Qed.
Definition order_ok (E : Z) : bool := in01 &&
  (fun W => forallb (fun k => okB E k W) (zrange 1 (2 * s)) && forallb (fun k => forallb (fun i => okC E i k W) (zrange 0 (s - 1))) (zrange 1 s)) pwtab.
Lemma order_ok_ok E : bounded = true -> order_ok E = true ->
  (forall k, 1 <= k <= 2 * s -> (Rabs (quadrature_defect k) <= IZR E * dl)%R) /\
  (forall i k, 0 <= i < s -> 1 <= k <= s -> (Rabs (stage_defect i k) <= IZR E * dl)%R).
Proof.
  unfold order_ok. rewrite !andb_true_iff. intros H1 [H2 [H3 H4]]. rewrite forallb_forall in H3, H4. split.
  - intros k Hk. apply okB_ok; try assumption. apply H3. apply zrange_In. lia.
  - intros i k Hi Hk. specialize (H4 k ltac:(apply zrange_In; lia)). rewrite forallb_forall in H4. apply okC_ok; try assumption; [lia|]. apply H4. apply zrange_In. lia.
Qed.
(* row sums of the extrapolation table *)
Variables (lq : list (Z * Z)) (zq : list Z).
Definition okQ (E : Z) : bool := okl 0 1 lq zq && negb (forallb (fun i => let q := zsum s (fun j => fx zq (i * s + j)) in let c := zc i in
   (Z.abs (q - c) - 2 * s <? E) || (Z.abs (q - c - 2 ^ D) - 2 * s <? E)) (zrange 0 (s - 1))).
Lemma okQ_ok E : bounded = true -> okQ E = true -> exists i, 0 <= i < s /\ (IZR E * dl <= Rabs (rsum 0 (s - 1) (fun j => TA s (tabv (K := Rnum) lq) i j) - abscissa i))%R /\
   (IZR E * dl <= Rabs (rsum 0 (s - 1) (fun j => TA s (tabv (K := Rnum) lq) i j) - (1 + abscissa i)))%R.
Proof.
  unfold okQ. rewrite !andb_true_iff. intros H1 [H2 H3]. apply negb_true_iff in H3. destruct (forallb_ex _ _ H3) as (i & Hi & H4). apply zrange_In in Hi.
  apply orb_false_iff in H4. destruct H4 as [H4 H5]. apply Z.ltb_ge in H4, H5. exists i. split; [lia|].
  assert (NQ : near s (rsum 0 (s - 1) (fun j => TA s (tabv (K := Rnum) lq) i j)) (zsum s (fun j => fx zq (i * s + j)))).
  { replace s with (s * 1) at 1 by lia. apply near_sum; [exact Hs|]. intros j Hj. apply (fx_near _ _ H2). }
  assert (N1 : near 0 1 (2 ^ D)). { unfold near. rewrite dl_one. rewrite Rminus_diag_eq by reflexivity. rewrite Rabs_R0, Rmult_0_l. lra. }
  pose proof (zc_near H1 i) as NC. split.
  - eapply near_ge; [apply near_sub; [exact NQ|exact NC]|]. lia.
  - eapply near_ge; [apply near_sub; [exact NQ|apply near_add; [exact N1|exact NC]]|]. lia.
Qed.
End Tab.
End Fixed.
