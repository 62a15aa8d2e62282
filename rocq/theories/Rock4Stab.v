(* From the check of a polynomial to the stability of the ROCK4 step on linear systems. *)
From Coq Require Import Bool Reals Lra Lia List ZArith FunctionalExtensionality.
From Verif Require Import Base HessModel Rock4Model Rock4Spec Rock4LSpec Rock4TabSpec Rock4TabNG Rock4TabL Cheb Rock4Check Rock4Poly.
Import ListNotations.
Open Scope R_scope.

(* ---- the tables as integers ---- *)
Definition tz (x : Z * Z) : Z := (fst x * 10 ^ (19 + snd x))%Z.
Lemma tz_dec x : (-19 <= snd x)%Z -> rl (tz x) = dec x.
Proof.
  intros H. unfold rl, tz, dec, Rlit, T19. rewrite mult_IZR.
  replace (snd x) with ((19 + snd x) - 19)%Z at 2 by lia. set (n := (19 + snd x)%Z) in *. assert (Hn : (0 <= n)%Z) by lia.
  rewrite <- (Z2Nat.id n Hn). rewrite <- pow_IZR. unfold Z.sub. rewrite powerRZ_add by lra. rewrite <- pow_powerRZ.
  change (powerRZ 10 (- (19))) with (/ 10 ^ 19). rewrite (pow_IZR 10 19). change (Z.of_nat 19) with 19%Z. field.
  apply Rgt_not_eq. apply IZR_lt. reflexivity.
Qed.
Definition nthZ (l : list (Z * Z)) (k : nat) : Z := tz (nth k l (0, 0)%Z).
Definition exps_ok (l : list (Z * Z)) : bool := forallb (fun x => (-19 <=? snd x)%Z) l.
Lemma exps_nth l k : exps_ok l = true -> rl (nthZ l k) = dec (nth k l (0, 0)%Z).
Proof.
  intros H. apply tz_dec. unfold exps_ok in H. rewrite forallb_forall in H. apply Z.leb_le.
  destruct (nth_in_or_default k l (0, 0)%Z) as [Hk|Hk]; [now apply H|]. rewrite Hk. reflexivity.
Qed.
Lemma ng_exps : exps_ok ng_RECF && exps_ok ng_FPA && exps_ok ng_FPB = true. Proof. vm_cast_no_check (eq_refl true). Qed.
Lemma ng_lens : List.length ng_RECF = 4382%nat /\ List.length ng_FPA = 300%nat /\ List.length ng_FPB = 200%nat.
Proof. repeat split; vm_cast_no_check (eq_refl 4382%nat) || vm_cast_no_check (eq_refl 300%nat) || vm_cast_no_check (eq_refl 200%nat). Qed.

(* ---- the coefficients of the i-th method (i from 0) near those of the NG table ---- *)
Section Deg.
Variables (tt : Z) (i : nat).
Definition deg : nat := Z.to_nat (nth i MS 0%Z).
Definition off : nat := Z.to_nat (fold_right Z.add 0 (map (fun d => 2 * d - 1) (firstn i MS)))%Z.
Definition coef_near (mu1 : R) (mu ka a b : nat -> R) : Prop :=
  near tt mu1 (nthZ ng_RECF off) /\
  (forall j, (2 <= j <= deg)%nat -> near tt (mu j) (nthZ ng_RECF (off + (2 * j - 3))) /\ near tt (ka j) (nthZ ng_RECF (off + (2 * j - 2)))) /\
  (forall j, (j < 6)%nat -> near tt (a j) (nthZ ng_FPA (50 * j + i))) /\
  (forall j, (j < 4)%nat -> near tt (b j) (nthZ ng_FPB (50 * j + i))).
Definition finl {T} (a b : nat -> T) : fin T := mkFin (a 0%nat) (a 1%nat) (a 2%nat) (a 3%nat) (a 4%nat) (a 5%nat) (b 0%nat) (b 1%nat) (b 2%nat) (b 3%nat).
Fixpoint prs (n : nat) (l : list Z) : list (Z * Z) :=
  match n, l with
  | S n, a :: b :: t => (a, b) :: prs n t
  | _, _ => []
  end.
Definition L4 : Z := (353 * (nth i MS 0 + 4) * (nth i MS 0 + 4) - 3000)%Z.
Definition deg_check (p : Z) : bool :=
  let blk := map tz (firstn (2 * deg - 1) (skipn off ng_RECF)) in
  (0 <? L4)%Z && (Datatypes.length blk =? 2 * deg - 1)%nat && (1 <=? deg)%nat &&
  stable_check L4 tt p (hd 0%Z blk) (prs (deg - 1) (tl blk)) (finl (fun j => nthZ ng_FPA (50 * j + i)) (fun j => nthZ ng_FPB (50 * j + i))).
Definition coefs (mu ka : nat -> R) : list (R * R) := map (fun j => (mu j, ka j)) (seq 2 (deg - 1)).

Lemma prs_nth : forall n l (g : nat -> Z), Datatypes.length l = (2 * n)%nat -> (forall k, (k < 2 * n)%nat -> nth k l 0%Z = g k) ->
  prs n l = map (fun j => (g (2 * j)%nat, g (2 * j + 1)%nat)) (seq 0 n).
Proof.
  induction n as [|n IH]; intros l g Hl Hg; [destruct l; [reflexivity|discriminate]|].
  destruct l as [|a [|b l]]; try (cbn in Hl; lia). cbn [prs seq map]. f_equal.
  - assert (X0 := Hg 0%nat). assert (X1 := Hg 1%nat). cbn in X0, X1. now rewrite X0, X1 by lia.
  - rewrite (IH l (fun k => g (S (S k)))).
    + rewrite <- seq_shift, map_map. apply map_ext. intros j. f_equal; f_equal; lia.
    + cbn in Hl. lia.
    + intros k Hk. rewrite <- Hg by lia. reflexivity.
Qed.
Lemma length_tl' {A} (l : list A) : Datatypes.length (tl l) = (Datatypes.length l - 1)%nat.
Proof. destruct l; cbn; lia. Qed.
Lemma nth_tl' {A} (d : A) l k : nth k (tl l) d = nth (S k) l d.
Proof. destruct l; [destruct k|]; reflexivity. Qed.
Lemma nth_hd' {A} (d : A) l : nth 0 l d = hd d l.
Proof. destruct l; reflexivity. Qed.
Lemma nth_skipn' {A} (d : A) : forall n l k, nth k (skipn n l) d = nth (n + k) l d.
Proof. induction n as [|n IH]; intros l k; [reflexivity|]. destruct l as [|x l]; [destruct k; reflexivity|]. cbn [skipn]. rewrite IH. reflexivity. Qed.
Lemma nth_firstn' {A} (d : A) : forall n l k, (k < n)%nat -> nth k (firstn n l) d = nth k l d.
Proof.
  induction n as [|n IH]; intros l k Hk; [lia|]. destruct l as [|x l]; [destruct k; reflexivity|].
  destruct k as [|k]; [reflexivity|]. cbn. apply IH. lia.
Qed.

Lemma deg_sound p : (0 <= tt)%Z -> deg_check p = true -> forall mu1 mu ka a b, coef_near mu1 mu ka a b ->
  forall z, - (IZR L4 / 1000) <= z <= 0 -> Rabs (polyR mu1 (coefs mu ka) (finl a b) z) <= 1.
Proof.
  intros Htt H mu1 mu ka a b (N1 & N2 & N3 & N4) z Hz. unfold deg_check in H.
  set (blk := map tz (firstn (2 * deg - 1) (skipn off ng_RECF))) in *.
  apply andb_prop in H. destruct H as [H HC]. apply andb_prop in H. destruct H as [H Hd]. apply andb_prop in H. destruct H as [HL Hlen].
  apply Z.ltb_lt in HL. apply Nat.eqb_eq in Hlen. apply Nat.leb_le in Hd.
  assert (Hnth : forall k, (k < 2 * deg - 1)%nat -> nth k blk 0%Z = nthZ ng_RECF (off + k)).
  { intros k Hk. unfold blk. rewrite (nth_indep _ 0%Z (tz (0, 0)%Z)) by (fold blk; rewrite Hlen; assumption).
    rewrite map_nth, nth_firstn', nth_skipn' by assumption. reflexivity. }
  refine (stable_sound _ _ Htt p _ _ _ HL HC mu1 (coefs mu ka) (finl a b) _ _ _ z Hz).
  - replace (hd 0%Z blk) with (nth 0 blk 0%Z) by (apply nth_hd'). rewrite Hnth by lia. now rewrite Nat.add_0_r.
  - assert (Ht : Datatypes.length (tl blk) = (2 * (deg - 1))%nat) by (rewrite length_tl', Hlen; lia).
    assert (Hn' : forall k, (k < 2 * (deg - 1))%nat -> nth k (tl blk) 0%Z = nthZ ng_RECF (off + S k)).
    { intros k Hk. rewrite <- Hnth by lia. apply nth_tl'. }
    rewrite (prs_nth _ _ _ Ht Hn'). unfold coefs, near_list.
    assert (HF : forall m s, (2 <= s)%nat -> (s + m <= deg + 1)%nat -> Forall2 (fun x y => near tt (fst x) (fst y) /\ near tt (snd x) (snd y))
      (map (fun j => (mu j, ka j)) (seq s m)) (map (fun j => (nthZ ng_RECF (off + S (2 * j)), nthZ ng_RECF (off + S (2 * j + 1)))) (seq (s - 2) m))).
    { induction m as [|m IH]; intros s Hs Hm; cbn [seq map]; [constructor|]. constructor.
      - destruct (N2 s) as [Q1 Q2]; [lia|]. cbn [fst snd].
        replace (off + S (2 * (s - 2)))%nat with (off + (2 * s - 3))%nat by lia. replace (off + S (2 * (s - 2) + 1))%nat with (off + (2 * s - 2))%nat by lia. now split.
      - replace (S (s - 2)) with (S s - 2)%nat by lia. apply IH; lia. }
    apply (HF (deg - 1)%nat 2%nat); lia.
  - unfold near_fin, finl. cbn [a21 a31 a32 a41 a42 a43 b1 b2 b3 b4]. repeat split; (apply N3 || apply N4); lia.
Qed.
End Deg.

(* ---- the step on a combination of eigenvectors ---- *)
Ltac rring := match goal with |- ?a = ?b => change (@eq R a b) end; ring.
Section Lin.
Variable f : vec Rnum -> vec Rnum.
Hypothesis Hf : linear f.
Variable l : list (R * vec Rnum).
Hypothesis Hl : Forall (eigen f) l.
Variable h : R.

Lemma comb_lin k : forall a b c d, (fun i => a * comb k c i + b * comb k d i) = comb k (fun lam => a * c lam + b * d lam).
Proof.
  induction k as [|p k IH]; intros a b c d; apply functional_extensionality; intros i; cbn [comb]; [rring|].
  assert (E := f_equal (fun g => g i) (IH a b c d)). cbv beta in E. rewrite <- E. rring.
Qed.
Lemma f_comb c : f (comb l c) = comb l (fun lam => lam * c lam).
Proof.
  clear h. induction Hl as [|p k Hp Hk IH]; cbn [comb].
  - assert (E : f (fun _ => 0) = fun i => 0 * f (fun _ => 0) i + 0 * f (fun _ => 0) i).
    { rewrite <- (Hf 0 0 (fun _ => 0) (fun _ => 0)). f_equal. apply functional_extensionality. intros i. rring. }
    rewrite E. apply functional_extensionality. intros i. rring.
  - assert (E : f (fun i => c (fst p) * snd p i + comb k c i) = fun i => c (fst p) * f (snd p) i + 1 * f (comb k c) i).
    { rewrite <- (Hf (c (fst p)) 1 (snd p) (comb k c)). f_equal. apply functional_extensionality. intros i. rring. }
    rewrite E. apply functional_extensionality. intros i. rewrite (IH Hk), (Hp i). rring.
Qed.
(* scalar stages *)
Variables (mu1 : R) (mu ka : Z -> R).
Definition sst (z : R) (n : nat) : R * R :=
  fold_left (fun w q => (fst q * z * fst w + (1 + snd q) * fst w - snd q * snd w, fst w)) (map (fun j => (mu (Z.of_nat j), ka (Z.of_nat j))) (seq 2 n)) (1 + mu1 * z, 1).
Lemma rec_fold z k : forall w w', rec z k w w' = fst (fold_left (fun w q => (fst q * z * fst w + (1 + snd q) * fst w - snd q * snd w, fst w)) k (w, w')).
Proof. induction k as [|[m q] k IH]; intros w w'; cbn [rec fold_left]; [reflexivity|]. apply IH. Qed.
Lemma sst_S z n : sst z (S n) = (mu (Z.of_nat (2 + n)) * z * fst (sst z n) + (1 + ka (Z.of_nat (2 + n))) * fst (sst z n) - ka (Z.of_nat (2 + n)) * snd (sst z n), fst (sst z n)).
Proof. unfold sst. rewrite seq_S, map_app, fold_left_app. reflexivity. Qed.
Lemma stages_comb n : stages f mu1 mu ka h (comb l (fun _ => 1)) (S n) = (comb l (fun lam => fst (sst (h * lam) n)), comb l (fun lam => snd (sst (h * lam) n))).
Proof.
  induction n as [|n IH].
  - cbn [stages]. cbn [sst seq map fold_left fst snd]. apply f_equal2; [|reflexivity]. rewrite f_comb.
    apply functional_extensionality. intros i.
    assert (E := f_equal (fun g => g i) (comb_lin l 1 (h * mu1) (fun _ => 1) (fun lam => lam * 1))). cbv beta in E.
    transitivity (1 * comb l (fun _ => 1) i + h * mu1 * comb l (fun lam => lam * 1) i); [rring|]. rewrite E.
    f_equal. apply functional_extensionality. intros lam. rring.
  - change (stages f mu1 mu ka h (comb l (fun _ => 1)) (S (S n))) with
      (let '(g, gp) := stages f mu1 mu ka h (comb l (fun _ => 1)) (S n) in let j := Z.of_nat (S (S n)) in
       ((fun i => h * mu j * f g i + (1 + ka j) * g i - ka j * gp i), g)).
    rewrite IH. cbv zeta. apply f_equal2.
    + rewrite f_comb. apply functional_extensionality. intros i. change (Z.of_nat (S (S n))) with (Z.of_nat (2 + n)). set (j := Z.of_nat (2 + n)).
      assert (E := f_equal (fun g => g i) (comb_lin l (h * mu j) (1 + ka j) (fun lam => lam * fst (sst (h * lam) n)) (fun lam => fst (sst (h * lam) n)))). cbv beta in E.
      assert (E2 := f_equal (fun g => g i) (comb_lin l 1 (- ka j) (fun lam => h * mu j * (lam * fst (sst (h * lam) n)) + (1 + ka j) * fst (sst (h * lam) n)) (fun lam => snd (sst (h * lam) n)))). cbv beta in E2.
      transitivity (1 * comb l (fun lam => h * mu j * (lam * fst (sst (h * lam) n)) + (1 + ka j) * fst (sst (h * lam) n)) i + - ka j * comb l (fun lam => snd (sst (h * lam) n)) i); [rewrite <- E; rring|].
      rewrite E2. f_equal. apply functional_extensionality. intros lam. rewrite sst_S. cbn [fst]. fold j. rring.
    + f_equal. apply functional_extensionality. intros lam. rewrite sst_S. reflexivity.
Qed.
(* the finishing method *)
Variables (a b : Z -> R).
Definition FZ : fin R := finl (fun j => a (Z.of_nat j + 1)%Z) (fun j => b (Z.of_nat j + 1)%Z).
Lemma comb_axpy c0 c1 k1 : (fun i => comb l c0 i + h * (k1 * comb l c1 i)) = comb l (fun lam => c0 lam + h * (k1 * c1 lam)).
Proof.
  apply functional_extensionality. intros i. assert (E := f_equal (fun g => g i) (comb_lin l 1 (h * k1) c0 c1)). cbv beta in E.
  transitivity (1 * comb l c0 i + h * k1 * comb l c1 i); [rring|]. rewrite E. f_equal. apply functional_extensionality. intros lam. rring.
Qed.
Lemma comb_axpy2 c0 c1 c2 k1 k2 : (fun i => comb l c0 i + h * (k1 * comb l c1 i + k2 * comb l c2 i)) = comb l (fun lam => c0 lam + h * (k1 * c1 lam + k2 * c2 lam)).
Proof.
  apply functional_extensionality. intros i.
  assert (E := f_equal (fun g => g i) (comb_axpy (fun lam => c0 lam + h * (k1 * c1 lam)) c2 k2)). cbv beta in E.
  assert (E2 := f_equal (fun g => g i) (comb_axpy c0 c1 k1)). cbv beta in E2. rewrite <- E2 in E.
  transitivity (comb l c0 i + h * (k1 * comb l c1 i) + h * (k2 * comb l c2 i)); [rring|]. rewrite E. f_equal. apply functional_extensionality. intros lam. rring.
Qed.
Lemma comb_axpy3 c0 c1 c2 c3 k1 k2 k3 : (fun i => comb l c0 i + h * (k1 * comb l c1 i + k2 * comb l c2 i + k3 * comb l c3 i)) = comb l (fun lam => c0 lam + h * (k1 * c1 lam + k2 * c2 lam + k3 * c3 lam)).
Proof.
  apply functional_extensionality. intros i.
  assert (E := f_equal (fun g => g i) (comb_axpy (fun lam => c0 lam + h * (k1 * c1 lam + k2 * c2 lam)) c3 k3)). cbv beta in E.
  assert (E2 := f_equal (fun g => g i) (comb_axpy2 c0 c1 c2 k1 k2)). cbv beta in E2. rewrite <- E2 in E.
  transitivity (comb l c0 i + h * (k1 * comb l c1 i + k2 * comb l c2 i) + h * (k3 * comb l c3 i)); [rring|]. rewrite E. f_equal. apply functional_extensionality. intros lam. rring.
Qed.
Lemma comb_axpy4 c0 c1 c2 c3 c4 k1 k2 k3 k4 : (fun i => comb l c0 i + h * (k1 * comb l c1 i + k2 * comb l c2 i + k3 * comb l c3 i + k4 * comb l c4 i)) = comb l (fun lam => c0 lam + h * (k1 * c1 lam + k2 * c2 lam + k3 * c3 lam + k4 * c4 lam)).
Proof.
  apply functional_extensionality. intros i.
  assert (E := f_equal (fun g => g i) (comb_axpy (fun lam => c0 lam + h * (k1 * c1 lam + k2 * c2 lam + k3 * c3 lam)) c4 k4)). cbv beta in E.
  assert (E2 := f_equal (fun g => g i) (comb_axpy3 c0 c1 c2 c3 k1 k2 k3)). cbv beta in E2. rewrite <- E2 in E.
  transitivity (comb l c0 i + h * (k1 * comb l c1 i + k2 * comb l c2 i + k3 * comb l c3 i) + h * (k4 * comb l c4 i)); [rring|]. rewrite E. f_equal. apply functional_extensionality. intros lam. rring.
Qed.
Lemma fin_comb w : fin_y f (a 1%Z) (a 2%Z) (a 3%Z) (a 4%Z) (a 5%Z) (a 6%Z) (b 1%Z) (b 2%Z) (b 3%Z) (b 4%Z) h (comb l w) = comb l (fun lam => w lam * p_w FZ (h * lam)).
Proof.
  unfold fin_y, fin_k4, fin_k3, fin_k2, fin_k1.
  rewrite f_comb, comb_axpy, f_comb, comb_axpy2, f_comb, comb_axpy3, f_comb, comb_axpy4.
  f_equal. apply functional_extensionality. intros lam. unfold p_w, p_u4, p_u3, p_u2, FZ, finl. cbn [a21 a31 a32 a41 a42 a43 b1 b2 b3 b4].
  change (Z.of_nat 0 + 1)%Z with 1%Z. change (Z.of_nat 1 + 1)%Z with 2%Z. change (Z.of_nat 2 + 1)%Z with 3%Z. change (Z.of_nat 3 + 1)%Z with 4%Z. change (Z.of_nat 4 + 1)%Z with 5%Z. change (Z.of_nat 5 + 1)%Z with 6%Z.
  rring.
Qed.
(* the method on a combination of eigenvectors: the polynomial at h*lambda *)
Lemma step_comb d : (1 <= d)%nat ->
  fin_y f (a 1%Z) (a 2%Z) (a 3%Z) (a 4%Z) (a 5%Z) (a 6%Z) (b 1%Z) (b 2%Z) (b 3%Z) (b 4%Z) h (stage f mu1 mu ka h (comb l (fun _ => 1)) d) =
  comb l (fun lam => polyR mu1 (map (fun j => (mu (Z.of_nat j), ka (Z.of_nat j))) (seq 2 (d - 1))) FZ (h * lam)).
Proof.
  intros Hd. destruct d as [|n]; [lia|]. unfold stage. rewrite stages_comb. cbn [fst]. rewrite fin_comb. f_equal.
  apply functional_extensionality. intros lam. unfold polyR. replace (S n - 1)%nat with n by lia. rewrite rec_fold. reflexivity.
Qed.
End Lin.
