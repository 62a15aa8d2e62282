(* The stability of the ROCK4 steps with the tables of the repository. *)
From Coq Require Import Bool Reals Lra Lia List ZArith FunctionalExtensionality.
From Verif Require Import Base HessModel VecFun Spec Rock4Model Rock4Spec Rock4Step Rock4LModel Rock4LSpec Rock4TabSpec Rock4TabNG Rock4TabL Cheb Rock4Check Rock4Poly Rock4Stab Rock4StabA Rock4StabB Rock4StabC Rock4StabEval.
Import ListNotations.
Open Scope R_scope.

(* ---- the two tables are close ---- *)
Definition closeZ (x y : Z * Z) : bool := (Z.abs (tz y - tz x) * 2 ^ 52 <=? Z.abs (tz x))%Z.
Fixpoint all2 {A} (r : A -> A -> bool) (l m : list A) : bool :=
  match l, m with
  | [], [] => true
  | x :: l, y :: m => r x y && all2 r l m
  | _, _ => false
  end.
(* the six columns of a row of FPA, read in the NG order *)
Definition transp (w : nat) (l : list (Z * Z)) : list (Z * Z) := flat_map (fun j => map (fun i => nth (w * i + j) l (0, 0)%Z) (seq 0 50)) (seq 0 w).
Lemma close_tables : all2 closeZ ng_RECF l_RECF && all2 closeZ ng_FPA (transp 6 l_FPA) && all2 closeZ ng_FPB (transp 4 l_FPB) = true.
Proof. vm_cast_no_check (eq_refl true). Qed.
Lemma l_exps : exps_ok l_RECF && exps_ok l_FPA && exps_ok l_FPB = true. Proof. vm_cast_no_check (eq_refl true). Qed.
Lemma l_lens : List.length l_RECF = 4382%nat /\ List.length l_FPA = 300%nat /\ List.length l_FPB = 200%nat.
Proof. repeat split; vm_cast_no_check (eq_refl 4382%nat) || vm_cast_no_check (eq_refl 300%nat) || vm_cast_no_check (eq_refl 200%nat). Qed.

Lemma all2_nth {A} (r : A -> A -> bool) (dflt : A) : forall l m, all2 r l m = true -> forall k, (k < Datatypes.length l)%nat -> r (nth k l dflt) (nth k m dflt) = true.
Proof.
  induction l as [|x l IH]; intros [|y m] H k Hk; cbn in Hk; try lia; cbn [all2] in H; [discriminate|].
  apply andb_prop in H. destruct H as [H1 H2]. destruct k as [|k]; [exact H1|]. cbn [nth]. apply IH; [assumption|lia].
Qed.
Lemma nth_flat {A} (dflt : A) (g : nat -> nat -> A) n : forall w s j i, (i < n)%nat -> (j < w)%nat ->
  nth (n * j + i) (flat_map (fun j => map (fun i => g j i) (seq 0 n)) (seq s w)) dflt = g (s + j)%nat i.
Proof.
  induction w as [|w IH]; intros s j i Hi Hj; [lia|]. cbn [seq flat_map].
  assert (HL : Datatypes.length (map (fun i => g s i) (seq 0 n)) = n) by (now rewrite map_length, seq_length).
  destruct j as [|j].
  - rewrite Nat.mul_0_r, Nat.add_0_l, app_nth1 by lia. rewrite (nth_indep _ dflt (g s 0%nat)) by lia.
    rewrite (map_nth (fun i => g s i)), seq_nth by lia. now rewrite Nat.add_0_r.
  - rewrite app_nth2 by nia. rewrite HL. replace (n * S j + i - n)%nat with (n * j + i)%nat by nia. rewrite IH by lia. f_equal. lia.
Qed.
Lemma transp_nth w l i j : (i < 50)%nat -> (j < w)%nat -> nth (50 * j + i) (transp w l) (0, 0)%Z = nth (w * i + j) l (0, 0)%Z.
Proof. intros Hi Hj. unfold transp. exact (nth_flat (0, 0)%Z (fun j i => nth (w * i + j) l (0, 0)%Z) 50 w 0 j i Hi Hj). Qed.

Lemma near_weak t t' v c : (0 <= t' <= t)%Z -> near t v c -> near t' v c.
Proof.
  intros Ht H. unfold near in *. eapply Rle_trans; [exact H|]. apply Rmult_le_compat_l; [apply Rabs_pos|]. unfold tau.
  apply Rinv_le_contravar; [apply IZR_lt; apply Z.pow_pos_nonneg; lia|]. apply IZR_le. apply Z.pow_le_mono_r; lia.
Qed.
Lemma stored_near t l k : as_stored t l -> exps_ok l = true -> (k < Datatypes.length l)%nat -> near 53 (t (Z.of_nat k)) (nthZ l k).
Proof.
  intros H He Hk. specialize (H (Z.of_nat k) ltac:(lia)). rewrite Nat2Z.id in H. unfold near. rewrite (exps_nth _ _ He).
  eapply Rle_trans; [exact H|]. unfold Rdiv, tau. rewrite (pow_IZR 2 53). apply Rle_refl.
Qed.
(* from one table to the other *)
Lemma near_change v c c' : (Z.abs (c' - c) * 2 ^ 52 <= Z.abs c)%Z -> near 53 v c' -> near 51 v c.
Proof.
  intros H Hv. unfold near in *.
  assert (HT : 0 < IZR T19) by (apply IZR_lt; reflexivity).
  assert (H1 : Rabs (rl c' - rl c) * 2 ^ 52 <= Rabs (rl c)).
  { unfold rl. replace (IZR c' / IZR T19 - IZR c / IZR T19) with (IZR (c' - c) * / IZR T19) by (rewrite minus_IZR; field; lra).
    unfold Rdiv. rewrite !Rabs_mult, (Rabs_right (/ _)) by (left; now apply Rinv_0_lt_compat).
    rewrite <- !abs_IZR. replace (IZR (Z.abs (c' - c)) * / IZR T19 * 2 ^ 52) with (IZR (Z.abs (c' - c)) * 2 ^ 52 * / IZR T19) by ring.
    apply Rmult_le_compat_r; [left; now apply Rinv_0_lt_compat|]. rewrite (pow_IZR 2 52). change (Z.of_nat 52) with 52%Z. rewrite <- mult_IZR. now apply IZR_le. }
  unfold tau in *. rewrite <- (pow_IZR 2 53 : 2 ^ 53 = IZR (2 ^ 53)) in Hv. rewrite <- (pow_IZR 2 51 : 2 ^ 51 = IZR (2 ^ 51)).
  set (A := Rabs (rl c)) in *. set (B := Rabs (rl c' - rl c)) in *.
  assert (H2 : Rabs (rl c') <= A + B).
  { replace (rl c') with (rl c + (rl c' - rl c)) by ring. apply Rabs_triang. }
  assert (H3 : Rabs (v - rl c) <= Rabs (v - rl c') + B).
  { replace (v - rl c) with ((v - rl c') + (rl c' - rl c)) by ring. apply Rabs_triang. }
  assert (HA : 0 <= A) by apply Rabs_pos. assert (HB : 0 <= B) by apply Rabs_pos.
  assert (E : / 2 ^ 51 = 4 * / 2 ^ 53) by (replace (2 ^ 53) with (2 ^ 51 * 4) by ring; field; apply pow_nonzero; lra).
  assert (H4 : B <= A * (2 * / 2 ^ 53)).
  { replace (2 * / 2 ^ 53) with (/ 2 ^ 52) by (replace (2 ^ 53) with (2 ^ 52 * 2) by ring; field; apply pow_nonzero; lra).
    apply (Rmult_le_reg_r (2 ^ 52)); [apply pow_lt; lra|]. rewrite Rmult_assoc, Rinv_l, Rmult_1_r by (apply pow_nonzero; lra). exact H1. }
  assert (Ht : 0 < / 2 ^ 53 <= 1 / 2).
  { split; [apply Rinv_0_lt_compat, pow_lt; lra|]. replace (1 / 2) with (/ 2 ^ 1) by (cbn; lra). apply Rinv_le_contravar; [apply pow_lt; lra|]. apply Rle_pow; [lra|lia]. }
  set (u := / 2 ^ 53) in *. rewrite E.
  assert (Rabs (rl c') * u <= (A + B) * u) by (apply Rmult_le_compat_r; lra).
  assert (B * u <= A * u). { apply Rmult_le_compat_r; [lra|]. assert (A * (2 * u) <= A * 1) by (apply Rmult_le_compat_l; lra). lra. }
  lra.
Qed.

(* ---- the coefficients used by the two codes ---- *)
Section Coef.
Variables (d i r : Z).
Hypothesis HR : right_block d i r.
Let i' := Z.to_nat (i - 1).
Lemma rb_deg : deg i' = Z.to_nat d /\ (r - 1)%Z = Z.of_nat (off i') /\ (1 <= d <= 148)%Z /\ (i' < 50)%nat /\ (i - 1)%Z = Z.of_nat i' /\ (off i' + (2 * deg i' - 1) <= 4382)%nat.
Proof.
  destruct HR as (Hi & Hd & Hr). unfold i'. 
  assert (HH : forallb (fun k => (0 <=? fold_right Z.add 0 (map (fun d => 2 * d - 1) (firstn k MS)))%Z && (1 <=? nth k MS 0)%Z && (nth k MS 0 <=? 148)%Z
    && (fold_right Z.add 0 (map (fun d => 2 * d - 1) (firstn k MS)) + (2 * nth k MS 0 - 1) <=? 4382)%Z) (seq 0 50) = true) by (vm_cast_no_check (eq_refl true)).
  rewrite forallb_forall in HH. specialize (HH (Z.to_nat (i - 1))). assert (Hin : In (Z.to_nat (i - 1)) (seq 0 50)) by (apply in_seq; lia).
  specialize (HH Hin). clear Hin. cbv beta in HH. rewrite Hd in HH.
  apply andb_prop in HH. destruct HH as [HH H4]. apply andb_prop in HH. destruct HH as [HH H3]. apply andb_prop in HH. destruct HH as [H1 H2].
  apply Z.leb_le in H1, H2, H3, H4. unfold deg, off. rewrite Hd, Hr. unfold block_start. 
  set (Q := fold_right Z.add 0%Z (map (fun d => (2 * d - 1)%Z) (firstn (Z.to_nat (i - 1)) MS))) in *.
  repeat split; try lia.
Qed.
Lemma coef_ng RECF FPA FPB : as_stored RECF ng_RECF -> as_stored FPA ng_FPA -> as_stored FPB ng_FPB ->
  coef_near 51 i' (t_mu1 RECF r) (fun j => t_mu RECF r (Z.of_nat j)) (fun j => t_kappa RECF r (Z.of_nat j))
    (fun j => tab FPA i (Z.of_nat j + 1)) (fun j => tab FPB i (Z.of_nat j + 1)).
Proof.
  intros H1 H2 H3. destruct rb_deg as (E1 & E2 & E3 & E4 & E5 & E6). 
  assert (X := ng_exps). apply andb_prop in X. destruct X as [X X3]. apply andb_prop in X. destruct X as [X1 X2].
  destruct ng_lens as (L1 & L2 & L3). change Datatypes.length with List.length in *.
  assert (N1 : forall k z, (k < 4382)%nat -> z = Z.of_nat k -> near 51 (RECF z) (nthZ ng_RECF k)).
  { intros k z Hk ->. apply (near_weak 53); [lia|]. apply stored_near; [assumption|assumption|now rewrite L1]. }
  assert (N2 : forall k z, (k < 300)%nat -> z = Z.of_nat k -> near 51 (FPA z) (nthZ ng_FPA k)).
  { intros k z Hk ->. apply (near_weak 53); [lia|]. apply stored_near; [assumption|assumption|now rewrite L2]. }
  assert (N3 : forall k z, (k < 200)%nat -> z = Z.of_nat k -> near 51 (FPB z) (nthZ ng_FPB k)).
  { intros k z Hk ->. apply (near_weak 53); [lia|]. apply stored_near; [assumption|assumption|now rewrite L3]. }
  split; [|split; [|split]].
  - apply N1; lia.
  - intros j Hj. split; apply N1; lia.
  - intros j Hj. apply N2; lia.
  - intros j Hj. apply N3; lia.
Qed.
Lemma coef_l RECF FPA FPB : as_stored RECF l_RECF -> as_stored FPA l_FPA -> as_stored FPB l_FPB ->
  coef_near 51 i' (RECF (r - 1)%Z) (fun j => RECF (r - 1 + 2 * Z.of_nat j - 3)%Z) (fun j => RECF (r - 1 + 2 * Z.of_nat j - 2)%Z)
    (fun j => row FPA 6 i (Z.of_nat j + 1)) (fun j => row FPB 4 i (Z.of_nat j + 1)).
Proof.
  intros H1 H2 H3. destruct rb_deg as (E1 & E2 & E3 & E4 & E5 & E6).
  assert (X := l_exps). apply andb_prop in X. destruct X as [X X3]. apply andb_prop in X. destruct X as [X1 X2].
  assert (Y := close_tables). apply andb_prop in Y. destruct Y as [Y Y3]. apply andb_prop in Y. destruct Y as [Y1 Y2].
  destruct l_lens as (L1 & L2 & L3). destruct ng_lens as (M1 & M2 & M3).
  assert (N1 : forall k z, (k < 4382)%nat -> z = Z.of_nat k -> near 51 (RECF z) (nthZ ng_RECF k)).
  { intros k z Hk ->. apply (near_change _ _ (nthZ l_RECF k)); [|apply stored_near; [assumption|assumption|now rewrite L1]].
    apply Z.leb_le. apply (all2_nth _ (0, 0)%Z _ _ Y1 k). now rewrite M1. }
  assert (N2 : forall j z, (j < 6)%nat -> z = Z.of_nat (6 * i' + j) -> near 51 (FPA z) (nthZ ng_FPA (50 * j + i'))).
  { intros j z Hj ->. apply (near_change _ _ (nthZ l_FPA (6 * i' + j))); [|apply stored_near; [assumption|assumption|rewrite L2; lia]].
    unfold nthZ at 1. rewrite <- (transp_nth 6 l_FPA i' j E4 Hj).
    apply Z.leb_le. apply (all2_nth _ (0, 0)%Z _ _ Y2 (50 * j + i')%nat). rewrite M2. lia. }
  assert (N3 : forall j z, (j < 4)%nat -> z = Z.of_nat (4 * i' + j) -> near 51 (FPB z) (nthZ ng_FPB (50 * j + i'))).
  { intros j z Hj ->. apply (near_change _ _ (nthZ l_FPB (4 * i' + j))); [|apply stored_near; [assumption|assumption|rewrite L3; lia]].
    unfold nthZ at 1. rewrite <- (transp_nth 4 l_FPB i' j E4 Hj).
    apply Z.leb_le. apply (all2_nth _ (0, 0)%Z _ _ Y3 (50 * j + i')%nat). rewrite M3. lia. }
  split; [|split; [|split]].
  - apply N1; lia.
  - intros j Hj. split; apply N1; lia.
  - intros j Hj. unfold row. apply N2; lia.
  - intros j Hj. unfold row. apply N3; lia.
Qed.
End Coef.

(* ---- the degrees checked ---- *)
Lemma checked i d : (i < 50)%nat -> nth i MS 0%Z = d -> (d <= 92)%Z -> d <> 63%Z -> exists p, deg_check 51 i p = true.
Proof.
  intros Hi Hd H1 H2.
  assert (HH : forallb (fun k => (92 <? nth k MS 0)%Z || (nth k MS 0 =? 63)%Z || existsb (fun x => Nat.eqb (fst x) k) (stab_a_list ++ stab_b_list ++ stab_c_list)) (seq 0 50) = true)
    by (vm_cast_no_check (eq_refl true)).
  rewrite forallb_forall in HH. assert (Hin : In i (seq 0 50)) by (apply in_seq; lia). specialize (HH i Hin). cbv beta in HH. rewrite Hd in HH.
  apply orb_prop in HH. destruct HH as [HH|HH].
  { apply orb_prop in HH. destruct HH as [HH|HH]; [apply Z.ltb_lt in HH; lia|apply Z.eqb_eq in HH; lia]. }
  apply existsb_exists in HH. destruct HH as ([k p] & Hx & Hk). apply Nat.eqb_eq in Hk. cbn in Hk. subst k. exists p.
  apply in_app_or in Hx. destruct Hx as [Hx|Hx]; [|apply in_app_or in Hx; destruct Hx as [Hx|Hx]].
  - assert (A := stab_a). rewrite forallb_forall in A. exact (A _ Hx).
  - assert (A := stab_b). rewrite forallb_forall in A. exact (A _ Hx).
  - assert (A := stab_c). rewrite forallb_forall in A. exact (A _ Hx).
Qed.
Lemma L4_interval i d z : nth i MS 0%Z = d -> interval d z -> - (IZR (L4 i) / 1000) <= z <= 0.
Proof.
  intros Hd H. unfold interval in H. unfold L4. rewrite Hd. rewrite minus_IZR, !mult_IZR. cbn [pow] in H. lra.
Qed.

Lemma comb_ext l c c' : (forall p, In p l -> c (fst p) = c' (fst p)) -> comb l c = comb l c'.
Proof.
  induction l as [|p l IH]; intros H; cbn [comb]; [reflexivity|].
  rewrite (H p) by (now left). rewrite IH; [reflexivity|]. intros q Hq. apply H. now right.
Qed.
Definition rescale (c : R -> R) (l : list (R * vec Rnum)) : list (R * vec Rnum) := map (fun p => (fst p, (fun i => c (fst p) * snd p i) : vec Rnum)) l.
Lemma comb_rescale c k l : comb (rescale c l) k = comb l (fun lam => k lam * c lam).
Proof.
  induction l as [|p l IH]; cbn [rescale map comb]; [reflexivity|]. fold (rescale c l). rewrite IH.
  apply functional_extensionality. intros i. cbn [fst snd]. apply (f_equal2 Rplus); [symmetry; apply Rmult_assoc|reflexivity].
Qed.
Lemma eigen_rescale f c l : linear f -> Forall (eigen f) l -> Forall (eigen f) (rescale c l).
Proof.
  intros Hf H. unfold rescale. apply Forall_map. eapply Forall_impl; [|exact H]. intros p Hp i. cbn [fst snd].
  assert (E := Hf (c (fst p)) 0 (snd p) (snd p)).
  assert (E' : f (fun i => c (fst p) * snd p i) = fun i => c (fst p) * f (snd p) i + 0 * f (snd p) i).
  { rewrite <- E. f_equal. apply functional_extensionality. intros j. rring. }
  rewrite E'. transitivity (c (fst p) * (fst p * snd p i) + 0 * f (snd p) i); [apply (f_equal2 Rplus); [apply f_equal; exact (Hp i)|reflexivity]|]. rring.
Qed.
(* a step of one of the checked methods *)
Lemma step_damped f l c d i r mu1 mu ka a b h tol : linear f -> Forall (eigen f) l -> right_block d i r -> (0 <= tol)%Z ->
  (exists p, deg_check tol (Z.to_nat (i - 1)) p = true) -> (forall p, In p l -> interval d (h * fst p)) ->
  coef_near tol (Z.to_nat (i - 1)) mu1 (fun j => mu (Z.of_nat j)) (fun j => ka (Z.of_nat j)) (fun j => a (Z.of_nat j + 1)%Z) (fun j => b (Z.of_nat j + 1)%Z) ->
  exists q, (forall p, In p l -> Rabs (q (fst p)) <= 1) /\
  fin_y f (a 1%Z) (a 2%Z) (a 3%Z) (a 4%Z) (a 5%Z) (a 6%Z) (b 1%Z) (b 2%Z) (b 3%Z) (b 4%Z) h (stage f mu1 mu ka h (comb l c) (Z.to_nat d)) = comb l (fun lam => q lam * c lam).
Proof.
  intros Hf Hl HR Ht (p & Hp) Hint HC. destruct (rb_deg d i r HR) as (E1 & E2 & E3 & E4 & E5 & E6).
  assert (Hc : comb l c = comb (rescale c l) (fun _ => 1)).
  { rewrite comb_rescale. f_equal. apply functional_extensionality. intros lam. ring. }
  exists (fun lam => polyR mu1 (map (fun j => (mu (Z.of_nat j), ka (Z.of_nat j))) (seq 2 (Z.to_nat d - 1))) (FZ a b) (h * lam)). split.
  - intros q Hq. rewrite <- E1. apply (deg_sound tol (Z.to_nat (i - 1)) p Ht Hp _ _ _ _ _ HC).
    apply (L4_interval _ d); [apply HR|]. now apply Hint.
  - rewrite Hc. rewrite (step_comb f Hf (rescale c l) (eigen_rescale f c l Hf Hl) h mu1 mu ka a b (Z.to_nat d)) by lia. apply comb_rescale.
Qed.
