(* Stability of the methods of RodasModel.rocoe: |numer| <= |denom| on the left half plane,
   coefficient by coefficient, and what this means for the steps of RodasSpec.v. *)
From Coq Require Import Reals Lra Psatz Ring.
From Verif Require Import Base Spec HessModel HessPathProofs SympQuad Dec RodasModel RodasSpec RodasStep RodasStab.
Open Scope R_scope.

Definition entry := ((nat * nat) * dec)%type.
Definition table (q p : list dec) : list (list dec) :=
  List.map (fun i => List.map (fun j => dsub (dmul (List.nth i q dz) (List.nth j q dz)) (dmul (List.nth i p dz) (List.nth j p dz))) (List.seq 0 7)) (List.seq 0 7).
Definition look (tab : list (list dec)) (i j : nat) : dec := List.nth j (List.nth i tab nil) dz.
Definition cfs (tab : list (list dec)) : list entry :=
  List.map (fun e : (nat * nat) * list (Z * nat * nat) => (fst e,
    List.fold_right (fun q s => dadd (let '(v, i, j) := q in dmul (v, 0%Z) (look tab i j)) s) dz (snd e))) form.
Definition eval (cs : list entry) (w t : R) : R :=
  List.fold_right (fun e acc => D2R (snd e) * (w ^ fst (fst e) * t ^ snd (fst e)) + acc) 0 cs.
Definition nonneg_entry (e : entry) : bool := dnonneg (snd e).
(* every coefficient is nonnegative, except possibly that of w^0 t^4, which is made up for
   by its neighbours *)
Definition good (cs : list entry) : bool :=
  match cs with
  | e0 :: e1 :: e2 :: ((O, 3%nat), A) :: ((O, 4%nat), B) :: ((O, 5%nat), C) :: rest =>
      nonneg_entry e0 && nonneg_entry e1 && nonneg_entry e2 && dnonneg A && dnonneg C &&
      (dnonneg B || dnonneg (dsub (dmul (4%Z, 0%Z) (dmul A C)) (dmul B B))) && List.forallb nonneg_entry rest
  | _ => false
  end.
Lemma quad_nonneg A B C t : 0 <= A -> 0 <= C -> 0 <= t -> 0 <= B \/ B * B <= 4 * (A * C) -> 0 <= A + B * t + C * (t * t).
Proof.
  intros HA HC Ht [HB|HB].
  - pose proof (Rmult_le_pos _ _ HB Ht). pose proof (Rmult_le_pos _ _ HC (Rmult_le_pos _ _ Ht Ht)). lra.
  - destruct (Req_dec C 0) as [->|NC].
    + assert (B = 0) by nra. subst B. lra.
    + assert (0 < C) by lra. apply (Rmult_le_reg_l (4 * C)); [lra|]. rewrite Rmult_0_r.
      replace (4 * C * (A + B * t + C * (t * t))) with ((2 * C * t + B) * (2 * C * t + B) + (4 * (A * C) - B * B)) by ring.
      pose proof (Rle_0_sqr (2 * C * t + B)). unfold Rsqr in *. lra.
Qed.
Lemma pows_nonneg (w t : R) a b : 0 <= w -> 0 <= t -> 0 <= w ^ a * t ^ b.
Proof. intros. apply Rmult_le_pos; apply pow_le; assumption. Qed.
Lemma entry_nonneg e (w t : R) : 0 <= w -> 0 <= t -> nonneg_entry e = true -> 0 <= D2R (snd e) * (w ^ fst (fst e) * t ^ snd (fst e)).
Proof. intros Hw Ht H. apply Rmult_le_pos; [apply D2R_nonneg; exact H|apply pows_nonneg; assumption]. Qed.
Lemma eval_rest rest (w t : R) : 0 <= w -> 0 <= t -> List.forallb nonneg_entry rest = true -> 0 <= eval rest w t.
Proof.
  intros Hw Ht. induction rest as [|e r IH]; cbn [List.forallb eval List.fold_right]; [lra|].
  intros H. apply andb_prop in H. destruct H as [H1 H2]. pose proof (entry_nonneg e w t Hw Ht H1). unfold eval in IH. specialize (IH H2). lra.
Qed.
Lemma good_nonneg cs (w t : R) : 0 <= w -> 0 <= t -> good cs = true -> 0 <= eval cs w t.
Proof.
  intros Hw Ht. unfold good.
  destruct cs as [|e0 [|e1 [|e2 [|[[[|?] [|[|[|[|?]]]]] A] [|[[[|?] [|[|[|[|[|?]]]]]] B] [|[[[|?] [|[|[|[|[|[|?]]]]]]] C] rest]]]]]]; try discriminate.
  intros H. repeat match goal with H : (_ && _)%bool = true |- _ => apply andb_prop in H; destruct H end.
  unfold eval. cbn [List.fold_right]. fold (eval rest w t).
  assert (D0 := entry_nonneg e0 w t Hw Ht ltac:(assumption)).
  assert (D1 := entry_nonneg e1 w t Hw Ht ltac:(assumption)).
  assert (D2 := entry_nonneg e2 w t Hw Ht ltac:(assumption)).
  pose proof (eval_rest rest w t Hw Ht ltac:(assumption)).
  cbn [fst snd].
  assert (HQ : 0 <= D2R A + D2R B * t + D2R C * (t * t)).
  { apply quad_nonneg; try assumption; try (apply D2R_nonneg; assumption).
    match goal with H : (_ || _)%bool = true |- _ => apply orb_prop in H; destruct H as [H|H]; apply D2R_nonneg in H end.
    - left. assumption.
    - right. rewrite D2R_sub, !D2R_mul in *. replace (D2R (4%Z, 0%Z)) with 4 in * by (unfold D2R; cbn; rewrite Rlit_0; reflexivity). lra. }
  pose proof (Rmult_le_pos _ _ (pow_le t 3 Ht) HQ). cbn [pow] in *. lra.
Qed.

Lemma fval_sub f g w t : fval (fun i j => f i j - g i j) w t = fval f w t - fval g w t.
Proof.
  unfold fval. induction form as [|[[a b] l] r IH]; cbn [List.fold_right]; [ring|]. rewrite IH.
  assert (E : List.fold_right (fun (q : Z * nat * nat) s => (let '(v, i, j) := q in IZR v * (f i j - g i j)) + s) 0 l =
     List.fold_right (fun (q : Z * nat * nat) s => (let '(v, i, j) := q in IZR v * f i j) + s) 0 l -
     List.fold_right (fun (q : Z * nat * nat) s => (let '(v, i, j) := q in IZR v * g i j) + s) 0 l).
  { clear. induction l as [|[[v i] j] l IH]; cbn [List.fold_right]; [ring|]. rewrite IH. ring. }
  rewrite E. ring.
Qed.
Lemma fval_ext f g w t : (forall i j, (i < 7)%nat -> (j < 7)%nat -> f i j = g i j) -> fval f w t = fval g w t.
Proof. intros H. unfold fval, form. cbn [List.fold_right]. rewrite !H by lia. reflexivity. Qed.
Lemma eval_cfs tab w t : eval (cfs tab) w t = fval (fun i j => D2R (look tab i j)) w t.
Proof.
  unfold eval, cfs, fval. induction form as [|[[a b] l] r IH]; cbn [List.map List.fold_right fst snd]; [reflexivity|]. rewrite IH. f_equal. f_equal.
  clear. induction l as [|[[v i] j] l IH]; cbn [List.fold_right]; [apply D2R_z|]. rewrite D2R_add, IH, D2R_mul. f_equal. f_equal.
  unfold D2R. cbn [fst snd]. apply Rlit_0.
Qed.
Lemma look_table q p i j : (i < 7)%nat -> (j < 7)%nat ->
  look (table q p) i j = dsub (dmul (List.nth i q dz) (List.nth j q dz)) (dmul (List.nth i p dz) (List.nth j p dz)).
Proof.
  intros Hi Hj. unfold look, table.
  do 7 (destruct i as [|i]; [do 7 (destruct j as [|j]; [reflexivity|]); lia|]). lia.
Qed.
Lemma seven (p : list dec) : Datatypes.length p = 7%nat -> exists a b c d e f g, p = [a; b; c; d; e; f; g].
Proof.
  destruct p as [|a [|b [|c [|d [|e [|f [|g [|? ?]]]]]]]]; cbn; try discriminate. intros _. do 7 eexists. reflexivity.
Qed.
Lemma norm2_le q p z : Datatypes.length q = 7%nat -> Datatypes.length p = 7%nat -> good (cfs (table q p)) = true ->
  fst z <= 0 -> norm2 (peval p z) <= norm2 (peval q z).
Proof.
  intros Hq Hp Hg Hz. pose proof (good_nonneg _ (- fst z) (snd z * snd z) ltac:(lra) (Rle_0_sqr (snd z)) Hg) as H.
  rewrite eval_cfs in H.
  rewrite (fval_ext _ (fun i j => D2R (List.nth i q dz) * D2R (List.nth j q dz) - D2R (List.nth i p dz) * D2R (List.nth j p dz))) in H.
  2:{ intros i j Hi Hj. rewrite look_table by assumption. rewrite D2R_sub, !D2R_mul. reflexivity. }
  rewrite fval_sub in H.
  destruct (seven q Hq) as (q0 & q1 & q2 & q3 & q4 & q5 & q6 & ->).
  destruct (seven p Hp) as (p0 & p1 & p2 & p3 & p4 & p5 & p6 & ->).
  replace z with ((- - fst z, snd z) : cx) by (destruct z; cbn [fst snd]; f_equal; ring).
  rewrite !norm2_form. lra.
Qed.

(* the three methods *)
Definition check (q p : list dec) : bool :=
  (Nat.eqb (Datatypes.length q) 7 && Nat.eqb (Datatypes.length p) 7 && good (cfs (table q p)) &&
   (fst (List.nth 6 p dz) =? 0)%Z &&
   good (cfs (table (pscal (1%Z, 1%Z) q) (dz :: List.firstn 6 p))))%bool.
Definition check_method (m : Z) : bool := match dcoef m with Ok C => check (denom C) (numer C) | _ => false end.
Lemma methods_checked : check_method 1 && check_method 2 && check_method 3 = true.
Proof. vm_cast_no_check (eq_refl true). Qed.
Lemma rocoe_other m : m <> 1%Z -> m <> 2%Z -> m <> 3%Z -> @rocoe DNum m = Throw "Rodascc, meth=".
Proof.
  intros H1 H2 H3. unfold rocoe. rewrite (proj2 (Z.eqb_neq m 1) H1), (proj2 (Z.eqb_neq m 2) H2), (proj2 (Z.eqb_neq m 3) H3). reflexivity.
Qed.
Lemma method_checked m C : dcoef m = Ok C -> check (denom C) (numer C) = true.
Proof.
  intros E. pose proof methods_checked as H. apply andb_prop in H. destruct H as [H H3]. apply andb_prop in H. destruct H as [H1 H2].
  assert (Hm : (m = 1 \/ m = 2 \/ m = 3)%Z).
  { destruct (Z.eq_dec m 1) as [|N1]; [left; assumption|]. destruct (Z.eq_dec m 2) as [|N2]; [right; left; assumption|].
    destruct (Z.eq_dec m 3) as [|N3]; [right; right; assumption|]. exfalso.
    unfold dcoef in E. rewrite (rocoe_other m N1 N2 N3) in E. discriminate E. }
  assert (F : check_method m = true) by (destruct Hm as [->|[->| ->]]; [exact H1|exact H2|exact H3]).
  unfold check_method in F. rewrite E in F. exact F.
Qed.
Lemma check_stable q p z : check q p = true -> fst z <= 0 ->
  norm2 (peval p z) <= norm2 (peval q z) /\
  norm2 z * norm2 (peval p z) <= 100 * norm2 (peval q z).
Proof.
  intros H Hz. unfold check in H.
  repeat match goal with H : (_ && _)%bool = true |- _ => apply andb_prop in H; destruct H end.
  repeat match goal with H : Nat.eqb _ _ = true |- _ => apply Nat.eqb_eq in H end.
  split; [apply norm2_le; assumption|].
  rewrite <- norm2_mul.
  replace (cmul z (peval p z)) with (peval (dz :: List.firstn 6 p) z).
  - replace (100 * norm2 (peval q z)) with (norm2 (peval (pscal (1%Z, 1%Z) q) z)).
    + assert (Lq : Datatypes.length (pscal (1%Z, 1%Z) q) = 7%nat) by (unfold pscal; rewrite List.map_length; assumption).
      assert (Lp : Datatypes.length (dz :: List.firstn 6 p) = 7%nat).
      { destruct (seven p ltac:(assumption)) as (p0 & p1 & p2 & p3 & p4 & p5 & p6 & ->). reflexivity. }
      exact (norm2_le _ _ z Lq Lp ltac:(assumption) Hz).
    + rewrite peval_scal, norm2_mul. f_equal. unfold D2R, Rlit, norm2, cr. cbn [fst snd]. rewrite powerRZ_1. ring.
  - destruct (seven p ltac:(assumption)) as (p0 & p1 & p2 & p3 & p4 & p5 & [m e] & ->).
    match goal with H : (fst _ =? 0)%Z = true |- _ => cbn in H; apply Z.eqb_eq in H; subst m end.
    cbn [List.firstn peval]. rewrite D2R_z, D2R_zero. change (cr 0) with c0. ring.
Qed.

(* ---- the steps -------------------------------------------------------------------- *)
Section Linear.
Variables (n : Z) (J : Z -> Z -> R) (lr li : Z -> R) (a b : R).
Hypothesis He : left_eigen n J lr li a b.
Lemma dot_ext l v w : (forall k, (1 <= k <= n)%Z -> v k = w k) -> dot n l v = dot n l w.
Proof. intros H. unfold dot. apply rsum_ext. intros k Hk. rewrite H by exact Hk. reflexivity. Qed.
Lemma dot_add l v w : dot n l (fun k => v k + w k) = dot n l v + dot n l w.
Proof. unfold dot. rewrite <- rsum_add. apply rsum_ext. intros. ring. Qed.
Lemma dot_sub l v w : dot n l (fun k => v k - w k) = dot n l v - dot n l w.
Proof. unfold dot. rewrite <- rsum_sub. apply rsum_ext. intros. ring. Qed.
Lemma dot_scal l c v : dot n l (fun k => c * v k) = c * dot n l v.
Proof. unfold dot. rewrite <- rsum_scal. apply rsum_ext. intros. ring. Qed.
Lemma dot_comb l m (c : Z -> R) (u : Z -> Z -> R) : dot n l (fun k => rsum 1 m (fun j => c j * u j k)) = rsum 1 m (fun j => c j * dot n l (u j)).
Proof.
  unfold dot. transitivity (rsum 1 n (fun k => rsum 1 m (fun j => c j * (l k * u j k)))).
  - apply rsum_ext. intros k _. rewrite <- rsum_scal. apply rsum_ext. intros. ring.
  - rewrite rsum_swap. apply rsum_ext. intros j _. rewrite rsum_scal. reflexivity.
Qed.
Lemma dot_J v : dot n lr (fun k => rsum 1 n (fun l => J k l * v l)) = a * dot n lr v - b * dot n li v /\
                dot n li (fun k => rsum 1 n (fun l => J k l * v l)) = b * dot n lr v + a * dot n li v.
Proof.
  assert (G : forall c, dot n c (fun k => rsum 1 n (fun l => J k l * v l)) = rsum 1 n (fun l => rsum 1 n (fun k => c k * J k l) * v l)).
  { intros c. unfold dot. transitivity (rsum 1 n (fun k => rsum 1 n (fun l => c k * J k l * v l))).
    - apply rsum_ext. intros k _. rewrite <- rsum_scal. apply rsum_ext. intros. ring.
    - rewrite rsum_swap. apply rsum_ext. intros l _. rewrite (rsum_ext 1 n _ (fun k => v l * (c k * J k l))) by (intros; ring). rewrite rsum_scal. ring. }
  rewrite !G. unfold dot. rewrite <- !rsum_scal. rewrite <- rsum_sub, <- rsum_add.
  split; apply rsum_ext; intros l Hl; destruct (He l Hl) as [E1 E2]; rewrite ?E1, ?E2; ring.
Qed.
Variables (s : Z) (T : tableau) (x h : R) (y : Z -> R) (u : Z -> Z -> R) (y' : Z -> R).
Hypothesis Hh : h <> 0.
Hypothesis Hg : t_gamma T <> 0.
Hypothesis HS : ros_step s n T (linear_rhs n J) J (fun _ => 0) x h y u y'.
Notation Lr := (dot n lr). Notation Li := (dot n li).
Lemma stage_lin i : (1 <= i <= s)%Z ->
  let ga := t_gamma T in let zr := h * a in let zi := h * b in
  let Gr := Lr y + rsum 1 (i - 1) (fun j => t_a T i j * Lr (u j)) in
  let Gi := Li y + rsum 1 (i - 1) (fun j => t_a T i j * Li (u j)) in
  Lr (u i) - ga * (zr * Lr (u i) - zi * Li (u i)) = ga * (zr * Gr - zi * Gi + rsum 1 (i - 1) (fun j => t_c T i j * Lr (u j))) /\
  Li (u i) - ga * (zi * Lr (u i) + zr * Li (u i)) = ga * (zi * Gr + zr * Gi + rsum 1 (i - 1) (fun j => t_c T i j * Li (u j))).
Proof.
  intros Hi. cbv zeta. destruct (proj1 HS i Hi) as (g & Hgv & Heq).
  assert (EG : forall l, dot n l g = dot n l y + rsum 1 (i - 1) (fun j => t_a T i j * dot n l (u j))).
  { intros l. rewrite (dot_ext l g _ Hgv), dot_add, dot_comb. reflexivity. }
  assert (EQ : forall l, / (h * t_gamma T) * dot n l (u i) - dot n l (fun k => rsum 1 n (fun q => J k q * u i q)) =
     dot n l (fun k => rsum 1 n (fun q => J k q * g q)) + / h * rsum 1 (i - 1) (fun j => t_c T i j * dot n l (u j))).
  { intros l. rewrite <- dot_scal, <- dot_sub.
    rewrite (dot_ext l _ (fun k => rsum 1 n (fun q => J k q * g q) + / h * rsum 1 (i - 1) (fun j => t_c T i j * u j k))).
    - rewrite dot_add, dot_scal, dot_comb. reflexivity.
    - intros k Hk. specialize (Heq k Hk). unfold linear_rhs in Heq. unfold Rdiv in Heq. rewrite Rmult_comm, Heq.
      rewrite <- rsum_scal. rewrite (rsum_ext 1 (i - 1) (fun j => t_c T i j * / h * u j k) (fun j => / h * (t_c T i j * u j k))) by (intros; ring). ring. }
  destruct (dot_J (u i)) as [D1 D2]. destruct (dot_J g) as [D3 D4].
  pose proof (EQ lr) as Q1. pose proof (EQ li) as Q2. rewrite D1, D3, !EG in Q1. rewrite D2, D4, !EG in Q2.
  split; [apply (f_equal (Rmult (h * t_gamma T))) in Q1|apply (f_equal (Rmult (h * t_gamma T))) in Q2].
  - match type of Q1 with ?A = ?B => transitivity A; [field; auto|rewrite Q1; field; auto] end.
  - match type of Q2 with ?A = ?B => transitivity A; [field; auto|rewrite Q2; field; auto] end.
Qed.
Lemma end_lin l : dot n l y' = dot n l y + rsum 1 s (fun i => t_m T i * dot n l (u i)).
Proof. rewrite (dot_ext l y' _ (proj2 HS)), dot_add, dot_comb. reflexivity. Qed.
End Linear.

Section Rodas.
Variable C : rcoef DNum.
Hypothesis Hgam : D2R (rGAMMA C) <> 0.
Variables (n : Z) (J : Z -> Z -> R) (lr li : Z -> R) (a b : R).
Hypothesis He : left_eigen n J lr li a b.
Variables (x h : R) (y : Z -> R) (u : Z -> Z -> R) (y' : Z -> R).
Hypothesis Hh : h <> 0.
Hypothesis HS : ros_step 6 n (rodas_tab (rmap C)) (linear_rhs n J) J (fun _ => 0) x h y u y'.
Definition L (v : Z -> R) : cx := (dot n lr v, dot n li v).
Definition zz : cx := (h * a, h * b).
Notation q := (csub c1 (cmul (cr (D2R (rGAMMA C))) zz)).
Notation k2 a' c' := (cadd (cmul (cr (D2R a')) zz) (cr (D2R c'))).
Ltac lin_stage i rs :=
  destruct (stage_lin n J lr li a b He 6 (rodas_tab (rmap C)) x h y u y' Hh Hgam HS i ltac:(lia)) as [E1 E2]; rewrite !rs in E1, E2;
  unfold rodas_tab in E1, E2; cbn [t_gamma t_a t_c] in E1, E2; unfold six in E1, E2; cbn [Z.eqb Pos.eqb] in E1, E2;
  unfold rmap in E1, E2; cbn [rGAMMA rA21 rA31 rA32 rA41 rA42 rA43 rA51 rA52 rA53 rA54 rC21 rC31 rC32 rC41 rC42 rC43 rC51 rC52 rC53 rC54 rC61 rC62 rC63 rC64 rC65] in E1, E2;
  rewrite ?D2R_1;
  apply cx_eq; unfold csub, cadd, cmul, copp, c1, cr, L, zz; cbn [fst snd];
  [match type of E1 with ?A = ?B => transitivity A; [ring|rewrite E1; ring] end
  |match type of E2 with ?A = ?B => transitivity A; [ring|rewrite E2; ring] end].
Lemma stage_1 : cmul q (L (u 1%Z)) = cmul (cr (D2R (rGAMMA C))) (cmul zz (L y)).
Proof. lin_stage 1%Z rs0. Qed.
Lemma stage_2 : cmul q (L (u 2%Z)) = cmul (cr (D2R (rGAMMA C))) (cadd (cmul zz (L y)) (cmul (k2 (rA21 C) (rC21 C)) (L (u 1%Z)))).
Proof. lin_stage 2%Z rs1. Qed.
Lemma stage_3 : cmul q (L (u 3%Z)) = cmul (cr (D2R (rGAMMA C))) (cadd (cadd (cmul zz (L y)) (cmul (k2 (rA31 C) (rC31 C)) (L (u 1%Z)))) (cmul (k2 (rA32 C) (rC32 C)) (L (u 2%Z)))).
Proof. lin_stage 3%Z rs2. Qed.
Lemma stage_4 : cmul q (L (u 4%Z)) = cmul (cr (D2R (rGAMMA C))) (cadd (cadd (cadd (cmul zz (L y)) (cmul (k2 (rA41 C) (rC41 C)) (L (u 1%Z)))) (cmul (k2 (rA42 C) (rC42 C)) (L (u 2%Z)))) (cmul (k2 (rA43 C) (rC43 C)) (L (u 3%Z)))).
Proof. lin_stage 4%Z rs3. Qed.
Lemma stage_5 : cmul q (L (u 5%Z)) = cmul (cr (D2R (rGAMMA C))) (cadd (cadd (cadd (cadd (cmul zz (L y)) (cmul (k2 (rA51 C) (rC51 C)) (L (u 1%Z)))) (cmul (k2 (rA52 C) (rC52 C)) (L (u 2%Z)))) (cmul (k2 (rA53 C) (rC53 C)) (L (u 3%Z)))) (cmul (k2 (rA54 C) (rC54 C)) (L (u 4%Z)))).
Proof. lin_stage 5%Z rs4. Qed.
Lemma stage_6 : cmul q (L (u 6%Z)) = cmul (cr (D2R (rGAMMA C))) (cadd (cadd (cadd (cadd (cadd (cmul zz (L y)) (cmul (k2 (rA51 C) (rC61 C)) (L (u 1%Z)))) (cmul (k2 (rA52 C) (rC62 C)) (L (u 2%Z)))) (cmul (k2 (rA53 C) (rC63 C)) (L (u 3%Z)))) (cmul (k2 (rA54 C) (rC64 C)) (L (u 4%Z)))) (cmul (k2 d1 (rC65 C)) (L (u 5%Z)))).
Proof. lin_stage 6%Z rs5. Qed.
Lemma stage_end : L y' = cadd (cadd (cadd (cadd (cadd (cadd (L y) (cmul (cr (D2R (rA51 C))) (L (u 1%Z)))) (cmul (cr (D2R (rA52 C))) (L (u 2%Z))))
   (cmul (cr (D2R (rA53 C))) (L (u 3%Z)))) (cmul (cr (D2R (rA54 C))) (L (u 4%Z)))) (L (u 5%Z))) (L (u 6%Z)).
Proof.
  unfold L at 1. rewrite !(end_lin n J 6 (rodas_tab (rmap C)) x h y u y' HS), !rs6.
  unfold rodas_tab; cbn [t_m]; unfold six; cbn [Z.eqb Pos.eqb]. unfold rmap; cbn [rA51 rA52 rA53 rA54].
  apply cx_eq; unfold cadd, cmul, cr, L; cbn [fst snd]; ring.
Qed.
End Rodas.

Lemma numer_step (C : rcoef DNum) n J lr li a b x h y u y' : D2R (rGAMMA C) <> 0 -> left_eigen n J lr li a b -> h <> 0 ->
  ros_step 6 n (rodas_tab (rmap C)) (linear_rhs n J) J (fun _ => 0) x h y u y' ->
  cmul (peval (denom C) (zz a b h)) (L n lr li y') = cmul (peval (numer C) (zz a b h)) (L n lr li y).
Proof.
  intros Hg He Hh HS.
  pose proof (stage_1 C Hg n J lr li a b He x h y u y' Hh HS) as E1.
  pose proof (stage_2 C Hg n J lr li a b He x h y u y' Hh HS) as E2.
  pose proof (stage_3 C Hg n J lr li a b He x h y u y' Hh HS) as E3.
  pose proof (stage_4 C Hg n J lr li a b He x h y u y' Hh HS) as E4.
  pose proof (stage_5 C Hg n J lr li a b He x h y u y' Hh HS) as E5.
  pose proof (stage_6 C Hg n J lr li a b He x h y u y' Hh HS) as E6.
  pose proof (stage_end C n J lr li x h y u y' HS) as E7.
  rewrite E7. clear E7.
  generalize dependent (L n lr li y). generalize dependent (L n lr li (u 1%Z)). generalize dependent (L n lr li (u 2%Z)).
  generalize dependent (L n lr li (u 3%Z)). generalize dependent (L n lr li (u 4%Z)). generalize dependent (L n lr li (u 5%Z)). generalize dependent (L n lr li (u 6%Z)).
  intros u6 u5 u4 u3 u2 u1 v. intros. set (z := zz a b h) in *.
  assert (Hq : peval (pq C) z = csub c1 (cmul (cr (D2R (rGAMMA C))) z)).
  { unfold pq. cbn [peval]. rewrite D2R_1, D2R_opp. apply cx_eq; unfold csub, cadd, cmul, copp, c1, c0, cr; cbn [fst snd]; ring. }
  assert (HX : peval pX z = z).
  { unfold pX. cbn [peval]. rewrite D2R_1, D2R_z. apply cx_eq; unfold csub, cadd, cmul, copp, c1, c0, cr; cbn [fst snd]; ring. }
  assert (Hl : forall a c, peval (lin a c) z = cadd (cmul (cr (D2R a)) z) (cr (D2R c))).
  { intros. unfold lin. cbn [peval]. change (cr 0) with c0. ring. }
  rewrite <- !Hq, <- !Hl in *. unfold denom, numer, PP.
  repeat rewrite ?peval_add, ?peval_scal. 
  set (n1 := N1 C). set (n2 := N2 C n1). set (n3 := N3 C n1 n2). set (n4 := N4 C n1 n2 n3). set (n5 := N5 C n1 n2 n3 n4). set (n6 := N6 C n1 n2 n3 n4 n5).
  set (q := peval (pq C) z) in *.
  assert (F1 : cmul q u1 = cmul (peval n1 z) v).
  { unfold n1, N1. rewrite peval_scal, HX, E1. ring. }
  assert (F2 : cmul (cmul q q) u2 = cmul (peval n2 z) v).
  { unfold n2, N2. rewrite peval_scal, peval_add, !peval_mul, HX. fold q.
    transitivity (cmul q (cmul q u2)); [ring|]. rewrite E2. 
    transitivity (cmul (cr (D2R (rGAMMA C))) (cadd (cmul z (cmul q v)) (cmul (peval (lin (rA21 C) (rC21 C)) z) (cmul q u1)))); [ring|]. rewrite F1. ring. }
  assert (F3 : cmul (cmul q (cmul q q)) u3 = cmul (peval n3 z) v).
  { unfold n3, N3. rewrite peval_scal, !peval_add, !peval_mul, HX. unfold pq2. rewrite !peval_mul. fold q.
    transitivity (cmul (cmul q q) (cmul q u3)); [ring|]. rewrite E3.
    transitivity (cmul (cr (D2R (rGAMMA C))) (cadd (cadd (cmul z (cmul (cmul q q) v)) (cmul (cmul (peval (lin (rA31 C) (rC31 C)) z) q) (cmul q u1)))
      (cmul (peval (lin (rA32 C) (rC32 C)) z) (cmul (cmul q q) u2)))); [ring|]. rewrite F1, F2. ring. }
  assert (F4 : cmul (cmul q (cmul q (cmul q q))) u4 = cmul (peval n4 z) v).
  { unfold n4, N4. rewrite peval_scal, !peval_add, !peval_mul, HX. unfold pq3, pq2. rewrite !peval_mul. fold q.
    transitivity (cmul (cmul q (cmul q q)) (cmul q u4)); [ring|]. rewrite E4.
    transitivity (cmul (cr (D2R (rGAMMA C))) (cadd (cadd (cadd (cmul z (cmul (cmul q (cmul q q)) v)) (cmul (cmul (peval (lin (rA41 C) (rC41 C)) z) (cmul q q)) (cmul q u1)))
      (cmul (cmul (peval (lin (rA42 C) (rC42 C)) z) q) (cmul (cmul q q) u2))) (cmul (peval (lin (rA43 C) (rC43 C)) z) (cmul (cmul q (cmul q q)) u3)))); [ring|].
    rewrite F1, F2, F3. ring. }
  assert (F5 : cmul (cmul q (cmul q (cmul q (cmul q q)))) u5 = cmul (peval n5 z) v).
  { unfold n5, N5. rewrite peval_scal, !peval_add, !peval_mul, HX. unfold pq4, pq3, pq2. rewrite !peval_mul. fold q.
    transitivity (cmul (cmul q (cmul q (cmul q q))) (cmul q u5)); [ring|]. rewrite E5.
    transitivity (cmul (cr (D2R (rGAMMA C))) (cadd (cadd (cadd (cadd (cmul z (cmul (cmul q (cmul q (cmul q q))) v))
      (cmul (cmul (peval (lin (rA51 C) (rC51 C)) z) (cmul q (cmul q q))) (cmul q u1)))
      (cmul (cmul (peval (lin (rA52 C) (rC52 C)) z) (cmul q q)) (cmul (cmul q q) u2)))
      (cmul (cmul (peval (lin (rA53 C) (rC53 C)) z) q) (cmul (cmul q (cmul q q)) u3)))
      (cmul (peval (lin (rA54 C) (rC54 C)) z) (cmul (cmul q (cmul q (cmul q q))) u4)))); [ring|].
    rewrite F1, F2, F3, F4. ring. }
  assert (F6 : cmul (cmul q (cmul q (cmul q (cmul q (cmul q q))))) u6 = cmul (peval n6 z) v).
  { unfold n6, N6. rewrite peval_scal, !peval_add, !peval_mul, HX. unfold pq5, pq4, pq3, pq2. rewrite !peval_mul. fold q.
    transitivity (cmul (cmul q (cmul q (cmul q (cmul q q)))) (cmul q u6)); [ring|]. rewrite E6.
    transitivity (cmul (cr (D2R (rGAMMA C))) (cadd (cadd (cadd (cadd (cadd (cmul z (cmul (cmul q (cmul q (cmul q (cmul q q)))) v))
      (cmul (cmul (peval (lin (rA51 C) (rC61 C)) z) (cmul q (cmul q (cmul q q)))) (cmul q u1)))
      (cmul (cmul (peval (lin (rA52 C) (rC62 C)) z) (cmul q (cmul q q))) (cmul (cmul q q) u2)))
      (cmul (cmul (peval (lin (rA53 C) (rC63 C)) z) (cmul q q)) (cmul (cmul q (cmul q q)) u3)))
      (cmul (cmul (peval (lin (rA54 C) (rC64 C)) z) q) (cmul (cmul q (cmul q (cmul q q))) u4)))
      (cmul (peval (lin d1 (rC65 C)) z) (cmul (cmul q (cmul q (cmul q (cmul q q)))) u5)))); [ring|].
    rewrite F1, F2, F3, F4, F5. ring. }
  rewrite !peval_mul. unfold pq6, pq5, pq4, pq3, pq2. rewrite !peval_mul. fold q.
  transitivity (cadd (cadd (cadd (cadd (cadd (cadd (cmul (cmul q (cmul q (cmul q (cmul q (cmul q q))))) v)
    (cmul (cmul (cr (D2R (rA51 C))) (cmul q (cmul q (cmul q (cmul q q))))) (cmul q u1)))
    (cmul (cmul (cr (D2R (rA52 C))) (cmul q (cmul q (cmul q q)))) (cmul (cmul q q) u2)))
    (cmul (cmul (cr (D2R (rA53 C))) (cmul q (cmul q q))) (cmul (cmul q (cmul q q)) u3)))
    (cmul (cmul (cr (D2R (rA54 C))) (cmul q q)) (cmul (cmul q (cmul q (cmul q q))) u4)))
    (cmul q (cmul (cmul q (cmul q (cmul q (cmul q q)))) u5))) (cmul (cmul q (cmul q (cmul q (cmul q (cmul q q))))) u6)); [ring|].
  rewrite F1, F2, F3, F4, F5, F6. ring.
Qed.
