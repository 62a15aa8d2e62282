(* C44 to C47. *)
From Coq Require Import Reals Lra FunctionalExtensionality.
From Verif Require Import Base FieldLU HessModel Spec HessPathProofs SympModel SympSpec SympProofs.
Open Scope Z_scope.
Local Arguments Z.mul : simpl never.
Local Arguments Z.add : simpl never.
Local Arguments Z.sub : simpl never.

Section Ext.
Context {K : num}.
Variables n s : Z.
Variable nar : K -> K.
(* n >= s: nothing outside the arrays; the last elements are not written *)
Lemma extrap_safe (q F Y u : vec K) : 1 <= s <= n -> wp (extrap n s nar q F Y u) (fun Y' => forall p, s * (s - 1) + n <= p -> Y' p = Y p).
Proof.
  intros Hs. unfold extrap.
  set (P := fun (_ : Z) (t : vec K) => forall p, s * (s - 1) + n <= p -> t p = Y p).
  match goal with |- wp (forM _ _ ?b _) _ => assert (HL : wp (forM 0 (s - 1) b Y) (P (s - 1 + 1))) end; [|exact HL].
  apply forM_ind; [lia|unfold P; reflexivity|]. intros i t Hi HP.
  assert (B : forall j l, 0 <= j <= s - 1 -> 0 <= l <= n - 1 -> 0 <= s * j + l <= n * s - 1 /\ s * j + l < s * (s - 1) + n) by (intros; nia).
  apply wp_bind.
  match goal with |- wp (forM _ _ ?b _) _ => assert (HL1 : wp (forM 0 (n - 1) b t) (P (n - 1 + 1))) end.
  { apply forM_ind; [lia|exact HP|]. intros l t1 Hl HP1. apply wp_rd; [lia|]. destruct (B i l Hi Hl). rewrite wr_ok by lia. cbn [wp].
    intros p Hp. rewrite upd_other by lia. apply HP1, Hp. }
  eapply wp_mono; [exact HL1|]. clear HL1. intros t1 HP1.
  match goal with |- wp (forM _ _ ?b _) _ => assert (HL1 : wp (forM 0 (s - 1) b t1) (P (s - 1 + 1))) end; [|exact HL1].
  apply forM_ind; [lia|exact HP1|]. intros j t2 Hj HP2. apply wp_rd; [nia|].
  match goal with |- wp (forM _ _ ?b _) _ => assert (HL2 : wp (forM 0 (n - 1) b t2) (P (n - 1 + 1))) end; [|exact HL2].
  apply forM_ind; [lia|exact HP2|]. intros l t3 Hl HP3. destruct (B i l Hi Hl). destruct (B j l Hj Hl). apply wp_rd; [lia|]. apply wp_rd; [lia|].
  rewrite wr_ok by lia. cbn [wp]. intros p Hp. rewrite upd_other by lia. apply HP3, Hp.
Qed.
(* n = s *)
Lemma extrap_square (q F Y u : vec K) : n = s -> 1 <= s ->
  wp (extrap n s nar q F Y u) (fun Y' => forall i l, 0 <= i < s -> 0 <= l < n -> Y' (i * n + l) = acc s (fun j => nar (q (s * i + j)%Z) * F (j * n + l)%Z)%num (u l)).
Proof.
  intros E Hs. unfold extrap. subst n.
  set (val := fun i l => acc s (fun j => nar (q (s * i + j)%Z) * F (s * j + l)%Z)%num (u l)).
  set (P := fun i (t : vec K) => forall i' l, 0 <= i' < i -> 0 <= l < s -> t (s * i' + l) = val i' l).
  match goal with |- wp (forM _ _ ?b _) _ => assert (HL : wp (forM 0 (s - 1) b Y) (P (s - 1 + 1))) end.
  { apply forM_ind; [lia|unfold P; intros; lia|]. intros i t Hi HP.
    assert (B : forall i l, 0 <= i < s -> 0 <= l < s -> 0 <= s * i + l <= s * s - 1) by (intros; nia).
    apply wp_bind. eapply wp_mono; [apply (fill (s * i) s u); [lia|]|].
    { intros l t1 Hl _. apply wp_rd; [lia|]. rewrite wr_ok by (apply B; lia). reflexivity. }
    intros t1 (H1 & H2).
    set (P2 := fun j (t' : vec K) => (forall l, 0 <= l < s -> t' (s * i + l) = acc j (fun j => nar (q (s * i + j)%Z) * F (s * j + l)%Z)%num (u l)) /\
      forall p, p < s * i \/ s * i + s <= p -> t' p = t p).
    match goal with |- wp (forM _ _ ?b _) _ => assert (HL1 : wp (forM 0 (s - 1) b t1) (P2 (s - 1 + 1))) end.
    { apply forM_ind; [lia|split; [exact H1|exact H2]|]. intros j t2 Hj (Q1 & Q2). apply wp_rd; [apply B; lia|].
      eapply wp_mono; [apply (fill (s * i) s (fun l => t2 (s * i + l)%Z + nar (q (s * i + j)%Z) * F (s * j + l)%Z)%num); [lia|]|].
      { intros l t3 Hl Ht3. apply wp_rd; [apply B; lia|]. apply wp_rd; [apply B; lia|]. rewrite wr_ok by (apply B; lia). cbn [wp]. rewrite Ht3 by lia. reflexivity. }
      intros t3 (R1 & R2). split.
      - intros l Hl. rewrite R1 by lia. rewrite acc_S by lia. rewrite Q1 by lia. reflexivity.
      - intros p Hp. rewrite R2 by lia. apply Q2, Hp. }
    eapply wp_mono; [exact HL1|]. intros t2 (Q1 & Q2) i' l Hi' Hl. destruct (Z.eq_dec i' i) as [->|].
    - rewrite Q1 by lia. unfold val. f_equal. lia.
    - rewrite Q2 by nia. apply HP; lia. }
  eapply wp_mono; [exact HL|]. intros t H i l Hi Hl. unfold P in H. replace (i * s + l) with (s * i + l) by lia. rewrite H by lia.
  unfold val. apply acc_ext. intros j Hj. f_equal. f_equal. lia.
Qed.
Definition is_ub {A} (m : out A) : Prop := exists msg, m = UB msg.
Lemma ub_bind {A B} (m : out A) (g : A -> out B) : is_ub m -> is_ub (bind m g).
Proof. intros [x ->]. exists x. reflexivity. Qed.
Lemma wp_ub {A B} (m : out A) (g : A -> out B) P : wp m P -> (forall a, P a -> is_ub (g a)) -> is_ub (bind m g).
Proof. destruct m; cbn; intros H1 H2; try contradiction. apply H2, H1. Qed.
Lemma forM_ub {St} (P : Z -> St -> Prop) lo k hi (g : Z -> St -> out St) x : lo <= k <= hi -> P lo x ->
  (forall j t, lo <= j < k -> P j t -> wp (g j t) (P (j + 1))) -> (forall t, P k t -> is_ub (g k t)) -> is_ub (forM lo hi g x).
Proof.
  intros Hk H0 Hs Hu. unfold forM.
  assert (A : forall m i y, lo <= i -> i + Z.of_nat m = k -> P i y -> forall m', (m < m')%nat -> is_ub (iterM m' i g y)).
  { induction m as [|m IH]; intros i y Hi Em Py m' Hm'; destruct m' as [|m']; try lia; cbn [iterM].
    - apply ub_bind. assert (i = k) by lia. subst i. apply Hu, Py.
    - eapply wp_ub; [apply Hs; [lia|exact Py]|]. intros y' Py'. apply IH; [lia|lia|exact Py'|lia]. }
  apply (A (Z.to_nat (k - lo))); [lia|lia|exact H0|lia].
Qed.
Lemma extrap_ub (q F Y u : vec K) : 1 <= n < s -> is_ub (extrap n s nar q F Y u).
Proof.
  intros H. unfold extrap. apply (forM_ub (fun _ _ => True) 0 0); [lia|trivial|intros; lia|]. intros t _.
  eapply wp_ub with (P := fun _ => True).
  {     apply (forM_ind (fun (_ : Z) (_ : vec K) => True)); [lia|trivial|]. intros l t1 Hl _. apply wp_rd; [lia|]. rewrite wr_ok by nia. exact Logic.I. }
  intros t1 _. apply (forM_ub (fun _ _ => True) 0 n); [lia|trivial| |].
  - intros j t2 Hj _. apply wp_rd; [nia|].
        apply (forM_ind (fun (_ : Z) (_ : vec K) => True)); [lia|trivial|]. intros l t3 Hl _. apply wp_rd; [nia|]. apply wp_rd; [nia|]. rewrite wr_ok by nia. exact Logic.I.
  - intros t2 _. unfold rd at 1. rewrite inb_true by nia. cbn [bind]. apply (forM_ub (fun _ _ => True) 0 0); [lia|trivial|intros; lia|].
    intros t3 _. unfold rd at 1. rewrite inb_true by nia. cbn [bind]. unfold rd. replace (inb 0 (n * s - 1) (s * n + 0)) with false by (symmetry; apply inb_false; nia).
    cbn [bind]. eexists. reflexivity.
Qed.
End Ext.

Section Step.
Context {K : num}.
Variables n s : Z.
Variable long : bool.
Variable nar : K -> K.
Variable f : vec K -> vec K.
Variables ta tb tq : Z -> K.
Hypothesis Hn : 0 <= n.
Hypothesis Hs : 1 <= s.
Notation step := (step n s long nar f ta tb tq).
(* no extrapolation, or one that stays inside the arrays *)
Definition can_start (h : K) (firstStep : bool) (o : obj (K := K)) : Prop := firstStep = true \/ (oldh o =? h)%num = false \/ s <= n.
Definition coeffs_after (h : K) (o o' : obj (K := K)) : Prop :=
  if (oldh o =? h)%num then oldh o' = oldh o /\ oga o' = oga o /\ ogb o' = ogb o /\ oq o' = oq o
  else oldh o' = h /\ (forall i, 0 <= i < s * s -> oga o' i = (ta i * nar h)%num) /\ (forall i, 0 <= i < s -> ogb o' i = (tb i * nar h)%num) /\
    (forall i, 0 <= i < s * s -> oq o' i = (tq i * nar h)%num).
Lemma step_gen itermax h fs o u : can_start h fs o ->
  wp (step itermax h fs o u) (fun x => let '(ok, o', u') := x in coeffs_after h o o' /\ 0 <= oiter o' <= Z.max 0 itermax /\
    if ok : bool then oiter o' < itermax /\ onev o' = onev o + (oiter o' + 1) * s /\ success long (otv o') (otvold o') = true /\
      (exists Y0, swept n s f (oga o') u Y0 (oY1 o') (otv o')) /\
      (forall p, p < 0 \/ n <= p -> u' p = u p) /\
      forall p, 0 <= p < n -> u' p = (u p + (oe o p + delta_ n s nar (ogb o') (oY1 o') p))%num /\
        oe o' p = ((oe o p + delta_ n s nar (ogb o') (oY1 o') p) + (u p - (u p + (oe o p + delta_ n s nar (ogb o') (oY1 o') p))))%num
    else u' = u /\ oe o' = oe o /\ oiter o' = Z.max 0 itermax /\ onev o' = onev o + oiter o' * s).
Proof.
  intros Hc. unfold SympModel.step. cbv zeta.
  set (CO := fun (x : K * (Z -> K) * (Z -> K) * (Z -> K)) => let '(oh, ga, gb, q) := x in
    if (oldh o =? h)%num then oh = oldh o /\ ga = oga o /\ gb = ogb o /\ q = oq o
    else oh = h /\ (forall i, 0 <= i < s * s -> ga i = (ta i * nar h)%num) /\ (forall i, 0 <= i < s -> gb i = (tb i * nar h)%num) /\
      (forall i, 0 <= i < s * s -> q i = (tq i * nar h)%num)).
  apply wp_bind. apply (wp_mono _ CO).
  { unfold CO. destruct (oldh o =? h)%num eqn:E; cbn [negb].
    - cbn [wp]. auto.
    - apply wp_bind. eapply wp_mono; [apply scale_ok; nia|]. intros ga Hga. apply wp_bind. eapply wp_mono; [apply scale_ok; lia|]. intros gb Hgb.
      apply wp_bind. eapply wp_mono; [apply scale_ok; nia|]. intros q Hq. cbn [wp]. auto. }
  intros [[[oh ga] gb] q] HCO.
  assert (HCA : forall v Y Y1 d e a it tv tvo nev, coeffs_after h o (mkObj v Y Y1 d e a it oh ga gb q tv tvo nev)) by (intros; exact HCO).
  apply wp_bind. apply (wp_mono _ (fun _ => True)).
  { destruct (negb fs && (oldh o =? h)%num) eqn:E.
    - eapply wp_mono; [apply extrap_safe|trivial]. apply andb_true_iff in E. destruct E as [E1 E2]. destruct Hc as [->|[H|H]]; [discriminate|congruence|lia].
    - eapply wp_mono; [apply spread_ok; assumption|trivial]. }
  intros Y _. apply wp_bind. eapply wp_mono; [apply iterate_ok; assumption|].
  intros [[[[[[[ok it] v] Y'] Y1] tv] tvold] nev] (Hit & H). destruct ok.
  - destruct H as (H1 & H2 & H3 & Y0 & H4 & _). apply wp_bind. eapply wp_mono; [apply finish_ok; assumption|].
    intros [[[d a] e] u'] (F1 & F2). cbn [wp oiter onev otv otvold oga ogb oY1 oe]. split; [apply HCA|]. split; [lia|]. split; [lia|]. split; [lia|].
    split; [exact H3|]. split; [eauto|]. split; assumption.
  - destruct H as (H1 & H2). cbn [wp oiter onev oe]. split; [apply HCA|]. split; [lia|]. split; [reflexivity|]. split; [reflexivity|]. split; [lia|]. nia.
Qed.
(* C44, failure *)
Lemma failure_keeps itermax h fs o u o' u' : step itermax h fs o u = Ok (false, o', u') -> u' = u /\ oe o' = oe o.
Proof.
  unfold SympModel.step. cbv zeta.
  match goal with |- bind ?m _ = _ -> _ => destruct m as [[[[oh ga] gb] q]|x|x|]; cbn [bind]; try discriminate end.
  match goal with |- bind ?m _ = _ -> _ => destruct m as [Y|x|x|]; cbn [bind]; try discriminate end.
  match goal with |- bind ?m _ = _ -> _ => destruct m as [[[[[[[[ok it] v] Y'] Y1] tv] tvold] nev]|x|x|]; cbn [bind]; try discriminate end.
  destruct ok.
  - match goal with |- bind ?m _ = _ -> _ => destruct m as [[[[d a] e] u1]|x|x|]; cbn [bind]; discriminate end.
  - intros H. injection H as <- <-. split; reflexivity.
Qed.
(* C47 *)
Lemma step_bounded itermax h fs o u : can_start h fs o ->
  wp (step itermax h fs o u) (fun x => let '(ok, o', u') := x in
    onev o' - onev o <= Z.max 0 itermax * s /\ onev o' - onev o = (if ok : bool then oiter o' + 1 else oiter o') * s).
Proof.
  intros Hc. eapply wp_mono; [apply step_gen, Hc|]. intros [[ok o'] u'] (_ & Hi & H). destruct ok.
  - destruct H as (H1 & H2 & _). split; nia.
  - destruct H as (_ & _ & H1 & H2). split; nia.
Qed.
(* C46 *)
Lemma step_ub itermax h o u : 1 <= n < s -> (oldh o =? h)%num = true -> is_ub (step itermax h false o u).
Proof.
  intros H E. unfold SympModel.step. cbv zeta. rewrite E. cbn [negb andb bind]. apply ub_bind. apply extrap_ub, H.
Qed.
End Step.

(* the objects a program can have: constructed, then any number of steps *)
Inductive reachable {K : num} (n s : Z) (long : bool) (nar : K -> K) (f : vec K -> vec K) (ta tb tq : Z -> K) : obj (K := K) -> Prop :=
| r_new v Y Y1 d e a it o : construct n ta tb tq v Y Y1 d e a it = Ok o -> reachable n s long nar f ta tb tq o
| r_step itermax h fs o u ok o' u' : reachable n s long nar f ta tb tq o -> step n s long nar f ta tb tq itermax h fs o u = Ok (ok, o', u') -> reachable n s long nar f ta tb tq o'.

(* over the reals *)
Lemma mul3 (x h y : R) : (x * h * y = h * (x * y))%R.
Proof. ring. Qed.
Section Real.
Variables n s : Z.
Variable long : bool.
Variable f : vec Rnum -> vec Rnum.
Variables ta tb tq : Z -> R.
Hypothesis Hn : 0 <= n.
Hypothesis Hs : 1 <= s.
Notation id := (fun x : Rnum => x).
Notation rstep := (step (K := Rnum) n s long id f ta tb tq).
Definition robj (o : obj (K := Rnum)) : Prop :=
  (forall i, 0 <= i < s * s -> oga o i = (ta i * oldh o)%R) /\ (forall i, 0 <= i < s -> ogb o i = (tb i * oldh o)%R) /\ (forall p, 0 <= p < n -> oe o p = 0%R).
Definition TA (i j : Z) : R := ta (i * s + j).
Lemma acc_R m (g : Z -> R) x : 0 <= m -> acc (K := Rnum) m g x = (x + rsum 0 (m - 1) g)%R.
Proof.
  intros H. assert (A : forall k : nat, acc (K := Rnum) (Z.of_nat k) g x = (x + rsum 0 (Z.of_nat k - 1) g)%R).
  { induction k as [|k IH]; [rewrite rsum_empty by lia; cbn; symmetry; apply Rplus_0_r|].
    replace (Z.of_nat (S k)) with (Z.of_nat k + 1) by lia. rewrite acc_S by lia. rewrite IH. replace (Z.of_nat k + 1 - 1) with (Z.of_nat k) by lia.
    rewrite (rsum_hi 0 (Z.of_nat k)) by lia. cbn [nadd Rnum]. apply Rplus_assoc. }
  specialize (A (Z.to_nat m)). rewrite Z2Nat.id in A by lia. exact A.
Qed.
Lemma for_R (g : Z -> R) k : 0 <= k -> for_ 0 (k - 1) (fun i (x : R) => x + g i)%R 0%R = rsum 0 (k - 1) g.
Proof. intros H. rewrite <- (Rplus_0_l (rsum 0 (k - 1) g)). rewrite <- acc_R by exact H. reflexivity. Qed.
Lemma newval_R ga u Y1 h i l : 0 <= i < s -> (forall i, 0 <= i < s * s -> ga i = (ta i * h)%R) ->
  newval n s (K := Rnum) ga u Y1 i l = (u l + h * rsum 0 (s - 1) (fun j => TA i j * Y1 (j * n + l)%Z))%R.
Proof.
  intros Hi Hg. unfold newval. rewrite acc_R by lia. f_equal. rewrite <- rsum_scal. apply rsum_ext. intros j Hj. cbn [nmul Rnum].
  rewrite Hg by nia. unfold TA. set (x := ta (i * s + j)); set (y := Y1 (j * n + l)); clearbody x y; apply mul3.
Qed.
Lemma robj_new v Y Y1 d e a it o : construct (K := Rnum) n ta tb tq v Y Y1 d e a it = Ok o -> robj o.
Proof.
  intros H. assert (W : wp (construct (K := Rnum) n ta tb tq v Y Y1 d e a it) robj); [|rewrite H in W; exact W].
  unfold construct. apply wp_bind. eapply wp_mono; [apply (fill0 n (fun _ => nlit 0 0)); [exact Hn|]|].
  { intros l t Hl Ht. rewrite wr_ok by lia. reflexivity. }
  intros e' (He & _). cbn [wp]. unfold robj. cbn [oga ogb oe oldh nlit Rnum]. rewrite Rlit_0.
  split; [intros; rewrite Rmult_1_r; reflexivity|]. split; [intros; rewrite Rmult_1_r; reflexivity|]. intros p Hp. rewrite He by exact Hp. cbn. apply Rlit_0.
Qed.
Lemma robj_coeffs h o o' : robj o -> coeffs_after (K := Rnum) s id ta tb tq h o o' -> oldh o' = h /\
  (forall i, 0 <= i < s * s -> oga o' i = (ta i * h)%R) /\ (forall i, 0 <= i < s -> ogb o' i = (tb i * h)%R).
Proof.
  intros (R1 & R2 & _) H. unfold coeffs_after in H. cbn [neqb Rnum] in H. destruct (Reqb_spec (oldh o) h) as [E|E].
  - destruct H as (H1 & H2 & H3 & _). rewrite H1, H2, H3. subst h. auto.
  - destruct H as (H1 & H2 & H3 & _). rewrite H1. split; [reflexivity|]. split; assumption.
Qed.
Lemma success_R tv tvold : success (K := Rnum) long tv tvold = true -> (tv <= thr (K := Rnum) long)%R.
Proof.
  unfold success. intros H. apply andb_true_iff in H. destruct H as [H _]. cbn [nltb nleb Rnum] in H. destruct long.
  - destruct (Rltb_spec tv (thr (K := Rnum) true)); [lra|discriminate].
  - destruct (Rleb_spec tv (thr (K := Rnum) false)); [lra|discriminate].
Qed.
Lemma swept_R ga u Y0 Y1 tv h : (forall i, 0 <= i < s * s -> ga i = (ta i * h)%R) -> swept (K := Rnum) n s f ga u Y0 Y1 tv ->
  tv = residual n s TA h f u (stage (K := Rnum) n Y0).
Proof.
  intros Hg (H1 & ->). unfold sqsum, residual.
  transitivity (for_ 0 (s - 1) (fun i (x : R) => x + rsum 0 (n - 1) (fun l => (stage_eq s TA h f u (stage (K := Rnum) n Y0) i l - stage (K := Rnum) n Y0 i l) *
    (stage_eq s TA h f u (stage (K := Rnum) n Y0) i l - stage (K := Rnum) n Y0 i l)))%R 0%R); [|apply for_R; lia].
  cbn [nlit Rnum]. rewrite Rlit_0. apply for_ext. intros i x Hi. rewrite acc_R by exact Hn. f_equal. apply rsum_ext. intros l Hl.
  rewrite (newval_R ga u Y1 h i l) by (try assumption; lia). rewrite stage_in by lia. unfold stage_eq. cbn [nmul nsub Rnum].
  assert (E : rsum 0 (s - 1) (fun j => TA i j * Y1 (j * n + l)%Z)%R = rsum 0 (s - 1) (fun j => TA i j * f (stage (K := Rnum) n Y0 j) l)%R).
  { apply rsum_ext. intros j Hj. rewrite H1 by lia. reflexivity. }
  rewrite E. reflexivity.
Qed.
Lemma fin_u (u e d : R) : e = 0%R -> (u + (e + d) = u + d)%R.
Proof. intros ->. lra. Qed.
Lemma fin_e (u e d : R) : e = 0%R -> ((e + d) + (u - (u + (e + d))) = 0)%R.
Proof. intros ->. lra. Qed.
Lemma delta_R gb Y0 Y1 h l : (forall i, 0 <= i < s -> gb i = (tb i * h)%R) -> 0 <= l < n ->
  (forall i l, 0 <= i < s -> 0 <= l < n -> Y1 (i * n + l) = f (stage (K := Rnum) n Y0 i) l) ->
  delta_ (K := Rnum) n s id gb Y1 l = (h * rsum 0 (s - 1) (fun i => tb i * f (stage (K := Rnum) n Y0 i) l))%R.
Proof.
  intros Hg Hl H. unfold delta_. rewrite acc_R by lia. cbn [nlit Rnum]. rewrite Rlit_0, Rplus_0_l. rewrite <- rsum_scal. apply rsum_ext. intros i Hi.
  cbn [nmul Rnum]. rewrite Hg, H by lia. apply mul3.
Qed.
Definition gauss_step (h : R) (u : vec Rnum) (x : bool * obj (K := Rnum) * vec Rnum) : Prop := let '(ok, o', u') := x in
  if ok : bool then exists Y, (residual n s TA h f u Y <= thr (K := Rnum) long)%R /\ forall l, 0 <= l < n -> u' l = advanced s tb h f u Y l
  else u' = u.
Lemma step_real itermax h fs o u : robj o -> can_start n s h fs o -> wp (rstep itermax h fs o u) (fun x => gauss_step h u x /\ robj (snd (fst x))).
Proof.
  intros Ho Hc. eapply wp_mono; [apply step_gen; assumption|]. intros [[ok o'] u'] (H1 & _ & H2). cbn [fst snd].
  pose proof Ho as (_ & _ & He). destruct (robj_coeffs h o o' Ho H1) as (C0 & C1 & C2). unfold gauss_step. destruct ok.
  - destruct H2 as (_ & _ & H3 & (Y0 & H4) & _ & H5). split.
    + exists (stage (K := Rnum) n Y0). split.
      * rewrite <- (swept_R (oga o') u Y0 (oY1 o') (otv o') h C1 H4). apply (success_R _ _ H3).
      * intros l Hl. destruct (H5 l Hl) as [-> _]. unfold advanced. rewrite <- (delta_R (ogb o') Y0 (oY1 o') h l C2 Hl (proj1 H4)). apply fin_u, He, Hl.
    + unfold robj. rewrite C0. split; [exact C1|]. split; [exact C2|]. intros p Hp. destruct (H5 p Hp) as [_ ->]. apply fin_e, He, Hp.
  - destruct H2 as (-> & H3 & _). split; [reflexivity|]. unfold robj. rewrite C0, H3. auto.
Qed.
(* without extrapolation outside the arrays the premise of [reachable] gives the invariant; an
   extrapolation outside the arrays does not return *)
Lemma step_ok_start itermax h fs o u x : rstep itermax h fs o u = Ok x -> can_start n s h fs o \/ n = 0.
Proof.
  intros H. destruct fs; [left; left; reflexivity|]. destruct (Z_le_dec s n); [left; right; right; assumption|].
  destruct (oldh o =? h)%num eqn:E; [|left; right; left; exact E]. destruct (Z.eq_dec n 0) as [->|]; [right; reflexivity|].
  exfalso. destruct (step_ub n s long id f ta tb tq itermax h o u ltac:(lia) E) as [m Hm]. congruence.
Qed.
Lemma reach_robj o : 1 <= n -> reachable (K := Rnum) n s long id f ta tb tq o -> robj o.
Proof.
  intros H1 H. induction H as [v Y Y1 d e a it o H|itermax h fs o u ok o' u' _ IH H]; [eapply robj_new, H|].
  assert (Hc : can_start n s h fs o) by (destruct (step_ok_start _ _ _ _ _ _ H); [assumption|lia]).
  pose proof (step_real itermax h fs o u IH Hc) as W. rewrite H in W. apply W.
Qed.
Lemma gauss itermax h fs o u : 1 <= n -> reachable (K := Rnum) n s long id f ta tb tq o -> can_start n s h fs o -> wp (rstep itermax h fs o u) (gauss_step h u).
Proof. intros H1 H Hc. eapply wp_mono; [apply step_real; [apply reach_robj|]; assumption|]. intros x Hx. apply Hx. Qed.
End Real.
