(* Proofs about the life of the arrays. *)
From Coq Require Import List ZArith Lia Bool.
From Verif Require Import Base HessModel RodasProofs RodasTop AllocModel AllocSpec.
Import ListNotations.
Open Scope Z_scope.

Definition shape (m : kmem) (q : Z) : option (bool * kind * Z) :=
  match kcells m q with Some b => Some (klive b, kkind b, klen b) | None => None end.
Definition same_shape (m m' : kmem) : Prop := knext m' = knext m /\ forall q, shape m' q = shape m q.
Lemma keqb_refl k : keqb k k = true. Proof. destruct k; reflexivity. Qed.
Lemma keqb_eq a b : keqb a b = true -> a = b. Proof. destruct a, b; intros H; try reflexivity; discriminate H. Qed.
Lemma ss_refl m : same_shape m m. Proof. split; reflexivity. Qed.
Lemma ss_trans a b c : same_shape a b -> same_shape b c -> same_shape a c.
Proof. intros (H1 & H2) (H3 & H4). split; [congruence|]. intros q. rewrite H4. apply H2. Qed.
Lemma kst_pc m p i v : pc (kst m p i v) (same_shape m).
Proof.
  unfold kst. destruct (kcells m p) as [b|] eqn:E; [|exact I]. destruct (klive b) eqn:L; [|exact I].
  unfold wr. destruct (inb 0 (klen b - 1) i); cbn [bind pc]; [|exact I].
  split; [reflexivity|]. intros q. unfold shape, kset. cbn [kcells]. destruct (Z.eqb_spec q p) as [->|]; [|reflexivity]. rewrite E. cbn. rewrite L. reflexivity.
Qed.
Lemma kst_wp m p i v b : kcells m p = Some b -> klive b = true -> 0 <= i < klen b ->
  wp (kst m p i v) (fun m' => same_shape m m' /\ (forall q, q <> p -> kcells m' q = kcells m q) /\
    exists b', kcells m' p = Some b' /\ kdat b' = upd (kdat b) i v /\ klive b' = true /\ kkind b' = kkind b /\ klen b' = klen b).
Proof.
  intros E L Hi. pose proof (kst_pc m p i v) as H. unfold kst in *. rewrite E, L in *.
  assert (W : wr 0 (klen b - 1) (kdat b) i v = Ok (upd (kdat b) i v)).
  { unfold wr, inb. replace (0 <=? i) with true by (symmetry; apply Z.leb_le; lia). replace (i <=? klen b - 1) with true by (symmetry; apply Z.leb_le; lia). reflexivity. }
  rewrite W in *. cbn [bind wp pc] in *. split; [exact H|]. unfold kset. cbn [kcells]. split.
  - intros q Hq. apply Z.eqb_neq in Hq. rewrite Hq. reflexivity.
  - rewrite Z.eqb_refl. eexists. split; [reflexivity|]. repeat split.
Qed.
Lemma kfree_inv k m p m' : kfree k m p = Ok m' -> exists b, kcells m p = Some b /\ klive b = true /\ kkind b = k /\
  m' = kset m p (KBlk false (kkind b) (klen b) (kdat b)).
Proof.
  unfold kfree. destruct (kcells m p) as [b|]; [|discriminate]. destruct (klive b) eqn:L; cbn [negb]; [|discriminate].
  destruct (keqb (kkind b) k) eqn:Ek; [|discriminate]. intros H. injection H as <-. exists b. repeat split; [exact L|apply keqb_eq; exact Ek].
Qed.
Lemma kfree_ok k m p b : kcells m p = Some b -> klive b = true -> kkind b = k -> kfree k m p = Ok (kset m p (KBlk false (kkind b) (klen b) (kdat b))).
Proof. intros E L Ek. unfold kfree. rewrite E, L. cbn [negb]. rewrite Ek, keqb_refl. reflexivity. Qed.

(* ---- only Ok and UB ---- *)
Definition okub {A} (o : out A) : Prop := (exists a, o = Ok a) \/ is_UB o.
Lemma okub_bind {A B} (o : out A) (f : A -> out B) : okub o -> (forall a, okub (f a)) -> okub (bind o f).
Proof. intros [(a & ->)|(s & ->)] H; cbn [bind]; [apply H|right; exists s; reflexivity]. Qed.
Lemma okub_ok {A} (a : A) : okub (Ok a). Proof. left. exists a. reflexivity. Qed.
Lemma okub_kst m p i v : okub (kst m p i v).
Proof.
  unfold kst. destruct (kcells m p) as [b|]; [|right; eexists; reflexivity]. destruct (klive b); [|right; eexists; reflexivity].
  apply okub_bind; [|intros; apply okub_ok]. unfold wr. destruct (inb _ _ _); [apply okub_ok|right; eexists; reflexivity].
Qed.
Lemma okub_kld m p i : okub (kld m p i).
Proof.
  unfold kld. destruct (kcells m p) as [b|]; [|right; eexists; reflexivity]. destruct (klive b); [|right; eexists; reflexivity].
  unfold rd. destruct (inb _ _ _); [apply okub_ok|right; eexists; reflexivity].
Qed.
Lemma okub_free k m p : okub (kfree k m p).
Proof.
  unfold kfree. destruct (kcells m p) as [b|]; [|right; eexists; reflexivity]. destruct (negb (klive b)); [right; eexists; reflexivity|].
  destruct (keqb (kkind b) k); [apply okub_ok|right; eexists; reflexivity].
Qed.
Lemma okub_forM {St} lo hi (f : Z -> St -> out St) s : (forall j t, okub (f j t)) -> okub (forM lo hi f s).
Proof.
  intros H. unfold forM. generalize (Z.to_nat (hi - lo + 1)) as k. intros k. revert lo s. induction k as [|k IH]; intros lo s; cbn [iterM]; [apply okub_ok|].
  apply okub_bind; [apply H|intros t; apply IH].
Qed.
Lemma not_wp_UB {A} (o : out A) : okub o -> ~ wp o (fun _ => True) -> is_UB o.
Proof. intros [(a & ->)|H] N; [exfalso; apply N; exact I|exact H]. Qed.

(* ---- copies ---- *)
Section Copies.
Variable aligned : bool.
Notation kd := (built aligned).
Lemma copy_shape n x0 m a : pc (full_copy n x0 m a) (fun r => snd r = x0 /\ same_shape m (fst r)).
Proof.
  unfold full_copy. apply pc_bind. eapply pc_mono.
  - apply (forM_pc (same_shape m)); [|apply ss_refl]. intros j t Ht. apply pc_bind. destruct (kld t a j); cbn [pc]; try exact I.
    eapply pc_mono; [apply kst_pc|]. intros t' Ht'. eapply ss_trans; eassumption.
  - intros m' H. cbn. split; [reflexivity|exact H].
Qed.
Lemma shape_live m q b : kcells m q = Some b -> klive b = true -> exists k l, shape m q = Some (true, k, l).
Proof. intros E L. unfold shape. rewrite E, L. eauto. Qed.
Lemma copy_not_clean n x0 junk m : wf m -> ~ wp (full_copy_block aligned n x0 junk m) (clean m).
Proof.
  intros Hw H. unfold full_copy_block, arr_new, allocDoubleArray, kalloc in H.
  set (m1 := KMem (knext m + 1) _) in H. set (a := knext m) in *.
  pose proof (copy_shape n x0 m1 a) as C. destruct (full_copy n x0 m1 a) as [[m2 x]| | |] eqn:Ec; cbn [bind wp] in H; try contradiction.
  cbn [pc fst snd] in C. destruct C as (-> & Hs & Hsh). cbn [fst snd] in H. unfold arr_dtor, destroyDoubleArray in H.
  destruct (kfree kd m2 x0) as [m3| | |] eqn:E3; cbn [bind wp] in H; try contradiction.
  destruct (kfree_inv _ _ _ _ E3) as (b3 & C3 & L3 & K3 & ->).
  destruct (kfree kd _ a) as [m4| | |] eqn:E4; cbn [wp] in H; try contradiction.
  destruct (kfree_inv _ _ _ _ E4) as (b4 & C4 & L4 & K4 & ->).
  assert (x0 <> a) as Hx by (intros ->; unfold kset in C4; cbn [kcells] in C4; rewrite Z.eqb_refl in C4; injection C4 as <-; discriminate L4).
  destruct (shape_live _ _ _ C3 L3) as (k & l & S3). rewrite Hsh in S3. unfold shape, m1 in S3. cbn [kcells] in S3.
  assert (Hx' : (x0 =? a) = false) by (apply Z.eqb_neq; exact Hx). change (knext m) with a in S3. rewrite Hx' in S3.
  destruct (kcells m x0) as [b|] eqn:Eb; [|discriminate S3].
  assert (Hlt : x0 < knext m) by (destruct (Z_lt_le_dec x0 (knext m)) as [h|h]; [exact h|rewrite (Hw x0 h) in Eb; discriminate Eb]).
  destruct H as (H & _). specialize (H x0 Hlt). unfold kset in H. cbn [kcells] in H. rewrite Hx', Z.eqb_refl, Eb in H.
  injection H as H. rewrite <- H in S3. cbn in S3. discriminate S3.
Qed.
Lemma copy_UB n x0 junk : is_UB (full_copy_block aligned n x0 junk start).
Proof.
  apply not_wp_UB.
  - unfold full_copy_block, arr_new, allocDoubleArray, kalloc. apply okub_bind.
    + apply okub_bind; [|intros; apply okub_ok]. apply okub_forM. intros. apply okub_bind; [apply okub_kld|intros; apply okub_kst].
    + intros r. apply okub_bind; [apply okub_free|intros; apply okub_free].
  - intros H. apply (copy_not_clean n x0 junk start); [intros q _; reflexivity|].
    destruct (full_copy_block aligned n x0 junk start) as [m'| | |] eqn:E; cbn [wp] in *; try contradiction.
    (* nothing else was there *)
    split; [|intros q b Hq Eb]; revert E; unfold full_copy_block, arr_new, allocDoubleArray, kalloc; cbn [knext start kcells].
    + set (m1 := KMem (0 + 1) _). pose proof (copy_shape n x0 m1 0) as C. destruct (full_copy n x0 m1 0) as [[m2 x]| | |]; cbn [bind]; try discriminate.
      cbn [pc fst snd] in *. destruct C as (-> & Hs & Hsh). unfold arr_dtor, destroyDoubleArray.
      destruct (kfree kd m2 x0) as [m3| | |] eqn:E3; cbn [bind]; try discriminate. intros E4.
      destruct (kfree_inv _ _ _ _ E3) as (b3 & C3 & L3 & K3 & ->). destruct (kfree_inv _ _ _ _ E4) as (b4 & C4 & L4 & K4 & ->).
      intros q Hq. unfold kset. cbn [kcells]. assert (x0 = 0) as -> by (destruct (shape_live _ _ _ C3 L3) as (k & l & S3); rewrite Hsh in S3; unfold shape, m1 in S3; cbn [kcells] in S3; destruct (Z.eqb_spec x0 0); [assumption|discriminate S3]).
      replace (q =? 0) with false by (symmetry; apply Z.eqb_neq; lia). specialize (Hsh q). unfold shape, m1 in Hsh. cbn [kcells] in Hsh.
      replace (q =? 0) with false in Hsh by (symmetry; apply Z.eqb_neq; lia). destruct (kcells m2 q); [discriminate Hsh|reflexivity].
    + set (m1 := KMem (0 + 1) _). pose proof (copy_shape n x0 m1 0) as C. destruct (full_copy n x0 m1 0) as [[m2 x]| | |]; cbn [bind]; try discriminate.
      cbn [pc fst snd] in *. destruct C as (-> & Hs & Hsh). unfold arr_dtor, destroyDoubleArray.
      destruct (kfree kd m2 x0) as [m3| | |] eqn:E3; cbn [bind]; try discriminate. intros E4.
      destruct (kfree_inv _ _ _ _ E3) as (b3 & C3 & L3 & K3 & ->). destruct (kfree_inv _ _ _ _ E4) as (b4 & C4 & L4 & K4 & ->).
      unfold kset in C4. cbn [kcells] in C4. assert (x0 = 0) as -> by (destruct (shape_live _ _ _ C3 L3) as (k & l & S3); rewrite Hsh in S3; unfold shape, m1 in S3; cbn [kcells] in S3; destruct (Z.eqb_spec x0 0); [assumption|discriminate S3]).
      rewrite Z.eqb_refl in C4. injection C4 as <-. discriminate L4.
Qed.
Lemma implicit_UB size junk m : is_UB (implicit_copy_block aligned size junk m).
Proof.
  unfold implicit_copy_block, implicit_copy, arr_new, allocDoubleArray, kalloc, arr_dtor, destroyDoubleArray. cbn [bind fst snd].
  unfold kfree. cbn [kcells]. rewrite !Z.eqb_refl. cbn [klive negb kkind]. rewrite keqb_refl. cbn [bind]. unfold kset. cbn [kcells]. rewrite Z.eqb_refl. cbn [klive negb].
  eexists. reflexivity.
Qed.

(* ---- several matrices, no copies ---- *)
Lemma clean_refl m : wf m -> clean m m.
Proof. intros H. split; [reflexivity|]. intros q b Hq E. rewrite (H q Hq) in E. discriminate E. Qed.
Lemma block_clean sizes junk body : (forall m, wf m -> wp (body m) (clean m)) -> forall m, wf m -> wp (block aligned sizes junk m body) (clean m).
Proof.
  intros Hb. induction sizes as [|s l IH]; intros m Hw; cbn [block]; [apply Hb, Hw|].
  unfold arr_new, allocDoubleArray, kalloc. set (m1 := KMem (knext m + 1) _). apply wp_bind.
  assert (Hw1 : wf m1). { intros q Hq. unfold m1 in *. cbn [knext kcells] in *. replace (q =? knext m) with false by (symmetry; apply Z.eqb_neq; lia). apply Hw. lia. }
  eapply wp_mono; [apply (IH m1 Hw1)|]. intros m2 (H1 & H2). unfold arr_dtor, destroyDoubleArray.
  assert (E : kcells m2 (knext m) = Some (KBlk true kd s junk)). { rewrite H1 by (unfold m1; cbn [knext]; lia). unfold m1. cbn [kcells]. rewrite Z.eqb_refl. reflexivity. }
  rewrite (kfree_ok kd m2 (knext m) _ E eq_refl eq_refl). cbn [wp]. split.
  - intros q Hq. unfold kset. cbn [kcells]. replace (q =? knext m) with false by (symmetry; apply Z.eqb_neq; lia).
    rewrite H1 by (unfold m1; cbn [knext]; lia). unfold m1. cbn [kcells]. replace (q =? knext m) with false by (symmetry; apply Z.eqb_neq; lia). reflexivity.
  - intros q b Hq. unfold kset. cbn [kcells]. destruct (Z.eqb_spec q (knext m)) as [->|Hne]; [intros Eb; injection Eb as <-; reflexivity|].
    intros Eb. apply (H2 q b); [unfold m1; cbn [knext]; lia|exact Eb].
Qed.

(* ---- the work array ---- *)
Definition hinv (kd' : kind) (m0 m : kmem) (h : hmat) : Prop :=
  knext m0 <= hwork h < knext m /\ (exists b, kcells m (hwork h) = Some b /\ klive b = true /\ kkind b = kd' /\ klen b = hlwork h) /\ 1 <= hlwork h /\
  wf m /\ (forall q, q < knext m0 -> kcells m q = kcells m0 q) /\
  (forall q b, knext m0 <= q -> q <> hwork h -> kcells m q = Some b -> klive b = false).
Lemma kld_ok m p b i : kcells m p = Some b -> klive b = true -> 0 <= i < klen b -> kld m p i = Ok (kdat b i).
Proof.
  intros E L Hi. unfold kld. rewrite E, L. unfold rd, inb. replace (0 <=? i) with true by (symmetry; apply Z.leb_le; lia).
  replace (i <=? klen b - 1) with true by (symmetry; apply Z.leb_le; lia). reflexivity.
Qed.
Lemma hinv_st kd' m0 m h i v : hinv kd' m0 m h -> 0 <= i < hlwork h ->
  wp (kst m (hwork h) i v) (fun m' => hinv kd' m0 m' h /\ (i = 0 -> kld m' (hwork h) 0 = Ok v)).
Proof.
  intros (Hp & (b & E & L & Kk & Hl) & H1 & Hw & Hold & Hdead) Hi.
  eapply wp_mono; [apply (kst_wp m (hwork h) i v b E L); lia|]. intros m' ((Hn & Hs) & Hoth & b' & E' & D' & L' & K' & Hl'). split.
  - split; [rewrite Hn; exact Hp|]. split; [exists b'; repeat split; congruence|]. split; [exact H1|]. split.
    + intros q Hq. rewrite Hn in Hq. rewrite Hoth by lia. apply Hw, Hq.
    + split; [intros q Hq; rewrite Hoth by lia; apply Hold, Hq|]. intros q c Hq Hne Ec. rewrite (Hoth q Hne) in Ec. exact (Hdead q c Hq Hne Ec).
  - intros ->. rewrite (kld_ok m' (hwork h) b' 0 E' L') by lia. rewrite D'. unfold upd. rewrite Z.eqb_refl. reflexivity.
Qed.
Lemma call_ok kd' m0 m h g k : hinv kd' m0 m h -> k <= hlwork h -> wp (dgehrd_call g m (hwork h) k) (fun m' => hinv kd' m0 m' h).
Proof.
  intros H Hk. unfold dgehrd_call. destruct (Z_lt_le_dec (k - 1) 0) as [h0|h0]; [rewrite forM_empty by lia; exact H|].
  apply (forM_ind (fun _ m' => hinv kd' m0 m' h)); [lia|exact H|]. intros j t Hj Ht. eapply wp_mono; [apply (hinv_st kd' m0 t h j (g j) Ht); lia|]. intros m' (Hm' & _). exact Hm'.
Qed.
Lemma decomr_ok kd' m0 m h opt g junk : hinv kd' m0 m h -> (kd' = NewArray \/ opt <= hlwork h) ->
  wp (hm_decomr opt g junk m h) (fun r => hinv kd' m0 (fst r) (snd r) /\ hlwork h <= hlwork (snd r) /\ (opt <= hlwork h -> snd r = h)).
Proof.
  intros H Hc. unfold hm_decomr, dgehrd_query. apply wp_bind. pose proof H as (_ & _ & H1 & _). eapply wp_mono; [apply (hinv_st kd' m0 m h 0 opt H); lia|].
  intros m1 (Hm1 & Hr). rewrite (Hr eq_refl). cbn [bind]. destruct (Z.ltb_spec (hlwork h) opt) as [Hlt|Hge].
  - destruct Hc as [->|Hc]; [|lia]. destruct Hm1 as (Hp & (b & E & L & Kk & Hl) & _ & Hw & Hold & Hdead).
    rewrite (kfree_ok NewArray m1 (hwork h) b E L Kk). cbn [bind]. unfold kalloc. cbn [fst snd bind hwork].
    set (m2 := KMem _ _). apply wp_bind.
    assert (I2 : hinv NewArray m0 m2 (HM (knext m1) opt)).
    { unfold m2. split; [cbn; lia|]. split; [cbn [hwork kcells kset knext]; rewrite Z.eqb_refl; eexists; split; [reflexivity|]; repeat split|]. split; [cbn [hlwork]; lia|]. split.
      - intros q Hq. cbn [knext kset kcells] in *. replace (q =? knext m1) with false by (symmetry; apply Z.eqb_neq; lia).
        replace (q =? hwork h) with false by (symmetry; apply Z.eqb_neq; lia). apply Hw. lia.
      - split.
        + intros q Hq. cbn [kcells kset knext]. replace (q =? knext m1) with false by (symmetry; apply Z.eqb_neq; lia).
          replace (q =? hwork h) with false by (symmetry; apply Z.eqb_neq; lia). apply Hold, Hq.
        + intros q c Hq Hne. cbn [kcells kset knext hwork] in *. replace (q =? knext m1) with false by (symmetry; apply Z.eqb_neq; exact Hne).
          destruct (Z.eqb_spec q (hwork h)) as [->|Hq2]; [intros Ec; injection Ec as <-; reflexivity|]. intros Ec. exact (Hdead q c Hq Hq2 Ec). }
    eapply wp_mono; [apply (call_ok NewArray m0 m2 _ g opt I2); cbn [hlwork]; lia|]. intros m3 H3. cbn. split; [exact H3|]. split; [lia|lia].
  - cbn [bind fst snd]. apply wp_bind. eapply wp_mono; [apply (call_ok kd' m0 m1 h g opt Hm1); lia|]. intros m3 H3. cbn. split; [exact H3|]. split; [lia|reflexivity].
Qed.
Lemma new_inv n junk m : wf m -> 1 <= n -> let '(m1, h) := hm_new aligned n junk m in hinv kd m m1 h /\ hlwork h = n.
Proof.
  intros Hw Hn. unfold hm_new, allocDoubleArray, kalloc. cbn [hwork hlwork]. split; [|reflexivity]. split; [cbn; lia|]. split.
  - cbn [kcells hwork]. rewrite Z.eqb_refl. eexists. split; [reflexivity|]. repeat split.
  - split; [cbn; lia|]. split; [|split].
    + intros q Hq. cbn [knext kcells] in *. replace (q =? knext m) with false by (symmetry; apply Z.eqb_neq; lia). apply Hw. lia.
    + intros q Hq. cbn [kcells]. replace (q =? knext m) with false by (symmetry; apply Z.eqb_neq; lia). reflexivity.
    + intros q b Hq Hne E. cbn [kcells hwork] in *. replace (q =? knext m) with false in E by (symmetry; apply Z.eqb_neq; exact Hne). rewrite (Hw q Hq) in E. discriminate E.
Qed.
Lemma dtor_clean m0 m h : hinv kd m0 m h -> wp (hm_dtor aligned m h) (clean m0).
Proof.
  intros (Hp & (b & E & L & Kk & Hl) & H1 & Hw & Hold & Hdead). unfold hm_dtor, destroyDoubleArray. rewrite (kfree_ok kd m (hwork h) b E L Kk). cbn [wp]. split.
  - intros q Hq. unfold kset. cbn [kcells]. replace (q =? hwork h) with false by (symmetry; apply Z.eqb_neq; lia). apply Hold, Hq.
  - intros q c Hq. unfold kset. cbn [kcells]. destruct (Z.eqb_spec q (hwork h)) as [->|Hne]; [intros Ec; injection Ec as <-; reflexivity|]. apply Hdead; assumption.
Qed.
Lemma work_clean n opts g junk m : wf m -> 1 <= n -> (aligned = false \/ Forall (fun o => o <= n) opts) -> wp (hm_block aligned n opts g junk m) (clean m).
Proof.
  intros Hw Hn Hc. unfold hm_block. pose proof (new_inv n junk m Hw Hn) as H0. destruct (hm_new aligned n junk m) as [m1 h]. destruct H0 as (H0 & Hl).
  apply wp_bind. eapply wp_mono; [|intros r Hr; apply dtor_clean; exact Hr].
  assert (G : forall m1 h, hinv kd m m1 h -> n <= hlwork h -> wp (hm_calls opts g junk m1 h) (fun r => hinv kd m (fst r) (snd r))); [|apply G; [exact H0|lia]].
  clear m1 h H0 Hl. induction opts as [|o l IH]; intros m1 h H1 Hl; cbn [hm_calls]; [exact H1|].
  apply wp_bind. eapply wp_mono; [apply (decomr_ok kd m m1 h o g junk H1)|].
  - destruct Hc as [->|Hc]; [left; reflexivity|right; apply Forall_inv in Hc; lia].
  - intros r (Hr & Hle & _). apply IH; [|exact Hr|lia]. destruct Hc as [Hc|Hc]; [left; exact Hc|right; apply Forall_inv_tail in Hc; exact Hc].
Qed.
End Copies.
Lemma work_mismatch n opts g junk m : wf m -> 1 <= n -> ~ Forall (fun o => o <= n) opts -> is_UB (hm_block true n opts g junk m).
Proof.
  intros Hw Hn Hc. unfold hm_block. pose proof (new_inv true n junk m Hw Hn) as H0. destruct (hm_new true n junk m) as [m1 h]. destruct H0 as (H0 & Hl).
  assert (G : is_UB (hm_calls opts g junk m1 h)); [|destruct G as (s & ->); exists s; reflexivity].
  revert m1 h H0 Hl. induction opts as [|o l IH]; intros m1 h H1 Hl; [exfalso; apply Hc; constructor|]. cbn [hm_calls].
  destruct (Z_le_gt_dec o n) as [Ho|Ho].
  - assert (Ho' : o <= hlwork h) by (rewrite Hl; exact Ho). pose proof (decomr_ok (built true) m m1 h o g junk H1 (or_intror Ho')) as D. destruct (hm_decomr o g junk m1 h) as [[m2 h2]| | |]; cbn [wp] in D; try contradiction.
    destruct D as (D & _ & Dh). cbn [fst snd bind] in *. specialize (Dh Ho'). subst h2. apply IH; [|exact D|exact Hl]. intros HF. apply Hc. constructor; assumption.
  - unfold hm_decomr, dgehrd_query. pose proof (hinv_st (built true) m m1 h 0 o H1) as Q. assert (0 <= 0 < hlwork h) as Hz by lia. specialize (Q Hz).
    destruct (kst m1 (hwork h) 0 o) as [m2| | |]; cbn [wp] in Q; try contradiction. destruct Q as (Q & Hr). cbn [bind]. rewrite (Hr eq_refl). cbn [bind].
    replace (hlwork h <? o) with true by (symmetry; apply Z.ltb_lt; lia).
    destruct Q as (_ & (b & E & L & Kk & _) & _). unfold kfree. rewrite E, L. cbn [negb]. rewrite Kk. cbn. eexists. reflexivity.
Qed.
