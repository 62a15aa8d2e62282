(* C44 to C47: the loops of the symplectic integrator. *)
From Coq Require Import Reals Lra FunctionalExtensionality.
From Verif Require Import Base HessModel Spec HessPathProofs SympModel.
Open Scope Z_scope.
Local Arguments Z.mul : simpl never.
Local Arguments Z.add : simpl never.
Local Arguments Z.sub : simpl never.

Lemma iter_snoc {St} (f : Z -> St -> St) k : forall i x, iter (S k) i f x = f (i + Z.of_nat k) (iter k i f x).
Proof.
  induction k as [|k IH]; intros i x.
  - cbn [iter]. f_equal. lia.
  - change (iter (S (S k)) i f x) with (iter (S k) (i + 1) f (f i x)). rewrite IH. cbn [iter]. f_equal. lia.
Qed.
Lemma for_snoc {St} (f : Z -> St -> St) lo hi x : lo <= hi -> for_ lo hi f x = f hi (for_ lo (hi - 1) f x).
Proof.
  intros H. unfold for_. replace (Z.to_nat (hi - lo + 1)) with (S (Z.to_nat (hi - 1 - lo + 1))) by lia.
  rewrite iter_snoc. f_equal. lia.
Qed.
Lemma for_ext {St} (f g : Z -> St -> St) lo hi x : (forall i y, lo <= i <= hi -> f i y = g i y) -> for_ lo hi f x = for_ lo hi g x.
Proof.
  intros H. unfold for_. assert (forall k i x, (lo <= i -> i + Z.of_nat k <= hi + 1 -> iter k i f x = iter k i g x)) as A.
  { induction k as [|k IH]; intros i y Hi Hk; cbn [iter]; [reflexivity|]. rewrite H by lia. apply IH; lia. }
  destruct (Z_lt_dec hi lo); [replace (Z.to_nat (hi - lo + 1)) with O by lia; reflexivity|]. apply A; lia.
Qed.
Lemma idx_inj n i j i' j' : 0 <= j < n -> 0 <= j' < n -> i * n + j = i' * n + j' -> i = i' /\ j = j'.
Proof. intros Hj Hj' H. assert (i = i') by nia. subst. lia. Qed.
Lemma idx_bound n s i j : 0 <= i < s -> 0 <= j < n -> 0 <= i * n + j <= n * s - 1.
Proof. intros. nia. Qed.

Section G.
Context {K : num}.
Variables n s : Z.
Hypothesis Hn : 0 <= n.
Hypothesis Hs : 1 <= s.
(* x + g 0 + ... + g (m-1) *)
Definition acc (m : Z) (g : Z -> K) (x : K) : K := for_ 0 (m - 1) (fun j x => (x + g j)%num) x.
Lemma acc_0 g x : acc 0 g x = x.
Proof. reflexivity. Qed.
Lemma acc_S m g x : 0 <= m -> acc (m + 1) g x = (acc m g x + g m)%num.
Proof. intros H. unfold acc. replace (m + 1 - 1) with m by lia. rewrite for_snoc by lia. reflexivity. Qed.
Lemma acc_ext m g g' x : (forall j, 0 <= j < m -> g j = g' j) -> acc m g x = acc m g' x.
Proof. intros H. apply for_ext. intros i y Hi. rewrite H by lia. reflexivity. Qed.
(* a loop writing m consecutive elements *)
Lemma fill (base m : Z) (g : Z -> K) (body : Z -> vec K -> out (vec K)) (Y : vec K) : 0 <= m ->
  (forall l t, 0 <= l < m -> (forall p, p < base \/ base + l <= p -> t p = Y p) -> wp (body l t) (fun t' => t' = upd t (base + l) (g l))) ->
  wp (forM 0 (m - 1) body Y) (fun t => (forall l, 0 <= l < m -> t (base + l) = g l) /\ (forall p, p < base \/ base + m <= p -> t p = Y p)).
Proof.
  intros Hm Hb.
  set (P := fun l (t : vec K) => (forall k, 0 <= k < l -> t (base + k) = g k) /\ (forall p, p < base \/ base + l <= p -> t p = Y p)).
  assert (HL : wp (forM 0 (m - 1) body Y) (P (m - 1 + 1))).
  { apply forM_ind; [lia| |]; unfold P.
    - split; [intros; lia|reflexivity].
    - intros l t Hl (H1 & H2). eapply wp_mono; [apply Hb; [lia|exact H2]|]. intros t' ->. split.
      + intros k Hk. unfold upd. destruct (Z.eqb_spec (base + k) (base + l)); [f_equal; lia|apply H1; lia].
      + intros p Hp. unfold upd. destruct (Z.eqb_spec p (base + l)); [lia|]. apply H2. lia. }
  eapply wp_mono; [exact HL|]. unfold P. replace (m - 1 + 1) with m by lia. auto.
Qed.
Lemma fill0 (m : Z) (g : Z -> K) (body : Z -> vec K -> out (vec K)) (Y : vec K) : 0 <= m ->
  (forall l t, 0 <= l < m -> (forall p, p < 0 \/ l <= p -> t p = Y p) -> wp (body l t) (fun t' => t' = upd t l (g l))) ->
  wp (forM 0 (m - 1) body Y) (fun t => (forall l, 0 <= l < m -> t l = g l) /\ (forall p, p < 0 \/ m <= p -> t p = Y p)).
Proof.
  intros Hm Hb. eapply wp_mono; [apply (fill 0 m g); [exact Hm|]|]; cbn beta.
  - intros l t Hl Ht. rewrite Z.add_0_l. apply Hb; [exact Hl|]. intros p Hp. apply Ht. lia.
  - intros t (H1 & H2). split; [intros l Hl; rewrite <- (H1 l Hl); f_equal; lia|intros p Hp; apply H2; lia].
Qed.

Lemma scale_ok sz (t : Z -> K) h : 0 <= sz -> wp (scale sz t h) (fun a => forall i, 0 <= i < sz -> a i = (t i * h)%num).
Proof.
  intros H. unfold scale. eapply wp_mono; [apply (fill0 sz (fun i => t i * h)%num); [exact H|]|].
  - intros l x Hl Hx. cbn beta. apply wp_rd; [lia|]. rewrite wr_ok by lia. cbn [wp]. rewrite Hx by lia. reflexivity.
  - intros a (H1 & _). exact H1.
Qed.
(* the i-th stage *)
Definition stage (Y : vec K) (i : Z) : vec K := fun l => if inb 0 (n - 1) l then Y (i * n + l) else nlit 0 0.
Lemma stage_in Y i l : 0 <= l < n -> stage Y i l = Y (i * n + l).
Proof. intros H. unfold stage. rewrite inb_true by lia. reflexivity. Qed.

Lemma spread_ok (Y u : vec K) : wp (spread n s Y u) (fun Y' => forall i l, 0 <= i < s -> 0 <= l < n -> Y' (i * n + l) = u l).
Proof.
  unfold spread.
  set (P := fun j (t : vec K) => forall i l, 0 <= i < s -> 0 <= l < j -> t (i * n + l) = u l).
  match goal with |- wp (forM _ _ ?b _) _ => assert (HL : wp (forM 0 (n - 1) b Y) (P (n - 1 + 1))) end.
  { apply forM_ind; [lia|unfold P; intros; lia|]. intros j t Hj HP.
    set (P2 := fun k (t' : vec K) => P j t' /\ forall i, 0 <= i < k -> t' (i * n + j) = u j).
    match goal with |- wp (forM _ _ ?b _) _ => assert (HL2 : wp (forM 0 (s - 1) b t) (P2 (s - 1 + 1))) end.
    { apply forM_ind; [lia|split; [exact HP|intros; lia]|]. intros i t1 Hi (Q1 & Q2). apply wp_rd; [lia|].
      rewrite wr_ok by (apply idx_bound; lia). cbn [wp]. split.
      - intros i' l Hi' Hl. unfold upd. destruct (Z.eqb_spec (i' * n + l) (i * n + j)) as [E|]; [|apply Q1; lia].
        destruct (idx_inj n i' l i j ltac:(lia) ltac:(lia) E). lia.
      - intros i' Hi'. unfold upd. destruct (Z.eqb_spec (i' * n + j) (i * n + j)) as [E|]; [reflexivity|]. apply Q2.
        assert (i' <> i) by (intros ->; contradiction). lia. }
    eapply wp_mono; [exact HL2|]. intros t' (Q1 & Q2) i l Hi Hl. destruct (Z.eq_dec l j) as [->|]; [apply Q2; lia|apply Q1; lia]. }
  eapply wp_mono; [exact HL|]. intros t H i l Hi Hl. apply H; lia.
Qed.

Section F.
Variable f : vec K -> vec K.
Lemma seen_stage (v Y : vec K) i : (forall l, 0 <= l < n -> v l = Y (i * n + l)%Z) -> seen n v = stage Y i.
Proof.
  intros H. extensionality l. unfold seen, stage. destruct (inb 0 (n - 1) l) eqn:E; [|reflexivity]. apply inb_iff in E. apply H. lia.
Qed.
Lemma slopes_ok (Y v Y1 : vec K) nev :
  wp (slopes n s f Y (v, Y1, nev)) (fun x => let '(_, Y1', nev') := x in
    nev' = nev + s /\ forall i l, 0 <= i < s -> 0 <= l < n -> Y1' (i * n + l) = f (stage Y i) l).
Proof.
  unfold slopes.
  set (P := fun i (x : vec K * vec K * Z) => let '(_, t, c) := x in c = nev + i /\ forall i' l, 0 <= i' < i -> 0 <= l < n -> t (i' * n + l) = f (stage Y i') l).
  match goal with |- wp (forM _ _ ?b ?x) _ => assert (HL : wp (forM 0 (s - 1) b x) (P (s - 1 + 1))) end.
  { apply forM_ind; [lia|unfold P; split; [lia|intros; lia]|]. intros i [[v1 t1] c1] Hi (Q1 & Q2).
    apply wp_bind. eapply wp_mono; [apply (fill0 n (fun l => Y (i * n + l)%Z)); [exact Hn|]|].
    { intros l t Hl Ht. apply wp_rd; [apply idx_bound; lia|]. rewrite wr_ok by lia. reflexivity. }
    intros v2 (Hv & _). cbv zeta. rewrite (seen_stage v2 Y i Hv).
    apply wp_bind. eapply wp_mono; [apply (fill (i * n) n (f (stage Y i))); [exact Hn|]|].
    { intros l t Hl Ht. rewrite wr_ok by (apply idx_bound; lia). reflexivity. }
    intros t2 (H1 & H2). cbn [wp]. unfold P. split; [lia|]. intros i' l Hi' Hl.
    destruct (Z.eq_dec i' i) as [->|]; [apply H1; lia|]. rewrite H2 by nia. apply Q2; lia. }
  eapply wp_mono; [exact HL|]. intros [[v1 t1] c1] (Q1 & Q2). split; [lia|]. intros i l Hi Hl. apply Q2; lia.
Qed.
End F.

(* the new value of a stage, and the sum of the squares of the changes *)
Definition newval (ga u Y1 : vec K) (i l : Z) : K := acc s (fun j => ga (i * s + j)%Z * Y1 (j * n + l)%Z)%num (u l).
Definition sqsum (ga u Y1 Y : vec K) (k : Z) : K :=
  for_ 0 (k - 1) (fun i tv => acc n (fun l => (newval ga u Y1 i l - Y (i * n + l)%Z) * (newval ga u Y1 i l - Y (i * n + l)%Z))%num tv) (nlit 0 0).
Lemma heart_ok (ga u Y1 v Y : vec K) :
  wp (heart n s ga u Y1 (v, Y, nlit 0 0)) (fun x => let '(_, Y', tv) := x in
    tv = sqsum ga u Y1 Y s /\ forall i l, 0 <= i < s -> 0 <= l < n -> Y' (i * n + l) = newval ga u Y1 i l).
Proof.
  unfold heart.
  set (P := fun i (x : vec K * vec K * K) => let '(_, t, c) := x in c = sqsum ga u Y1 Y i /\
    (forall i' l, 0 <= i' < i -> 0 <= l < n -> t (i' * n + l) = newval ga u Y1 i' l) /\ (forall p, i * n <= p -> t p = Y p)).
  match goal with |- wp (forM _ _ ?b ?x) _ => assert (HL : wp (forM 0 (s - 1) b x) (P (s - 1 + 1))) end.
  { apply forM_ind; [lia|unfold P; split; [reflexivity|split; [intros; lia|reflexivity]]|]. intros i [[v1 t1] c1] Hi (Q1 & Q2 & Q3).
    apply wp_bind. eapply wp_mono; [apply (fill0 n u); [exact Hn|]|].
    { intros l t Hl Ht. apply wp_rd; [lia|]. rewrite wr_ok by lia. reflexivity. }
    intros v2 (Hv2 & _).
    apply wp_bind. eapply wp_mono; [apply (fill0 n (newval ga u Y1 i)); [exact Hn|]|].
    { intros l t Hl Ht.
      set (P2 := fun j (t' : vec K) => t' = upd t l (acc j (fun j => ga (i * s + j)%Z * Y1 (j * n + l)%Z)%num (u l))).
      match goal with |- wp (forM _ _ ?b _) _ => assert (HL2 : wp (forM 0 (s - 1) b t) (P2 (s - 1 + 1))) end.
      { apply forM_ind; [lia| |].
        - unfold P2. rewrite acc_0. extensionality p. unfold upd. destruct (Z.eqb_spec p l); [subst p; rewrite Ht, Hv2 by lia; reflexivity|reflexivity].
        - intros j t' Hj HP2. unfold P2 in HP2. subst t'. apply wp_rd; [lia|]. apply wp_rd; [pose proof (idx_bound s s i j); lia|]. apply wp_rd; [apply idx_bound; lia|].
          rewrite wr_ok by lia. cbn [wp]. unfold P2. rewrite acc_S by lia. rewrite upd_same. extensionality p. unfold upd. destruct (Z.eqb_spec p l); reflexivity. }
      eapply wp_mono; [exact HL2|]. intros t' HP2. unfold P2 in HP2. subst t'. replace (s - 1 + 1) with s by lia. reflexivity. }
    intros v3 (Hv3 & _).
    apply wp_bind. set (g := fun l => ((newval ga u Y1 i l - Y (i * n + l)%Z) * (newval ga u Y1 i l - Y (i * n + l)%Z))%num).
    set (P3 := fun l (c : K) => c = acc l g c1).
    match goal with |- wp (forM _ _ ?b _) _ => assert (HL3 : wp (forM 0 (n - 1) b c1) (P3 (n - 1 + 1))) end.
    { apply forM_ind; [lia|reflexivity|]. intros l c Hl HP3. unfold P3 in HP3. subst c. apply wp_rd; [lia|]. apply wp_rd; [apply idx_bound; lia|]. cbn [wp]. unfold P3.
      rewrite acc_S by lia. rewrite Hv3 by lia. rewrite Q3 by lia. reflexivity. }
    eapply wp_mono; [exact HL3|]. intros c HP3. unfold P3 in HP3. subst c.
    apply wp_bind. eapply wp_mono; [apply (fill (i * n) n (newval ga u Y1 i)); [exact Hn|]|].
    { intros l t Hl Ht. apply wp_rd; [lia|]. rewrite wr_ok by (apply idx_bound; lia). cbn [wp]. rewrite Hv3 by lia. reflexivity. }
    intros t2 (H1 & H2). cbn [wp]. unfold P. split; [|split].
    - unfold sqsum. replace (i + 1 - 1) with i by lia. rewrite for_snoc by lia. replace (n - 1 + 1) with n by lia. rewrite Q1. reflexivity.
    - intros i' l Hi' Hl. destruct (Z.eq_dec i' i) as [->|]; [apply H1; lia|]. rewrite H2 by nia. apply Q2; lia.
    - intros p Hp. rewrite H2 by lia. apply Q3. lia. }
  eapply wp_mono; [exact HL|]. intros [[v1 t1] c1] (Q1 & Q2 & _). split; [rewrite Q1; f_equal; lia|]. intros i l Hi Hl. apply Q2; lia.
Qed.

Section It.
Variable f : vec K -> vec K.
Variable long : bool.
(* Y0: the stages before the last sweep *)
Definition swept (ga u Y0 Y1 : vec K) (tv : K) : Prop :=
  (forall i l, 0 <= i < s -> 0 <= l < n -> Y1 (i * n + l) = f (stage Y0 i) l) /\ tv = sqsum ga u Y1 Y0 s.
Lemma iterate_ok ga u k : forall it v Y Y1 tv tvold nev,
  wp (iterate n s long f k it ga u v Y Y1 tv tvold nev) (fun x => let '(ok, it', v', Y', Y1', tv', tvold', nev') := x in
    it <= it' <= it + Z.of_nat k /\
    if ok then it' < it + Z.of_nat k /\ nev' = nev + (it' - it + 1) * s /\ success long tv' tvold' = true /\
      exists Y0, swept ga u Y0 Y1' tv' /\ forall i l, 0 <= i < s -> 0 <= l < n -> Y' (i * n + l) = newval ga u Y1' i l
    else it' = it + Z.of_nat k /\ nev' = nev + (it' - it) * s).
Proof.
  induction k as [|k IH]; intros it v Y Y1 tv tvold nev; cbn [iterate].
  - cbn [wp]. lia.
  - apply wp_bind. eapply wp_mono; [apply slopes_ok|]. intros [[v1 Y11] nev1] (-> & HY).
    apply wp_bind. eapply wp_mono; [apply heart_ok|]. intros [[v2 Y2] tv2] (Htv & HY2).
    destruct (success long tv2 tv) eqn:E.
    + cbn [wp]. split; [lia|]. split; [lia|]. split; [lia|]. split; [exact E|]. exists Y. split; [split; assumption|assumption].
    + eapply wp_mono; [apply IH|]. intros [[[[[[[ok it'] v'] Y'] Y1'] tv'] tvold'] nev'] (A & B). split; [lia|]. destruct ok.
      * destruct B as (B1 & B2 & B3). split; [lia|]. split; [nia|exact B3].
      * destruct B as (B1 & B2). split; [lia|nia].
Qed.
End It.

Section Fin.
Variable nar : K -> K.
Definition delta_ (gb Y1 : vec K) (j : Z) : K := acc s (fun i => nar (gb i) * Y1 (i * n + j)%Z)%num (nlit 0 0).
Lemma finish_ok (gb Y1 d0 a0 e u : vec K) :
  wp (finish n s nar gb Y1 d0 a0 e u) (fun x => let '(_, _, e', u') := x in
    (forall p, p < 0 \/ n <= p -> u' p = u p) /\
    forall p, 0 <= p < n -> u' p = (u p + (e p + delta_ gb Y1 p))%num /\ e' p = ((e p + delta_ gb Y1 p) + (u p - (u p + (e p + delta_ gb Y1 p))))%num).
Proof.
  unfold finish. apply wp_bind. eapply wp_mono; [apply (fill0 n (fun _ => nlit 0 0)); [exact Hn|]|].
  { intros l t Hl Ht. rewrite wr_ok by lia. reflexivity. }
  intros d1 (Hd1 & _).
  set (P := fun i (d : vec K) => forall j, 0 <= j < n -> d j = acc i (fun i => nar (gb i) * Y1 (i * n + j)%Z)%num (nlit 0 0)).
  apply wp_bind. match goal with |- wp (forM _ _ ?b _) _ => assert (HL : wp (forM 0 (s - 1) b d1) (P (s - 1 + 1))) end.
  { apply forM_ind; [lia|unfold P; intros j Hj; rewrite acc_0; apply Hd1; lia|]. intros i d Hi HP. apply wp_rd; [lia|].
    eapply wp_mono; [apply (fill0 n (fun j => d j + nar (gb i) * Y1 (i * n + j)%Z)%num); [exact Hn|]|].
    { intros l t Hl Ht. apply wp_rd; [lia|]. apply wp_rd; [apply idx_bound; lia|]. rewrite wr_ok by lia. cbn [wp]. rewrite Ht by lia. reflexivity. }
    intros d2 (H1 & _) j Hj. rewrite H1 by lia. rewrite acc_S by lia. rewrite HP by lia. reflexivity. }
  eapply wp_mono; [exact HL|]. intros d2 Hd2. unfold P in Hd2. replace (s - 1 + 1) with s in Hd2 by lia.
  apply wp_bind. eapply wp_mono; [apply (fill0 n u); [exact Hn|]|].
  { intros l t Hl Ht. apply wp_rd; [lia|]. rewrite wr_ok by lia. reflexivity. }
  intros a1 (Ha1 & _).
  apply wp_bind. eapply wp_mono; [apply (fill0 n (fun p => e p + delta_ gb Y1 p)%num); [exact Hn|]|].
  { intros l t Hl Ht. apply wp_rd; [lia|]. apply wp_rd; [lia|]. rewrite wr_ok by lia. cbn [wp]. rewrite Ht by lia. rewrite Hd2 by lia. reflexivity. }
  intros e1 (He1 & _).
  apply wp_bind. eapply wp_mono; [apply (fill0 n (fun p => u p + (e p + delta_ gb Y1 p))%num); [exact Hn|]|].
  { intros l t Hl Ht. apply wp_rd; [lia|]. apply wp_rd; [lia|]. rewrite wr_ok by lia. cbn [wp]. rewrite Ha1, He1 by lia. reflexivity. }
  intros u1 (Hu1 & Hu2).
  apply wp_bind. eapply wp_mono; [apply (fill0 n (fun p => (e p + delta_ gb Y1 p) + (u p - (u p + (e p + delta_ gb Y1 p))))%num); [exact Hn|]|].
  { intros l t Hl Ht. apply wp_rd; [lia|]. apply wp_rd; [lia|]. apply wp_rd; [lia|]. rewrite wr_ok by lia. cbn [wp]. rewrite Ht by lia. rewrite Ha1, He1, Hu1 by lia. reflexivity. }
  intros e2 (He2 & _). cbn [wp]. split; [exact Hu2|]. intros p Hp. split; [apply Hu1|apply He2]; exact Hp.
Qed.
End Fin.
End G.
