(* Proofs about the planetary examples of ExModel.v. *)
From Coq Require Import Reals Lra.
From Verif Require Import Base Spec HessModel HessPathProofs LayoutModel ExModel ExSpec ExGrid.
Open Scope Z_scope.

Lemma iterM_UB {St} (f : Z -> St -> out St) msg : forall k i n s, (n < k)%nat ->
  (forall j t, i <= j < i + Z.of_nat n -> wp (f j t) (fun _ => True)) -> (forall t, f (i + Z.of_nat n) t = UB msg) -> iterM k i f s = UB msg.
Proof.
  induction k as [|k IH]; intros i n s Hn Hok Hub; [lia|]. cbn [iterM]. destruct n as [|n].
  - rewrite Z.add_0_r in Hub. rewrite Hub. reflexivity.
  - pose proof (Hok i s ltac:(lia)) as H. destruct (f i s) as [t| | |]; try contradiction. cbn [bind].
    apply (IH _ n). { lia. } { intros j u Hj. apply Hok. lia. } { intros u. replace (i + 1 + Z.of_nat n) with (i + Z.of_nat (S n)) by lia. apply Hub. }
Qed.
Lemma forM_UB {St} (f : Z -> St -> out St) msg lo hi k s : lo <= k <= hi ->
  (forall j t, lo <= j < k -> wp (f j t) (fun _ => True)) -> (forall t, f k t = UB msg) -> forM lo hi f s = UB msg.
Proof.
  intros Hk Hok Hub. unfold forM. apply (iterM_UB f msg _ lo (Z.to_nat (k - lo))). { lia. }
  - intros j t Hj. apply Hok. lia.
  - intros t. replace (lo + Z.of_nat (Z.to_nat (k - lo))) with k by lia. apply Hub.
Qed.

Section Ub.
Context {K : num}.
Variables (nb : Z) (m : Z -> K) (G : K).
Hypothesis Hnb : 1 <= nb.
Lemma dqdt_safe cap X Y : 3 * nb <= cap -> wp (outer_dqdt nb m cap X Y) (fun _ => True).
Proof.
  intros Hc. unfold outer_dqdt. eapply wp_mono; [apply (forM_ind (fun _ _ => True)); [lia|exact Logic.I|]|intros; exact Logic.I].
  intros i t Hi _. apply wp_rd; [lia|]. eapply wp_mono; [apply (forM_ind (fun _ _ => True)); [lia|exact Logic.I|]|intros; exact Logic.I].
  intros j u Hj _. apply wp_rd; [lia|]. rewrite wr_ok by lia. exact Logic.I.
Qed.
Lemma outer_ub cap X Y : 6 * nb <= cap < 21 * nb -> outer_rhs nb m G cap X Y = UB "write out of bounds".
Proof.
  intros Hc. unfold outer_rhs. pose proof (dqdt_safe cap X Y ltac:(lia)) as H. destruct (outer_dqdt nb m cap X Y) as [Y1| | |]; try contradiction.
  cbn [bind]. unfold outer_dpdt. rewrite (forM_UB _ "write out of bounds" 0 (3 * (6 * nb) - 1) (cap - 3 * nb)).
  - reflexivity.
  - lia.
  - intros j t Hj. rewrite wr_ok by lia. exact Logic.I.
  - intros t. unfold wr. rewrite (proj2 (inb_false 0 (cap - 1) _)) by lia. reflexivity.
Qed.
End Ub.

(* ---- with room for the extra elements, over the reals --------------------- *)
Ltac rr := cbn [bind]; repeat (first [rewrite rd_ok by lia | rewrite wr_ok by lia]; cbn [bind]).
Section Real.
Variables (nb : Z) (m : Z -> R) (G : R).
Hypothesis Hnb : 2 <= nb.
Variable cap : Z.
Hypothesis Hcap : 21 * nb <= cap.

Lemma rsum02 f : rsum 0 2 f = (f 0%Z + f 1%Z + f 2%Z)%R.
Proof. rewrite rsum_lo by lia. rewrite rsum_lo by lia. rewrite rsum_lo by lia. rewrite rsum_empty by lia. simpl. ring. Qed.
Lemma forM3 {St} (f : Z -> St -> out St) s : forM 0 2 f s = bind (f 0 s) (fun s => bind (f 1 s) (f 2)).
Proof. unfold forM. simpl. destruct (f 0 s); try reflexivity. simpl. destruct (f 1 a); try reflexivity. simpl. destruct (f 2 a0); reflexivity. Qed.
Lemma diff2_ok (X : Z -> R) k l : 0 <= k < nb -> 0 <= l < nb -> diff2 (K := Rnum) nb X k l = Ok (dist2 X k l).
Proof.
  intros Hk Hl. unfold diff2. rewrite forM3. rr.
  f_equal. unfold dist2, pos. rewrite rsum02. unfold pow2. cbn. rewrite Rlit_0. ring.
Qed.
Lemma dist2_sym X k l : dist2 X k l = dist2 X l k.
Proof. unfold dist2. rewrite !rsum02. ring. Qed.

Lemma dqdt_run (X Y : Z -> R) : wp (outer_dqdt (K := Rnum) nb m cap X Y) (fun Y' =>
  (forall i j, 0 <= i < nb -> 0 <= j <= 2 -> Y' (3 * i + j) = (- (X (3 * nb + (3 * i + j))%Z / m i))%R) /\
  (forall k, 3 * nb <= k -> Y' k = Y k)).
Proof.
  unfold outer_dqdt.
  set (P := fun (k : Z) (Y' : Z -> R) => (forall i j, 0 <= i < k -> 0 <= j <= 2 -> Y' (3 * i + j) = (- (X (3 * nb + (3 * i + j))%Z / m i))%R) /\
  (forall k, 3 * nb <= k -> Y' k = Y k)).
  match goal with |- wp (forM _ _ ?b ?s) _ => assert (HL : wp (forM 0 (nb - 1) b s) (P (nb - 1 + 1))) end.
  { apply forM_ind; [lia|split; [intros; lia|auto]|]. intros i Y1 Hi [H1 H2]. apply wp_rd; [lia|]. rewrite forM3.
    rr. cbn [wp].
    split.
    - intros i' j Hi' Hj. destruct (Z.eq_dec i' i) as [->|].
      + assert (C : j = 0 \/ j = 1 \/ j = 2) by lia. unfold upd. destruct C as [-> | [-> | ->]].
        * rewrite (proj2 (Z.eqb_neq (3 * i + 0) (3 * i + 2))) by lia. rewrite (proj2 (Z.eqb_neq (3 * i + 0) (3 * i + 1))) by lia. rewrite Z.eqb_refl. cbn. unfold Rdiv. ring.
        * rewrite (proj2 (Z.eqb_neq (3 * i + 1) (3 * i + 2))) by lia. rewrite Z.eqb_refl. cbn. unfold Rdiv. ring.
        * rewrite Z.eqb_refl. cbn. unfold Rdiv. ring.
      + rewrite !upd_other by lia. apply H1; lia.
    - intros k Hk. rewrite !upd_other by lia. apply H2, Hk. }
  refine (wp_mono _ _ _ HL _). intros Y' [H1 H2]. split; [intros; apply H1; lia|exact H2].
Qed.

(* one turn of the pair loops *)
Definition dpi (l s : Z) := 3 * nb + (3 * l + s).
Lemma add_run (c : R) l a b (X Y : Z -> R) : 0 <= l < nb -> 0 <= a < nb -> 0 <= b < nb ->
  wp (outer_add (K := Rnum) nb cap c l a b X Y) (fun Y' =>
    (forall s, 0 <= s <= 2 -> Y' (dpi l s) = (Y (dpi l s) + c * (pos X a s - pos X b s))%R) /\
    (forall k, (forall s, 0 <= s <= 2 -> k <> dpi l s) -> Y' k = Y k)).
Proof.
  intros Hl Ha Hb. unfold outer_add. rewrite forM3.
  rr. cbn [wp].
  split.
  - intros s Hs. assert (C : s = 0 \/ s = 1 \/ s = 2) by lia. unfold dpi, pos. destruct C as [-> | [-> | ->]]; cbn; unfold upd;
    repeat match goal with |- context [?a =? ?b] => destruct (Z.eqb_spec a b); try lia end; reflexivity.
  - intros k Hk. pose proof (Hk 0 ltac:(lia)). pose proof (Hk 1 ltac:(lia)). pose proof (Hk 2 ltac:(lia)). unfold dpi in *. rewrite !upd_other by lia. reflexivity.
Qed.
(* the contribution of body j to the momentum of body l, as stored by the code *)
Definition pull (X : Z -> R) (l s j : Z) : R :=
  (G * m l * m j * (pos X l s - pos X j s) / (sqrt (dist2 X l j) * sqrt (dist2 X l j) * sqrt (dist2 X l j)))%R.
Lemma pair1 (X Y : Z -> R) l j : 0 <= l < nb -> 0 <= j < nb ->
  wp (ml <- rd 0 (nb - 1) m l ;; mj <- rd 0 (nb - 1) m j ;; d <- diff2 (K := Rnum) nb X l j ;;
      outer_add (K := Rnum) nb cap (G * ml * mj / pow3 (nsqrt d))%num l l j X Y) (fun Y' =>
    (forall s, 0 <= s <= 2 -> Y' (dpi l s) = (Y (dpi l s) + pull X l s j)%R) /\
    (forall k, (forall s, 0 <= s <= 2 -> k <> dpi l s) -> Y' k = Y k)).
Proof.
  intros Hl Hj. apply wp_rd; [lia|]. apply wp_rd; [lia|]. rewrite diff2_ok by lia. apply wp_okb.
  eapply wp_mono; [apply add_run; lia|]. cbv beta. intros Y' [H1 H2]. split; [|exact H2]. intros s Hs. rewrite H1 by exact Hs.
  unfold pull, pow3. cbv [nadd nmul nsub ndiv nopp nsqrt Rnum car]. unfold Rdiv. ring.
Qed.
Lemma pair2 (X Y : Z -> R) l j : 0 <= l < nb -> 0 <= j < nb ->
  wp (ml <- rd 0 (nb - 1) m l ;; mj <- rd 0 (nb - 1) m j ;; d <- diff2 (K := Rnum) nb X j l ;;
      outer_add (K := Rnum) nb cap (- G * mj * ml / pow3 (nsqrt d))%num l j l X Y) (fun Y' =>
    (forall s, 0 <= s <= 2 -> Y' (dpi l s) = (Y (dpi l s) + pull X l s j)%R) /\
    (forall k, (forall s, 0 <= s <= 2 -> k <> dpi l s) -> Y' k = Y k)).
Proof.
  intros Hl Hj. apply wp_rd; [lia|]. apply wp_rd; [lia|]. rewrite diff2_ok by lia. rewrite (dist2_sym X j l). apply wp_okb.
  eapply wp_mono; [apply add_run; lia|]. cbv beta. intros Y' [H1 H2]. split; [|exact H2]. intros s Hs. rewrite H1 by exact Hs.
  unfold pull, pow3. cbv [nadd nmul nsub ndiv nopp nsqrt Rnum car]. unfold Rdiv. ring.
Qed.
(* the inner loop for one body *)
Lemma inner_run (body : Z -> (Z -> R) -> out (Z -> R)) X l lo hi (Y : Z -> R) : lo <= hi + 1 ->
  (forall j Y, lo <= j <= hi -> wp (body j Y) (fun Y' =>
    (forall s, 0 <= s <= 2 -> Y' (dpi l s) = (Y (dpi l s) + pull X l s j)%R) /\
    (forall k, (forall s, 0 <= s <= 2 -> k <> dpi l s) -> Y' k = Y k))) ->
  wp (forM lo hi body Y) (fun Y' =>
    (forall s, 0 <= s <= 2 -> Y' (dpi l s) = (Y (dpi l s) + rsum lo hi (pull X l s))%R) /\
    (forall k, (forall s, 0 <= s <= 2 -> k <> dpi l s) -> Y' k = Y k)).
Proof.
  intros Hlo Hb.
  set (P := fun (j : Z) (Y' : Z -> R) => (forall s, 0 <= s <= 2 -> Y' (dpi l s) = (Y (dpi l s) + rsum lo (j - 1) (pull X l s))%R) /\
    (forall k, (forall s, 0 <= s <= 2 -> k <> dpi l s) -> Y' k = Y k)).
  assert (HL : wp (forM lo hi body Y) (P (hi + 1))).
  { apply forM_ind; [lia| |].
    - split; [|auto]. intros s _. rewrite rsum_empty by lia. ring.
    - intros j Y1 Hj [H1 H2]. eapply wp_mono; [apply Hb; lia|]. cbv beta. intros Y2 [H3 H4]. split.
      + intros s Hs. rewrite H3, H1 by exact Hs. replace (j + 1 - 1) with j by lia. rewrite (rsum_hi lo j) by lia. ring.
      + intros k Hk. rewrite H4 by exact Hk. apply H2, Hk. }
  refine (wp_mono _ _ _ HL _). intros Y' [H1 H2]. split; [|exact H2]. intros s Hs. rewrite H1 by exact Hs. replace (hi + 1 - 1) with hi by lia. reflexivity.
Qed.
Lemma dpi_inj l s l' s' : 0 <= s <= 2 -> 0 <= s' <= 2 -> dpi l s = dpi l' s' -> l = l' /\ s = s'.
Proof. unfold dpi. lia. Qed.
(* a loop over the bodies *)
Lemma outer_loop (body : Z -> (Z -> R) -> out (Z -> R)) X a b (lo hi : Z -> Z) (Y : Z -> R) : a <= b + 1 ->
  (forall l Y, a <= l <= b -> wp (body l Y) (fun Y' =>
    (forall s, 0 <= s <= 2 -> Y' (dpi l s) = (Y (dpi l s) + rsum (lo l) (hi l) (pull X l s))%R) /\
    (forall k, (forall s, 0 <= s <= 2 -> k <> dpi l s) -> Y' k = Y k))) ->
  wp (forM a b body Y) (fun Y' =>
    (forall l s, a <= l <= b -> 0 <= s <= 2 -> Y' (dpi l s) = (Y (dpi l s) + rsum (lo l) (hi l) (pull X l s))%R) /\
    (forall k, (forall l s, a <= l <= b -> 0 <= s <= 2 -> k <> dpi l s) -> Y' k = Y k)).
Proof.
  intros Hab Hb.
  set (P := fun (c : Z) (Y' : Z -> R) => (forall l s, a <= l < c -> 0 <= s <= 2 -> Y' (dpi l s) = (Y (dpi l s) + rsum (lo l) (hi l) (pull X l s))%R) /\
    (forall k, (forall l s, a <= l < c -> 0 <= s <= 2 -> k <> dpi l s) -> Y' k = Y k)).
  assert (HL : wp (forM a b body Y) (P (b + 1))).
  { apply forM_ind; [lia|split; [intros; lia|auto]|]. intros c Y1 Hc [H1 H2]. eapply wp_mono; [apply Hb; lia|]. cbv beta. intros Y2 [H3 H4]. split.
    - intros l s Hl Hs. destruct (Z.eq_dec l c) as [->|].
      + rewrite H3 by exact Hs. rewrite H2; [reflexivity|]. intros l' s' Hl' Hs' E. apply dpi_inj in E; lia.
      + rewrite H4. { apply H1; lia. } intros s' Hs' E. apply dpi_inj in E; lia.
    - intros k Hk. rewrite H4. { apply H2. intros; apply Hk; lia. } intros; apply Hk; lia. }
  refine (wp_mono _ _ _ HL _). intros Y' [H1 H2]. split; [intros; apply H1; lia|]. intros k Hk. apply H2. intros; apply Hk; lia.
Qed.
Lemma dpdt_run (X Y : Z -> R) : wp (outer_dpdt (K := Rnum) nb m G cap X Y) (fun Y' =>
  (forall l s, 0 <= l < nb -> 0 <= s <= 2 -> Y' (dpi l s) = (rsum 0 (l - 1) (pull X l s) + rsum (l + 1) (nb - 1) (pull X l s))%R) /\
  (forall k, k < 3 * nb \/ 21 * nb <= k -> Y' k = Y k) /\ (forall k, 6 * nb <= k < 21 * nb -> Y' k = 0%R)).
Proof.
  unfold outer_dpdt. apply wp_bind.
  set (P := fun (i : Z) (Y' : Z -> R) => forall k, Y' k = if inb (3 * nb) (3 * nb + i - 1) k then 0%R else Y k).
  match goal with |- wp (forM _ _ ?b ?s) _ => assert (HL : wp (forM 0 (3 * (6 * nb) - 1) b s) (P (3 * (6 * nb) - 1 + 1))) end.
  { apply forM_ind; [lia| |].
    - intros k. unfold inb. destruct (Z.leb_spec (3 * nb) k), (Z.leb_spec k (3 * nb + 0 - 1)); cbn; try lia; reflexivity.
    - intros i Y1 Hi HP. rewrite wr_ok by lia. cbn [wp]. intros k. unfold upd. rewrite HP. unfold inb.
      destruct (Z.eqb_spec k (3 * nb + i)), (Z.leb_spec (3 * nb) k), (Z.leb_spec k (3 * nb + i - 1)), (Z.leb_spec k (3 * nb + (i + 1) - 1)); cbn; try lia; try reflexivity; apply Rlit_0. }
  refine (wp_mono _ _ _ HL _). clear HL. intros Y1 HP. unfold P in HP. clear P. apply wp_bind.
  eapply wp_mono.
  { apply (outer_loop _ X 1 (nb - 1) (fun _ => 0) (fun l => l - 1)); [lia|]. intros l Y2 Hl. apply (inner_run _ X l 0 (l - 1)); [lia|]. intros j Y3 Hj. apply pair1; lia. }
  cbv beta. intros Y2 [H1 H2].
  eapply wp_mono.
  { apply (outer_loop _ X 0 (nb - 2) (fun l => l + 1) (fun l => nb - 1)); [lia|]. intros l Y3 Hl. apply (inner_run _ X l (l + 1) (nb - 1)); [lia|]. intros j Y4 Hj. apply pair2; lia. }
  cbv beta. intros Y3 [H3 H4].
  assert (Z0 : forall l s, 0 <= l < nb -> 0 <= s <= 2 -> Y1 (dpi l s) = 0%R).
  { intros l s Hl Hs. rewrite HP. unfold dpi. rewrite inb_true by lia. reflexivity. }
  assert (Z2 : forall l s, 0 <= l < nb -> 0 <= s <= 2 -> Y2 (dpi l s) = rsum 0 (l - 1) (pull X l s)).
  { intros l s Hl Hs. destruct (Z.eq_dec l 0) as [->|].
    - rewrite H2. { rewrite Z0 by lia. rewrite rsum_empty by lia. reflexivity. } intros l' s' Hl' Hs' E. apply dpi_inj in E; lia.
    - rewrite H1 by lia. rewrite Z0 by lia. apply Rplus_0_l. }
  split; [|split].
  - intros l s Hl Hs. destruct (Z.eq_dec l (nb - 1)) as [->|].
    + rewrite H4. { rewrite Z2 by lia. rewrite (rsum_empty (nb - 1 + 1)) by lia. symmetry. apply Rplus_0_r. } intros l' s' Hl' Hs' E. apply dpi_inj in E; lia.
    + rewrite H3 by lia. rewrite Z2 by lia. reflexivity.
  - intros k Hk. rewrite H4 by (intros l' s' Hl' Hs'; unfold dpi; lia). rewrite H2 by (intros l' s' Hl' Hs'; unfold dpi; lia).
    rewrite HP. rewrite (proj2 (inb_false _ _ k)) by lia. reflexivity.
  - intros k Hk. rewrite H4 by (intros l' s' Hl' Hs'; unfold dpi; lia). rewrite H2 by (intros l' s' Hl' Hs'; unfold dpi; lia).
    rewrite HP. rewrite inb_true by lia. reflexivity.
Qed.
Lemma pull_force X l s : 0 <= l < nb -> (rsum 0 (l - 1) (pull X l s) + rsum (l + 1) (nb - 1) (pull X l s))%R = (- force nb m G X l s)%R.
Proof.
  intros Hl. unfold force. rewrite (rsum_split l 0 (nb - 1)) by lia. rewrite (rsum_hi 0 l) by lia. rewrite Z.eqb_refl.
  assert (E : forall a b, (l < a \/ b < l) -> rsum a b (pull X l s) = (- rsum a b (fun j => if j =? l then 0 else
    - G * m l * m j * (pos X l s - pos X j s) / (sqrt (dist2 X l j) * sqrt (dist2 X l j) * sqrt (dist2 X l j))))%R).
  { intros a b H. transitivity (- rsum a b (fun j => (-1) * pull X l s j))%R.
    - rewrite rsum_scal. ring.
    - f_equal. apply rsum_ext. intros j Hj. destruct (Z.eqb_spec j l); [lia|]. unfold pull, Rdiv. ring. }
  rewrite (E 0 (l - 1)) by lia. rewrite (E (l + 1) (nb - 1)) by lia. ring.
Qed.
(* with room for 21*nb elements: Newton's field with time reversed in the first 6*nb elements,
   zeros in the 15*nb elements that follow *)
Lemma outer_run (X Y : Z -> R) : wp (outer_rhs (K := Rnum) nb m G cap X Y) (fun Y' =>
  (forall i, 0 <= i < 6 * nb -> Y' i = (- newton_field nb m G X i)%R) /\ (forall k, 6 * nb <= k < 21 * nb -> Y' k = 0%R) /\ (forall k, 21 * nb <= k -> Y' k = Y k)).
Proof.
  unfold outer_rhs. apply wp_bind. eapply wp_mono; [apply dqdt_run|]. cbv beta. intros Y1 [H1 H2].
  eapply wp_mono; [apply dpdt_run|]. cbv beta. intros Y2 (H3 & H4 & H5). split; [|split].
  - intros i Hi. unfold newton_field. destruct (Z.ltb_spec i (3 * nb)).
    + rewrite H4 by lia. pose proof (Z.div_mod i 3 ltac:(lia)). pose proof (Z.mod_pos_bound i 3 ltac:(lia)).
      set (d := i / 3) in *. set (r := i mod 3) in *. clearbody d r. subst i. rewrite H1 by lia. reflexivity.
    + pose proof (Z.div_mod (i - 3 * nb) 3 ltac:(lia)). pose proof (Z.mod_pos_bound (i - 3 * nb) 3 ltac:(lia)).
      set (d := (i - 3 * nb) / 3) in *. set (r := (i - 3 * nb) mod 3) in *. clearbody d r.
      assert (E : i = dpi d r) by (unfold dpi; lia). rewrite E, H3 by lia. apply pull_force. lia.
  - exact H5.
  - intros k Hk. rewrite H4 by lia. apply H2. lia.
Qed.
End Real.
