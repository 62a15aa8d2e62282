(* C35: parallel loops.  A schedule of for(i=0;i<size;i++) is any list of events in which the
   events of iteration i are exactly Load i followed later by Store i, and nothing else occurs;
   any number of threads and any distribution of the iterations give such a list. *)
From Coq Require Import Reals Lra FunctionalExtensionality.
From Verif Require Import Base HessModel Rock4Model.
Open Scope Z_scope.

Definition idx (x : ev) : Z := match x with Load i => i | Store i => i end.
Definition schedule (size : Z) (l : list ev) : Prop :=
  forall i, filter (fun x => idx x =? i) l = if (0 <=? i) && (i <? size) then [Load i; Store i] else [].

Section Elt.
Context {K : num}.
(* what the sequential loop means: every component of the target gets the value computed from
   the initial arrays, nothing else changes *)
Definition elementwise (e : (Z -> vec K) -> Z -> K) (dst size : Z) (H0 H : Z -> vec K) : Prop :=
  forall a i, H a i = if (a =? dst) && ((0 <=? i) && (i <? size)) then e H0 i else H0 a i.
(* iteration i reads only components i *)
Definition local (e : (Z -> vec K) -> Z -> K) : Prop := forall H H' i, (forall a, H a i = H' a i) -> e H i = e H' i.

Lemma elt_inv e dst size H0 (He : local e) : forall l H reg,
  (forall i, (filter (fun x => idx x =? i) l = [Load i; Store i] /\ 0 <= i < size /\ forall a, H a i = H0 a i) \/
             (filter (fun x => idx x =? i) l = [Store i] /\ 0 <= i < size /\ reg i = e H0 i /\ forall a, H a i = H0 a i) \/
             (filter (fun x => idx x =? i) l = [] /\ forall a, H a i = if (a =? dst) && ((0 <=? i) && (i <? size)) then e H0 i else H0 a i)) ->
  elementwise e dst size H0 (fst (fold_left (elt_step e dst) l (H, reg))).
Proof.
  induction l as [|x l IH]; intros H reg HI.
  - intros a i. destruct (HI i) as [(C & _)|[(C & _)|(_ & C)]]; try discriminate. cbn. apply C.
  - cbn [fold_left]. set (st := elt_step e dst (H, reg) x).
    replace st with (fst st, snd st) by (destruct st; reflexivity). apply IH. intros i.
    specialize (HI i) as Hi. cbn [filter] in Hi. destruct x as [j|j]; cbn [idx] in Hi; destruct (Z.eqb_spec j i) as [->|Hji].
    + destruct Hi as [(C & Hr & Hs)|[(C & _)|(C & _)]]; try discriminate. injection C as C. right. left. rewrite C. cbn.
      repeat split; try lia; auto. unfold upd. rewrite Z.eqb_refl. apply He. exact Hs.
    + destruct Hi as [Hi|[(C & Hr & Hv & Hs)|Hi]]; [left; exact Hi| |right; right; exact Hi].
      right. left. cbn. unfold upd. destruct (Z.eqb_spec i j); [congruence|]. repeat split; auto; lia.
    + destruct Hi as [(C & _)|[(C & Hr & Hv & Hs)|(C & _)]]; try discriminate. injection C as C. right. right. rewrite C. split; [reflexivity|].
      intros a. cbn. unfold hset. assert (B : (0 <=? i) && (i <? size) = true) by (apply andb_true_intro; split; [apply Z.leb_le|apply Z.ltb_lt]; lia).
      rewrite B, andb_true_r. destruct (Z.eqb_spec a dst) as [->|].
      * unfold upd. rewrite Z.eqb_refl. exact Hv.
      * apply Hs.
    + assert (Hq : forall a, fst (elt_step e dst (H, reg) (Store j)) a i = H a i).
      { intros a. cbn. unfold hset. destruct (Z.eqb_spec a dst) as [->|]; [|reflexivity]. unfold upd. destruct (Z.eqb_spec i j); [congruence|reflexivity]. }
      unfold st. destruct Hi as [(C & Hr & Hs)|[(C & Hr & Hv & Hs)|(C & Hs)]].
      * left. repeat split; try lia; auto. intros a. rewrite Hq. apply Hs.
      * right. left. repeat split; try lia; auto. intros a. rewrite Hq. apply Hs.
      * right. right. split; [exact C|]. intros a. rewrite Hq. apply Hs.
Qed.
Lemma elt_any e dst size H0 l : local e -> schedule size l -> elementwise e dst size H0 (elt_run e dst l H0).
Proof.
  intros He Hl. unfold elt_run. apply elt_inv; [exact He|]. intros i. rewrite Hl.
  destruct ((0 <=? i) && (i <? size)) eqn:B.
  - left. apply andb_prop in B. rewrite Z.leb_le, Z.ltb_lt in B. repeat split; try lia; auto.
  - right. right. split; [reflexivity|]. intros a. rewrite andb_false_r. reflexivity.
Qed.
Lemma flat_none i (r : list Z) : ~ In i r -> filter (fun x => idx x =? i) (flat_map (fun i => [Load i; Store i]) r) = [].
Proof.
  induction r as [|j r IH]; intros Hn; [reflexivity|]. cbn [flat_map app filter idx].
  destruct (Z.eqb_spec j i) as [->|]; [elim Hn; left; reflexivity|]. apply IH. intros Hi. apply Hn. right. exact Hi.
Qed.
Lemma flat_one i (r : list Z) : NoDup r -> In i r -> filter (fun x => idx x =? i) (flat_map (fun i => [Load i; Store i]) r) = [Load i; Store i].
Proof.
  induction 1 as [|j r Hj HN IH]; intros Hi; [destruct Hi|]. cbn [flat_map app filter idx].
  destruct (Z.eqb_spec j i) as [->|].
  - rewrite flat_none by exact Hj. reflexivity.
  - destruct Hi as [->|Hi]; [congruence|]. apply IH. exact Hi.
Qed.
Lemma zrange_in lo hi i : In i (zrange lo hi) <-> lo <= i <= hi.
Proof.
  unfold zrange. rewrite in_map_iff. split.
  - intros (k & <- & Hk). apply in_seq in Hk. lia.
  - intros H. exists (Z.to_nat (i - lo)). split; [lia|]. apply in_seq. lia.
Qed.
Lemma zrange_NoDup lo hi : NoDup (zrange lo hi).
Proof.
  unfold zrange. generalize (Z.to_nat (hi - lo + 1)). intros n. generalize 0%nat. induction n as [|n IH]; intros k; [constructor|].
  cbn [seq map]. constructor; [|apply IH]. rewrite in_map_iff. intros (j & Hj & Hin). apply in_seq in Hin. lia.
Qed.
Lemma seq_schedule size : schedule size (seq_sched size).
Proof.
  intros i. unfold seq_sched. destruct ((0 <=? i) && (i <? size)) eqn:B.
  - apply flat_one; [apply zrange_NoDup|]. apply zrange_in. apply andb_prop in B. rewrite Z.leb_le, Z.ltb_lt in B. lia.
  - apply flat_none. rewrite zrange_in. intros H. apply andb_false_iff in B. rewrite Z.leb_gt, Z.ltb_ge in B. lia.
Qed.
Lemma elt_same e dst size H0 l : local e -> schedule size l -> elt_run e dst l H0 = elt_run e dst (seq_sched size) H0.
Proof.
  intros He Hl. extensionality a. extensionality i. rewrite (elt_any e dst size H0 l He Hl a i), (elt_any e dst size H0 _ He (seq_schedule size) a i). reflexivity.
Qed.
Lemma local_apply t1 t2 t3 g0 g1 v : local (b_apply (K := K) t1 t2 t3 g0 g1 v).
Proof. intros H H' i HH. unfold b_apply. rewrite !HH. reflexivity. Qed.
Lemma local_apply2 t1 t2 t3 g2 g1 g0 : local (b_apply2 (K := K) t1 t2 t3 g2 g1 g0).
Proof. intros H H' i HH. unfold b_apply2. rewrite !HH. reflexivity. Qed.
Lemma local_cl1 y a1 x1 : local (b_cl1 (K := K) y a1 x1).
Proof. intros H H' i HH. unfold b_cl1. rewrite !HH. reflexivity. Qed.
Lemma local_cl2 y a1 x1 a2 x2 : local (b_cl2 (K := K) y a1 x1 a2 x2).
Proof. intros H H' i HH. unfold b_cl2. rewrite !HH. reflexivity. Qed.
Lemma local_cl3 y a1 x1 a2 x2 a3 x3 : local (b_cl3 (K := K) y a1 x1 a2 x2 a3 x3).
Proof. intros H H' i HH. unfold b_cl3. rewrite !HH. reflexivity. Qed.
Lemma local_ct y a1 x1 a2 x2 a3 x3 a4 x4 : local (b_ct (K := K) y a1 x1 a2 x2 a3 x3 a4 x4).
Proof. intros H H' i HH. unfold b_ct. rewrite !HH. reflexivity. Qed.
Lemma race_lost : exists (v : Z -> Rnum) l, schedule 2 l /\ race_run (K := Rnum) v l <> race_run v (seq_sched 2).
Proof.
  exists (fun _ => 1%R), [Load 0; Load 1; Store 0; Store 1]. split.
  - intros i. cbn [filter idx]. destruct (Z.leb_spec 0 i), (Z.ltb_spec i 2); cbn [andb];
      destruct (Z.eqb_spec 0 i), (Z.eqb_spec 1 i); try lia; subst; reflexivity.
  - change (seq_sched 2) with [Load 0; Store 0; Load 1; Store 1]. cbn. unfold Rlit. cbn. lra.
Qed.
(* in general: when all the loads come first, the last store alone survives *)
Lemma race_all_loads (v : Z -> K) n : 0 < n ->
  schedule n (map Load (zrange 0 (n - 1)) ++ map Store (zrange 0 (n - 1))) /\
  race_run v (map Load (zrange 0 (n - 1)) ++ map Store (zrange 0 (n - 1))) = (nlit 0 0 + v (n - 1)%Z)%num.
Proof.
  intros Hn.
  assert (HF : forall f i r, (f = Load \/ f = Store) -> filter (fun x => idx x =? i) (map f r) = map f (filter (fun x => x =? i) r)).
  { intros f i r Hf. induction r as [|j r IH]; [reflexivity|]. cbn [map filter]. destruct Hf as [-> | ->]; cbn [idx]; destruct (j =? i); cbn [map]; rewrite IH; auto. }
  assert (HZ : forall i, filter (fun x => x =? i) (zrange 0 (n - 1)) = if (0 <=? i) && (i <? n) then [i] else []).
  { intros i. assert (Hnone : forall r, ~ In i r -> filter (fun x => x =? i) r = []).
    { induction r as [|j r IH]; intros Hi; [reflexivity|]. cbn. destruct (Z.eqb_spec j i) as [->|]; [elim Hi; left; reflexivity|]. apply IH. intros X. apply Hi. right. exact X. }
    assert (Hone : forall r, NoDup r -> In i r -> filter (fun x => x =? i) r = [i]).
    { induction 1 as [|j r Hj HN IH]; intros Hi; [destruct Hi|]. cbn. destruct (Z.eqb_spec j i) as [->|].
      - rewrite Hnone by exact Hj. reflexivity.
      - destruct Hi as [->|Hi]; [congruence|]. apply IH. exact Hi. }
    destruct ((0 <=? i) && (i <? n)) eqn:B.
    - apply Hone; [apply zrange_NoDup|]. apply zrange_in. apply andb_prop in B. rewrite Z.leb_le, Z.ltb_lt in B. lia.
    - apply Hnone. rewrite zrange_in. intros H. apply andb_false_iff in B. rewrite Z.leb_gt, Z.ltb_ge in B. lia. }
  split.
  - intros i. rewrite filter_app, !HF, HZ by auto. destruct (_ && _); reflexivity.
  - unfold race_run. rewrite fold_left_app.
    assert (HL : forall r ret reg, exists reg', fold_left (race_step v) (map Load r) (ret, reg) = (ret, reg') /\
        (forall i, In i r -> reg' i = (ret + v i)%num) /\ (forall i, ~ In i r -> reg' i = reg i)).
    { induction r as [|j r IH]; intros ret reg.
      - exists reg. split; [reflexivity|]. split; [intros i []|reflexivity].
      - cbn [map fold_left race_step]. destruct (IH ret (upd reg j (ret + v j)%num)) as (reg' & -> & H1 & H2). exists reg'. split; [reflexivity|]. split.
        + intros i Hi. destruct (In_dec Z.eq_dec i r) as [Hr|Hr]; [apply H1; exact Hr|]. destruct Hi as [->|Hi]; [|contradiction].
          rewrite H2 by exact Hr. unfold upd. rewrite Z.eqb_refl. reflexivity.
        + intros i Hi. rewrite H2 by (intros X; apply Hi; right; exact X). unfold upd. destruct (Z.eqb_spec i j) as [->|]; [elim Hi; left; reflexivity|reflexivity]. }
    destruct (HL (zrange 0 (n - 1)) (nlit 0 0) (fun _ => nlit 0 0)) as (reg & -> & H1 & _).
    assert (HS : forall r ret d, fst (fold_left (race_step v) (map Store r) (ret, reg)) = if r then ret else reg (last r d)).
    { induction r as [|j r IH]; intros ret d; [reflexivity|]. cbn [map fold_left race_step]. rewrite (IH (reg j) d). destruct r; reflexivity. }
    rewrite (HS _ _ 0). assert (Hr : zrange 0 (n - 1) = zrange 0 (n - 2) ++ [n - 1]).
    { unfold zrange. replace (Z.to_nat (n - 1 - 0 + 1)) with (Z.to_nat (n - 2 - 0 + 1) + 1)%nat by lia. rewrite seq_app, map_app. cbn [seq map]. f_equal. f_equal. lia. }
    rewrite Hr at 1. rewrite Hr, last_last. destruct (zrange 0 (n - 2) ++ [n - 1]) eqn:E; [destruct (zrange 0 (n - 2)); discriminate|].
    apply H1. apply zrange_in. lia.
Qed.
End Elt.
