(* Linear algebra over an arbitrary field, used by the proofs about Hessenberg.hpp:
   finite sums, linear systems, Gaussian elimination of a Hessenberg matrix as a
   sequence of row operations, back substitution.  Not a model of code. *)
From Verif Require Import Base.
From Coq Require Import Field_theory Ring_theory Field Ring.
Open Scope Z_scope.

Section Sum.
Variables (F : Type) (fO fI : F) (fadd fmul fsub : F -> F -> F) (fopp : F -> F).
Hypothesis Rth : ring_theory fO fI fadd fmul fsub fopp (@eq F).
Add Ring Fring : Rth.

Fixpoint sumn (k : nat) (lo : Z) (f : Z -> F) : F :=
  match k with O => fO | S k' => fadd (f lo) (sumn k' (lo + 1) f) end.
(* f lo + f (lo+1) + ... + f hi *)
Definition sum (lo hi : Z) (f : Z -> F) : F := sumn (Z.to_nat (hi - lo + 1)) lo f.

Lemma sumn_ext k : forall lo f g, (forall i, lo <= i < lo + Z.of_nat k -> f i = g i) ->
  sumn k lo f = sumn k lo g.
Proof.
  induction k as [|k IH]; intros lo f g H; [reflexivity|].
  cbn [sumn]. rewrite (H lo) by lia. rewrite (IH (lo+1) f g); [reflexivity|].
  intros i Hi; apply H; lia.
Qed.
Lemma sum_ext lo hi f g : (forall i, lo <= i <= hi -> f i = g i) -> sum lo hi f = sum lo hi g.
Proof. intros H. apply sumn_ext. intros i Hi. apply H. lia. Qed.
Lemma sum_empty lo hi f : hi < lo -> sum lo hi f = fO.
Proof. intros H. unfold sum. replace (Z.to_nat (hi - lo + 1)) with O by lia. reflexivity. Qed.
Lemma sum_lo lo hi f : lo <= hi -> sum lo hi f = fadd (f lo) (sum (lo + 1) hi f).
Proof.
  intros H. unfold sum.
  replace (Z.to_nat (hi - lo + 1)) with (S (Z.to_nat (hi - (lo + 1) + 1))) by lia. reflexivity.
Qed.
Lemma sumn_app k : forall l lo f,
  sumn (k + l) lo f = fadd (sumn k lo f) (sumn l (lo + Z.of_nat k) f).
Proof.
  induction k as [|k IH]; intros l lo f.
  - cbn [sumn Nat.add]. replace (lo + Z.of_nat 0) with lo by lia. ring.
  - cbn [sumn Nat.add]. rewrite IH. replace (lo + 1 + Z.of_nat k) with (lo + Z.of_nat (S k)) by lia. ring.
Qed.
Lemma sum_split mid lo hi f : lo <= mid + 1 -> mid <= hi ->
  sum lo hi f = fadd (sum lo mid f) (sum (mid + 1) hi f).
Proof.
  intros H1 H2. unfold sum.
  replace (Z.to_nat (hi - lo + 1)) with (Z.to_nat (mid - lo + 1) + Z.to_nat (hi - (mid + 1) + 1))%nat by lia.
  rewrite sumn_app. replace (lo + Z.of_nat (Z.to_nat (mid - lo + 1))) with (mid + 1) by lia. reflexivity.
Qed.
Lemma sum_hi lo hi f : lo <= hi -> sum lo hi f = fadd (sum lo (hi - 1) f) (f hi).
Proof.
  intros H. rewrite (sum_split (hi - 1)) by lia. f_equal.
  replace (hi - 1 + 1) with hi by lia. rewrite sum_lo by lia.
  rewrite sum_empty by lia. ring.
Qed.
Lemma sumn_add k : forall lo f g,
  sumn k lo (fun i => fadd (f i) (g i)) = fadd (sumn k lo f) (sumn k lo g).
Proof. induction k as [|k IH]; intros; cbn [sumn]; [ring|]. rewrite IH. ring. Qed.
Lemma sum_add lo hi f g :
  sum lo hi (fun i => fadd (f i) (g i)) = fadd (sum lo hi f) (sum lo hi g).
Proof. apply sumn_add. Qed.
Lemma sumn_scal k : forall lo c f,
  sumn k lo (fun i => fmul c (f i)) = fmul c (sumn k lo f).
Proof. induction k as [|k IH]; intros; cbn [sumn]; [ring|]. rewrite IH. ring. Qed.
Lemma sum_scal lo hi c f : sum lo hi (fun i => fmul c (f i)) = fmul c (sum lo hi f).
Proof. apply sumn_scal. Qed.
Lemma sumn_zero k : forall lo, sumn k lo (fun _ => fO) = fO.
Proof. induction k as [|k IH]; intros; cbn [sumn]; [reflexivity|]. rewrite IH. ring. Qed.
Lemma sum_zero lo hi f : (forall i, lo <= i <= hi -> f i = fO) -> sum lo hi f = fO.
Proof. intros H. rewrite (sum_ext _ _ f (fun _ => fO)) by exact H. apply sumn_zero. Qed.
Lemma sum_opp lo hi f : sum lo hi (fun i => fopp (f i)) = fopp (sum lo hi f).
Proof.
  rewrite (sum_ext _ _ _ (fun i => fmul (fopp fI) (f i))) by (intros; ring).
  rewrite sum_scal. ring.
Qed.
Lemma sum_sub lo hi f g :
  sum lo hi (fun i => fsub (f i) (g i)) = fsub (sum lo hi f) (sum lo hi g).
Proof.
  rewrite (sum_ext _ _ _ (fun i => fadd (f i) (fopp (g i)))) by (intros; ring).
  rewrite sum_add, sum_opp. ring.
Qed.
(* a sum with a single non zero term *)
Lemma sum_single lo hi f k : lo <= k <= hi ->
  (forall i, lo <= i <= hi -> i <> k -> f i = fO) -> sum lo hi f = f k.
Proof.
  intros Hk H. rewrite (sum_split k) by lia. rewrite sum_hi by lia.
  rewrite (sum_zero lo (k - 1)) by (intros; apply H; lia).
  rewrite (sum_zero (k + 1) hi) by (intros; apply H; lia). ring.
Qed.
Lemma sumn_swap k : forall lo l lo2 f,
  sumn k lo (fun i => sumn l lo2 (fun j => f i j)) = sumn l lo2 (fun j => sumn k lo (fun i => f i j)).
Proof.
  induction k as [|k IH]; intros.
  - cbn [sumn]. rewrite sumn_zero. reflexivity.
  - cbn [sumn]. rewrite IH, sumn_add. reflexivity.
Qed.
Lemma sum_swap lo hi lo2 hi2 f :
  sum lo hi (fun i => sum lo2 hi2 (fun j => f i j)) = sum lo2 hi2 (fun j => sum lo hi (fun i => f i j)).
Proof. apply sumn_swap. Qed.
Lemma sum_shift lo hi d f : sum lo hi f = sum (lo + d) (hi + d) (fun i => f (i - d)).
Proof.
  unfold sum. replace (hi + d - (lo + d) + 1) with (hi - lo + 1) by lia.
  generalize (Z.to_nat (hi - lo + 1)) as k. intros k. revert lo.
  induction k as [|k IH]; intros lo; cbn [sumn]; [reflexivity|].
  rewrite (IH (lo + 1)). replace (lo + d - d) with lo by lia.
  replace (lo + 1 + d) with (lo + d + 1) by lia. reflexivity.
Qed.
End Sum.

Section LU.
Variables (F : Type) (fO fI : F) (fadd fmul fsub : F -> F -> F) (fopp : F -> F)
          (fdiv : F -> F -> F) (finv : F -> F).
Hypothesis Fth : field_theory fO fI fadd fmul fsub fopp fdiv finv (@eq F).
Let Rth := F_R Fth.
Add Field Ffield : Fth.
Local Infix "+!" := fadd (at level 50, left associativity).
Local Infix "*!" := fmul (at level 40, left associativity).
Local Infix "-!" := fsub (at level 50, left associativity).
Local Infix "/!" := fdiv (at level 40, left associativity).
Notation sumF := (sum F fO fadd).

Definition fmat := Z -> Z -> F.
Definition fvec := Z -> F.
(* E x = b, unknowns and equations numbered 1..n *)
Definition fsat (n : Z) (E : fmat) (x b : fvec) : Prop :=
  forall i, 1 <= i <= n -> sumF 1 n (fun j => E i j *! x j) = b i.

(* the upper Hessenberg part of M, with the subdiagonal of the columns < k cleared:
   what M stands for after k-1 elimination steps *)
Definition eff (k : Z) (M : fmat) : fmat := fun i j =>
  if j + 1 <? i then fO else if (i =? j + 1) && (j <? k) then fO else M i j.

(* one elimination step, elementwise *)
Definition elim_step (n k m : Z) (M M' : fmat) : Prop :=
  let o := if m =? k then k + 1 else k in
  (m = k \/ m = k + 1) /\ M m k <> fO /\ M' k k = M m k /\
  M' (k + 1) k = fopp (M o k /! M m k) /\
  (forall j, k + 1 <= j <= n -> M' k j = M m j) /\
  (forall j, k + 1 <= j <= n -> M' (k + 1) j = M o j +! M' (k + 1) k *! M m j) /\
  (forall i j, 1 <= i <= n -> 1 <= j <= n -> (i <> k /\ i <> k + 1) \/ j < k -> M' i j = M i j).

(* one step of the forward phase of the solve *)
Definition fwd1 (k m : Z) (l : F) (B : fvec) : fvec := fun i =>
  let o := if m =? k then k + 1 else k in
  if i =? k then B m else if i =? k + 1 then B o +! l *! B m else B i.
Definition fwds (k : Z) (M : fmat) (ip : Z -> Z) (B : fvec) : fvec :=
  for_ 1 (k - 1) (fun q B => fwd1 q (ip (q - 1)) (M (q + 1) q) B) B.
(* one step of the backward phase *)
Definition bwd1 (k : Z) (M : fmat) (B : fvec) : fvec := fun i =>
  if i =? k then B k /! M k k else if i <? k then B i -! M i k *! (B k /! M k k) else B i.

Lemma fsat_ext n E E' x b b' :
  (forall i j, 1 <= i <= n -> 1 <= j <= n -> E i j = E' i j) ->
  (forall i, 1 <= i <= n -> b i = b' i) -> fsat n E x b -> fsat n E' x b'.
Proof.
  intros HE Hb H i Hi. rewrite <- Hb by lia. rewrite <- (H i Hi).
  apply sum_ext. intros j Hj. rewrite HE by lia. reflexivity.
Qed.

Lemma eff_k k M i j : 1 <= j -> j >= k -> i <= j + 1 -> eff k M i j = M i j.
Proof.
  intros. unfold eff. destruct (Z.ltb_spec (j + 1) i); [lia|].
  destruct (Z.ltb_spec j k); [lia|]. rewrite andb_false_r. reflexivity.
Qed.
Lemma eff_below k M i j : i > j + 1 \/ (i = j + 1 /\ j < k) -> eff k M i j = fO.
Proof.
  intros H. unfold eff. destruct (Z.ltb_spec (j + 1) i); [reflexivity|].
  assert (i = j + 1) by lia. subst i. rewrite Z.eqb_refl.
  destruct (Z.ltb_spec j k); [reflexivity|lia].
Qed.
Lemma eff_above k M i j : i <= j -> eff k M i j = M i j.
Proof.
  intros H. unfold eff. destruct (Z.ltb_spec (j + 1) i); [lia|].
  destruct (Z.eqb_spec i (j + 1)); [lia|]. reflexivity.
Qed.

(* a row only sees columns >= i-1 (>= i when already eliminated) *)
Lemma row_from n k M i x : 1 <= i <= n -> i <= k ->
  sumF 1 n (fun j => eff k M i j *! x j) = sumF i n (fun j => M i j *! x j).
Proof.
  intros Hi Hk. rewrite (sum_split _ _ _ _ _ _ _ Rth (i - 1)) by lia.
  rewrite (sum_zero _ _ _ _ _ _ _ Rth 1 (i - 1)).
  2:{ intros j Hj. rewrite eff_below by lia. ring. }
  replace (i - 1 + 1) with i by lia.
  rewrite (sum_ext _ _ _ i n _ (fun j => M i j *! x j)). { ring. }
  intros j Hj. rewrite eff_above by lia. reflexivity.
Qed.
Lemma row_k1 n k M x : 1 <= k < n ->
  sumF 1 n (fun j => eff k M (k + 1) j *! x j) = sumF k n (fun j => M (k + 1) j *! x j).
Proof.
  intros Hi. rewrite (sum_split _ _ _ _ _ _ _ Rth (k - 1)) by lia.
  rewrite (sum_zero _ _ _ _ _ _ _ Rth 1 (k - 1)).
  2:{ intros j Hj. rewrite eff_below by lia. ring. }
  replace (k - 1 + 1) with k by lia.
  rewrite (sum_ext _ _ _ k n _ (fun j => M (k + 1) j *! x j)). { ring. }
  intros j Hj. rewrite eff_k by lia. reflexivity.
Qed.

(* an elimination step and the corresponding forward step preserve the solutions *)
Lemma elim_step_sat n k m M M' x b : 1 <= k < n -> elim_step n k m M M' ->
  (fsat n (eff k M) x b <-> fsat n (eff (k + 1) M') x (fwd1 k m (M' (k + 1) k) b)).
Proof.
  intros Hk (Hm & Hp & Hkk & Hl & Hrow & Hrow2 & Hrest).
  set (o := if m =? k then k + 1 else k) in *.
  set (l := M' (k + 1) k) in *.
  assert (Hmo : (m = k /\ o = k + 1) \/ (m = k + 1 /\ o = k)).
  { unfold o. destruct Hm as [->| ->].
    - rewrite Z.eqb_refl. auto.
    - destruct (Z.eqb_spec (k + 1) k); [lia|]. auto. }
  (* rows m and o of the old system *)
  assert (Hrold : forall r, r = k \/ r = k + 1 ->
     sumF 1 n (fun j => eff k M r j *! x j) = sumF k n (fun j => M r j *! x j)).
  { intros r [->| ->]; [apply row_from; lia|apply row_k1; lia]. }
  assert (Hnewk : sumF 1 n (fun j => eff (k + 1) M' k j *! x j) =
                  sumF k n (fun j => M m j *! x j)).
  { rewrite row_from by lia. apply sum_ext. intros j Hj.
    destruct (Z.eq_dec j k) as [->|]; [rewrite Hkk|rewrite Hrow by lia]; reflexivity. }
  assert (Hnewk1 : sumF 1 n (fun j => eff (k + 1) M' (k + 1) j *! x j) =
                  sumF k n (fun j => M o j *! x j) +! l *! sumF k n (fun j => M m j *! x j)).
  { rewrite row_from by lia.
    rewrite <- (sum_scal _ _ _ _ _ _ _ Rth k n l), <- (sum_add _ _ _ _ _ _ _ Rth k n).
    rewrite (sum_lo F fO fadd k n) by lia.
    rewrite Hl. replace (M o k *! x k +! fopp (M o k /! M m k) *! (M m k *! x k)) with fO by (field; exact Hp).
    rewrite (sum_ext _ _ _ (k + 1) n (fun j => M' (k + 1) j *! x j)
      (fun i => M o i *! x i +! fopp (M o k /! M m k) *! (M m i *! x i))).
    - ring.
    - intros j Hj. rewrite Hrow2 by lia. rewrite Hl. ring. }
  assert (Hother : forall i, 1 <= i <= n -> i <> k -> i <> k + 1 ->
     sumF 1 n (fun j => eff (k + 1) M' i j *! x j) = sumF 1 n (fun j => eff k M i j *! x j)).
  { intros i Hi H1 H2. apply sum_ext. intros j Hj. f_equal. unfold eff.
    destruct (Z.ltb_spec (j + 1) i); [reflexivity|].
    destruct (Z.eqb_spec i (j + 1)) as [->|Hne]; cbn [andb].
    - destruct (Z.ltb_spec j (k + 1)), (Z.ltb_spec j k); try lia; try reflexivity.
      apply Hrest; lia.
    - apply Hrest; lia. }
  assert (Hfk : fwd1 k m l b k = b m).
  { unfold fwd1. rewrite Z.eqb_refl. reflexivity. }
  assert (Hfk1 : fwd1 k m l b (k + 1) = b o +! l *! b m).
  { unfold fwd1. destruct (Z.eqb_spec (k + 1) k); [lia|]. rewrite Z.eqb_refl. reflexivity. }
  assert (Hfo : forall i, i <> k -> i <> k + 1 -> fwd1 k m l b i = b i).
  { intros i H1 H2. unfold fwd1. destruct (Z.eqb_spec i k); [lia|].
    destruct (Z.eqb_spec i (k + 1)); [lia|]. reflexivity. }
  assert (Hmr : m = k \/ m = k + 1) by tauto.
  assert (Hor : o = k \/ o = k + 1) by tauto.
  split; intros H i Hi.
  - destruct (Z.eq_dec i k) as [->|H1].
    + rewrite Hnewk, Hfk, <- Hrold by exact Hmr. apply H. lia.
    + destruct (Z.eq_dec i (k + 1)) as [->|H2].
      * rewrite Hnewk1, Hfk1. rewrite <- !Hrold by assumption.
        rewrite (H m), (H o) by lia. reflexivity.
      * rewrite Hother, Hfo by lia. apply H; lia.
  - assert (Em : sumF 1 n (fun j => eff k M m j *! x j) = b m).
    { rewrite Hrold by exact Hmr. rewrite <- Hnewk, <- Hfk. apply H. lia. }
    assert (Eo : sumF 1 n (fun j => eff k M o j *! x j) = b o).
    { rewrite Hrold by exact Hor. pose proof (H (k + 1) ltac:(lia)) as E.
      rewrite Hnewk1, Hfk1 in E. rewrite <- (Hrold m Hmr), Em in E.
      replace (sumF k n (fun j => M o j *! x j)) with
        (sumF k n (fun j => M o j *! x j) +! l *! b m -! l *! b m) by ring.
      rewrite E. ring. }
    destruct (Z.eq_dec i k) as [->|H1]; [|destruct (Z.eq_dec i (k + 1)) as [->|H2]].
    + destruct Hmo as [[E1 E2]|[E1 E2]]; [rewrite E1 in Em; exact Em|rewrite E2 in Eo; exact Eo].
    + destruct Hmo as [[E1 E2]|[E1 E2]]; [rewrite E2 in Eo; exact Eo|rewrite E1 in Em; exact Em].
    + rewrite <- Hother, <- (Hfo i) by lia. apply H; lia.
Qed.

(* fwds only depends on the strictly lower part of the columns < k *)
Lemma fwds_ext k M M' ip ip' B : 1 <= k ->
  (forall q, 1 <= q < k -> M (q + 1) q = M' (q + 1) q /\ ip (q - 1) = ip' (q - 1)) ->
  fwds k M ip B = fwds k M' ip' B.
Proof.
  intros Hk H. unfold fwds, for_.
  assert (G : forall d i B, 1 <= i -> i + Z.of_nat d <= k ->
    iter d i (fun q B => fwd1 q (ip (q - 1)) (M (q + 1) q) B) B =
    iter d i (fun q B => fwd1 q (ip' (q - 1)) (M' (q + 1) q) B) B).
  { induction d as [|d IH]; intros i B0 H1 H2; [reflexivity|]. cbn [iter].
    destruct (H i) as [-> ->]; [lia|]. apply IH; lia. }
  apply G; lia.
Qed.
Lemma iter_S {St} d : forall i (f : Z -> St -> St) s,
  iter (S d) i f s = f (i + Z.of_nat d) (iter d i f s).
Proof.
  induction d as [|d IH]; intros i f s.
  - cbn [iter]. f_equal. lia.
  - change (iter (S (S d)) i f s) with (iter (S d) (i + 1) f (f i s)).
    rewrite IH. change (iter (S d) i f s) with (iter d (i + 1) f (f i s)). f_equal. lia.
Qed.
Lemma fwds_S k M ip B : 1 <= k ->
  fwds (k + 1) M ip B = fwd1 k (ip (k - 1)) (M (k + 1) k) (fwds k M ip B).
Proof.
  intros Hk. unfold fwds, for_.
  replace (Z.to_nat (k + 1 - 1 - 1 + 1)) with (S (Z.to_nat (k - 1 - 1 + 1))) by lia.
  rewrite iter_S. replace (1 + Z.of_nat (Z.to_nat (k - 1 - 1 + 1))) with k by lia. reflexivity.
Qed.

(* invariant of the elimination: M represents H after k-1 steps *)
Definition elim_inv (n k : Z) (H M : fmat) (ip : Z -> Z) : Prop :=
  (forall q, 1 <= q < k -> M q q <> fO) /\
  (forall q, 1 <= q < k -> ip (q - 1) = q \/ ip (q - 1) = q + 1) /\
  (forall x b, fsat n H x b <-> fsat n (eff k M) x (fwds k M ip b)).

Lemma elim_inv_start n M ip : elim_inv n 1 (eff 1 M) M ip.
Proof.
  split; [|split]; [intros; lia|intros; lia|]. intros x b.
  change (fwds 1 M ip b) with b. reflexivity.
Qed.
Lemma elim_inv_step n k m H M M' ip ip' : 1 <= k < n ->
  elim_inv n k H M ip -> elim_step n k m M M' -> ip' (k - 1) = m ->
  (forall q, 1 <= q < k -> ip' (q - 1) = ip (q - 1)) ->
  elim_inv n (k + 1) H M' ip'.
Proof.
  intros Hk (Hd & Hip & Hs) Hst Hm Hq.
  pose proof Hst as (Hmm & Hp & Hkk & Hl & Hrow & Hrow2 & Hrest).
  split; [|split].
  - intros q Hq1. destruct (Z.eq_dec q k) as [->|].
    + rewrite Hkk. exact Hp.
    + rewrite Hrest by lia. apply Hd. lia.
  - intros q Hq1. destruct (Z.eq_dec q k) as [->|].
    + rewrite Hm. exact Hmm.
    + rewrite Hq by lia. apply Hip. lia.
  - intros x b. rewrite Hs, (elim_step_sat n k m M M') by assumption.
    rewrite fwds_S by lia. rewrite Hm.
    rewrite (fwds_ext k M' M ip' ip).
    + reflexivity.
    + lia.
    + intros q Hq1. split; [apply Hrest; lia|apply Hq; lia].
Qed.

(* back substitution: after treating n, n-1, ..., k+1 *)
Definition bwd_inv (n k : Z) (M : fmat) (b B : fvec) : Prop :=
  (forall i, 1 <= i <= n -> i <= k ->
     B i = b i -! sumF (k + 1) n (fun j => M i j *! B j)) /\
  (forall i, 1 <= i <= n -> k < i -> sumF i n (fun j => M i j *! B j) = b i).
Lemma bwd_inv_start n M b : bwd_inv n n M b b.
Proof.
  split; intros i Hi Hk; [|lia]. rewrite sum_empty by lia. ring.
Qed.
Lemma bwd_inv_step n k M b B B' : 1 <= k <= n -> M k k <> fO ->
  bwd_inv n k M b B -> (forall i, 1 <= i <= n -> B' i = bwd1 k M B i) ->
  bwd_inv n (k - 1) M b B'.
Proof.
  intros Hk Hp [H1 H2] HB.
  assert (Bk : B' k = B k /! M k k).
  { rewrite HB by lia. unfold bwd1. rewrite Z.eqb_refl. reflexivity. }
  assert (Bhi : forall i, k < i <= n -> B' i = B i).
  { intros i Hi. rewrite HB by lia. unfold bwd1. destruct (Z.eqb_spec i k); [lia|].
    destruct (Z.ltb_spec i k); [lia|reflexivity]. }
  assert (Blo : forall i, 1 <= i < k -> B' i = B i -! M i k *! B' k).
  { intros i Hi. rewrite Bk. rewrite HB by lia. unfold bwd1. destruct (Z.eqb_spec i k); [lia|].
    destruct (Z.ltb_spec i k); [reflexivity|lia]. }
  assert (Sx : forall i, sumF (k + 1) n (fun j => M i j *! B' j) = sumF (k + 1) n (fun j => M i j *! B j)).
  { intros i. apply sum_ext. intros j Hj. rewrite Bhi by lia. reflexivity. }
  split.
  - intros i Hi Hik. replace (k - 1 + 1) with k by lia. rewrite sum_lo by lia. rewrite Sx.
    rewrite Blo by lia. rewrite (H1 i) by lia. ring.
  - intros i Hi Hik. destruct (Z.eq_dec i k) as [->|].
    + rewrite sum_lo by lia. rewrite Sx, Bk. rewrite (H1 k) at 1 by lia. field. exact Hp.
    + rewrite (sum_ext _ _ _ i n _ (fun j => M i j *! B j)).
      * apply H2; lia.
      * intros j Hj. rewrite Bhi by lia. reflexivity.
Qed.

(* the solve: forward then backward gives the solution of H x = b *)
Lemma solve_correct n H M ip b B x : 1 <= n ->
  elim_inv n n H M ip -> M n n <> fO ->
  (forall i, 1 <= i <= n -> B i = fwds n M ip b i) ->
  bwd_inv n 0 M B x -> fsat n H x b.
Proof.
  intros Hn (Hd & Hip & Hs) Hnn HB [_ Hx]. apply Hs.
  intros i Hi. rewrite row_from by lia. rewrite Hx by lia. apply HB. lia.
Qed.

(* uniqueness for a triangular system *)
Lemma tri_unique n M x y : (forall q, 1 <= q <= n -> M q q <> fO) ->
  (forall i, 1 <= i <= n -> sumF i n (fun j => M i j *! x j) = sumF i n (fun j => M i j *! y j)) ->
  forall i, 1 <= i <= n -> x i = y i.
Proof.
  intros Hd H.
  assert (G : forall d i, Z.of_nat d = n - i -> 1 <= i <= n -> forall q, i <= q <= n -> x q = y q).
  { induction d as [|d IH]; intros i Hdi Hi q Hq.
    - assert (q = n) by lia. subst q. pose proof (H n ltac:(lia)) as E.
      rewrite !(sum_lo _ _ _ n n) in E by lia. rewrite !(sum_empty _ _ _ (n + 1) n) in E by lia.
      assert (E' : M n n *! x n = M n n *! y n).
      { replace (M n n *! x n) with (M n n *! x n +! fO) by ring. rewrite E. ring. }
      replace (x n) with ((M n n *! x n) /! M n n) by (field; apply Hd; lia).
      rewrite E'. field. apply Hd; lia.
    - destruct (Z.eq_dec q i) as [->|Hne].
      + pose proof (H i ltac:(lia)) as E. rewrite !(sum_lo _ _ _ i) in E by lia.
        rewrite (sum_ext _ _ _ (i + 1) n (fun j => M i j *! x j) (fun j => M i j *! y j)) in E.
        2:{ intros j Hj. rewrite (IH (i + 1) ltac:(lia) ltac:(lia) j) by lia. reflexivity. }
        set (s := sumF (i + 1) n _) in E.
        assert (E' : M i i *! x i = M i i *! y i).
        { replace (M i i *! x i) with (M i i *! x i +! s -! s) by ring. rewrite E. ring. }
        replace (x i) with ((M i i *! x i) /! M i i) by (field; apply Hd; lia).
        rewrite E'. field. apply Hd; lia.
      + apply (IH (i + 1)); lia. }
  intros i Hi. apply (G (Z.to_nat (n - i)) i); lia.
Qed.
(* hence the eliminated matrix determines the solution *)
Lemma solve_unique n H M ip : 1 <= n -> elim_inv n n H M ip -> M n n <> fO ->
  forall x y b, fsat n H x b -> fsat n H y b -> forall i, 1 <= i <= n -> x i = y i.
Proof.
  intros Hn (Hd & Hip & Hs) Hnn x y b Hx Hy. apply Hs in Hx. apply Hs in Hy.
  apply (tri_unique n M).
  - intros q Hq. destruct (Z.eq_dec q n) as [->|]; [exact Hnn|apply Hd; lia].
  - intros i Hi. rewrite <- !(row_from n n) by lia. rewrite (Hx i Hi), (Hy i Hi). reflexivity.
Qed.

(* existence for a leading triangular block *)
Lemma tri_exists M : forall d, (forall q, 1 <= q <= Z.of_nat d -> M q q <> fO) ->
  forall c : fvec, exists x : fvec,
    forall i, 1 <= i <= Z.of_nat d -> sumF i (Z.of_nat d) (fun j => M i j *! x j) = c i.
Proof.
  induction d as [|d IH]; intros Hd c.
  - exists c. intros; lia.
  - set (n := Z.of_nat (S d)).
    assert (Hn : n - 1 = Z.of_nat d) by (unfold n; lia).
    set (xn := c n /! M n n).
    destruct (IH (fun q Hq => Hd q ltac:(lia)) (fun i => c i -! M i n *! xn)) as [x Hx].
    exists (upd x n xn). intros i Hi.
    rewrite sum_hi with (fI := fI) (fmul := fmul) (fsub := fsub) (fopp := fopp) by (auto; lia).
    rewrite upd_same. rewrite Hn.
    rewrite (sum_ext _ _ _ i (Z.of_nat d) _ (fun j => M i j *! x j)).
    2:{ intros j Hj. rewrite upd_other by lia. reflexivity. }
    destruct (Z.eq_dec i n) as [->|].
    + rewrite sum_empty by lia. unfold xn. field. apply Hd. lia.
    + rewrite Hx by lia. ring.
Qed.

(* a zero pivot column makes the matrix singular *)
Lemma singular_at n k H M ip : 1 <= k <= n -> fI <> fO ->
  elim_inv n k H M ip -> M k k = fO -> (k < n -> M (k + 1) k = fO) ->
  exists x, (exists i, 1 <= i <= n /\ x i <> fO) /\ fsat n H x (fun _ => fO).
Proof.
  intros Hk H10 (Hd & Hip & Hs) Hkk Hk1.
  destruct (tri_exists M (Z.to_nat (k - 1)) (fun q Hq => Hd q ltac:(lia)) (fun i => fopp (M i k))) as [x Hx].
  replace (Z.of_nat (Z.to_nat (k - 1))) with (k - 1) in Hx by lia.
  set (y := fun j => if j <? k then x j else if j =? k then fI else fO).
  exists y. split.
  { exists k. split; [lia|]. unfold y. rewrite Z.ltb_irrefl, Z.eqb_refl. exact H10. }
  assert (Hf0 : forall i, 1 <= i <= n -> fwds k M ip (fun _ => fO) i = fO).
  { unfold fwds, for_. generalize (Z.to_nat (k - 1 - 1 + 1)) as d.
    assert (G : forall d i0 B, (forall i, B i = fO) ->
       forall i, iter d i0 (fun q B => fwd1 q (ip (q - 1)) (M (q + 1) q) B) B i = fO).
    { induction d as [|d IHd]; intros i0 B HB i; [apply HB|]. cbn [iter]. apply IHd.
      intros i1. unfold fwd1. destruct (i1 =? i0); [apply HB|].
      destruct (i1 =? i0 + 1); rewrite ?HB; ring. }
    intros d i _. apply G. reflexivity. }
  apply Hs. intros i Hi. rewrite Hf0 by lia.
  (* split the sum at k *)
  rewrite (sum_split _ _ _ _ _ _ _ Rth k) by lia.
  rewrite (sum_zero _ _ _ _ _ _ _ Rth (k + 1) n).
  2:{ intros j Hj. unfold y. destruct (Z.ltb_spec j k); [lia|]. destruct (Z.eqb_spec j k); [lia|]. ring. }
  rewrite (sum_hi _ _ _ _ _ _ _ Rth 1 k) by lia.
  assert (yk : y k = fI). { unfold y. rewrite Z.ltb_irrefl, Z.eqb_refl. reflexivity. }
  rewrite yk.
  rewrite (sum_ext _ _ _ 1 (k - 1) _ (fun j => eff k M i j *! x j)).
  2:{ intros j Hj. unfold y. destruct (Z.ltb_spec j k); [reflexivity|lia]. }
  destruct (Z_lt_le_dec i k) as [Hik|Hik].
  - (* a triangular row *)
    rewrite eff_above by lia.
    rewrite (sum_split _ _ _ _ _ _ _ Rth (i - 1)) by lia.
    rewrite (sum_zero _ _ _ _ _ _ _ Rth 1 (i - 1)).
    2:{ intros j Hj. rewrite eff_below by lia. ring. }
    replace (i - 1 + 1) with i by lia.
    rewrite (sum_ext _ _ _ i (k - 1) _ (fun j => M i j *! x j)).
    2:{ intros j Hj. rewrite eff_above by lia. reflexivity. }
    rewrite Hx by lia. ring.
  - rewrite (sum_zero _ _ _ _ _ _ _ Rth 1 (k - 1)).
    2:{ intros j Hj. rewrite eff_below by lia. ring. }
    assert (E : eff k M i k = fO).
    { destruct (Z.eq_dec i k) as [->|]; [rewrite eff_above by lia; exact Hkk|].
      destruct (Z.eq_dec i (k + 1)) as [->|]; [rewrite eff_k by lia; apply Hk1; lia|].
      apply eff_below. lia. }
    rewrite E. ring.
Qed.
End LU.
