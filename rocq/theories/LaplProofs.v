(* The sparse matrices of the SDIRKL test: maps, compressed columns, compressed rows. *)
From Coq Require Import ZArith Bool List Lia Sorting.Sorted.
From Verif Require Import Base HessModel LaplModel LaplSpec.
Open Scope Z_scope.
Import ListNotations.
Local Notation length := Datatypes.length.

Section P.
Context {K : num}.
Local Notation elem := ((Z * Z) * K)%type.
Definition row (e : (Z * Z) * K) : Z := fst (fst e).
Definition col (e : (Z * Z) * K) : Z := snd (fst e).
Definition elt_lt (e f : (Z * Z) * K) : Prop := pos_lt (fst e) (fst f) = true.
Definition srt := StronglySorted elt_lt.

Lemma pos_lt_iff p q : pos_lt p q = true <-> snd p < snd q \/ (snd p = snd q /\ fst p < fst q).
Proof. unfold pos_lt. rewrite orb_true_iff, andb_true_iff, Z.ltb_lt, Z.eqb_eq, Z.ltb_lt. tauto. Qed.
Lemma pos_lt_false p q : pos_lt p q = false <-> snd q < snd p \/ (snd p = snd q /\ fst q <= fst p).
Proof. split; intros H.
  - destruct (Z.lt_trichotomy (snd p) (snd q)) as [A|[A|A]]; [|destruct (Z.lt_ge_cases (fst p) (fst q))|]; try lia; exfalso;
    rewrite (proj2 (pos_lt_iff p q)) in H by lia; discriminate.
  - destruct (pos_lt p q) eqn:E; [|reflexivity]. apply pos_lt_iff in E. lia.
Qed.
Lemma pos_lt_trans p q r : pos_lt p q = true -> pos_lt q r = true -> pos_lt p r = true.
Proof. rewrite !pos_lt_iff. lia. Qed.
Lemma pos_eq p q : pos_lt p q = false -> pos_lt q p = false -> p = q.
Proof. rewrite !pos_lt_false. destruct p, q. cbn. intros. f_equal; lia. Qed.

Lemma set_in p v (M : list elem) : forall e, In e (map_set p v M) -> fst e = p \/ In e M.
Proof.
  induction M as [|[q w] t IH]; intros e; cbn [map_set].
  - intros [<-|[]]. now left.
  - destruct (pos_lt p q) eqn:E1; [intros [<-|H]; [now left|now right]|].
    destruct (pos_lt q p) eqn:E2.
    + intros [<-|H]; [right; now left|]. destruct (IH e H) as [A|A]; [now left|right; now right].
    + intros [<-|H]; [left; cbn; symmetry; now apply pos_eq|right; now right].
Qed.
Lemma set_srt p v M : srt M -> srt (map_set p v M).
Proof.
  induction 1 as [|[q w] t HS IH HF]; cbn [map_set]; [constructor; constructor|].
  destruct (pos_lt p q) eqn:E1; [|destruct (pos_lt q p) eqn:E2].
  - constructor; [constructor; assumption|]. constructor; [exact E1|]. eapply Forall_impl; [|exact HF]. intros e He. eapply pos_lt_trans; [exact E1|exact He].
  - constructor; [exact IH|]. apply Forall_forall. intros e He. apply set_in in He. destruct He as [He|He].
    + unfold elt_lt. cbn. now rewrite He.
    + rewrite Forall_forall in HF. now apply HF.
  - constructor; [exact HS|]. exact HF.
Qed.
(* the value found at a key *)
Definition keyb (p q : Z * Z) : bool := (fst p =? fst q) && (snd p =? snd q).
Fixpoint lk (M : list elem) (p : Z * Z) : option K := match M with [] => None | (q, v) :: t => if keyb p q then Some v else lk t p end.
Lemma keyb_iff p q : keyb p q = true <-> p = q.
Proof. unfold keyb. rewrite andb_true_iff, !Z.eqb_eq. destruct p, q. cbn. split; [intros []; now subst|intros [= -> ->]; tauto]. Qed.
Lemma lk_set p v M q : lk (map_set p v M) q = if keyb q p then Some v else lk M q.
Proof.
  induction M as [|[r w] t IH]; cbn [map_set lk]; [reflexivity|].
  destruct (pos_lt p r) eqn:E1; [reflexivity|]. destruct (pos_lt r p) eqn:E2; cbn [lk].
  - rewrite IH. destruct (keyb q r) eqn:E3; [|reflexivity]. apply keyb_iff in E3. subst r.
    destruct (keyb q p) eqn:E4; [|reflexivity]. apply keyb_iff in E4. subst p. apply pos_lt_iff in E2. lia.
  - assert (p = r) by (now apply pos_eq). subst r. destruct (keyb q p); reflexivity.
Qed.
Lemma lk_none M p : Forall (fun e => elt_lt (p, snd e) e) M -> lk M p = None.
Proof.
  induction 1 as [|[q v] t Hq H IH]; [reflexivity|]. cbn [lk]. destruct (keyb p q) eqn:E; [|exact IH].
  apply keyb_iff in E. subst q. unfold elt_lt in Hq. cbn in Hq. apply pos_lt_iff in Hq. lia.
Qed.
Lemma lk_in M : srt M -> forall p v, In (p, v) M <-> lk M p = Some v.
Proof.
  induction 1 as [|[q w] t HS IH HF]; intros p v; cbn [lk In]; [split; [tauto|discriminate]|].
  destruct (keyb p q) eqn:E.
  - apply keyb_iff in E. subst q. split; [|intros [= ->]; now left]. intros [[= ->]|H]; [reflexivity|].
    rewrite Forall_forall in HF. specialize (HF _ H). unfold elt_lt in HF. cbn in HF. apply pos_lt_iff in HF. lia.
  - rewrite <- IH. split; [|tauto]. intros [[= -> ->]|H]; [|exact H]. rewrite (proj2 (keyb_iff p p) eq_refl) in E. discriminate.
Qed.

(* a sequence of assignments *)
Definition assign (l : list (Z * Z * K)) (P : premat K) : premat K := fold_left (fun P x => pm_at (fst (fst x)) (snd (fst x)) (snd x) P) l P.
Lemma assign_srt l : forall P, srt (pm_M P) -> srt (pm_M (assign l P)).
Proof. induction l as [|x l IH]; intros P H; [exact H|]. cbn [assign fold_left]. apply IH. cbn [pm_at pm_M]. now apply set_srt. Qed.
Lemma assign_lk l : forall P i j, lk (pm_M (assign l P)) (i, j) = match assigned l i j with Some v => Some v | None => lk (pm_M P) (i, j) end.
Proof.
  induction l as [|[[i' j'] v] l IH]; intros P i j; [reflexivity|].
  unfold assign in *. cbn [fold_left fst snd assigned]. rewrite IH. destruct (assigned l i j); [reflexivity|].
  cbn [pm_at pm_M]. rewrite lk_set. unfold keyb. cbn [fst snd]. destruct ((i =? i') && (j =? j')); reflexivity.
Qed.
Lemma assign_lig l : forall P, pm_lig (assign l P) = fold_left (fun m x => Z.max m (fst (fst x))) l (pm_lig P).
Proof. induction l as [|x l IH]; intros P; [reflexivity|]. unfold assign in *. cbn [fold_left]. rewrite IH. reflexivity. Qed.
Lemma fold_max (l : list (Z * Z * K)) : forall m, m <= fold_left (fun m x => Z.max m (fst (fst x))) l m /\
  (forall x, In x l -> fst (fst x) <= fold_left (fun m x => Z.max m (fst (fst x))) l m) /\
  (fold_left (fun m x => Z.max m (fst (fst x))) l m = m \/ exists x, In x l /\ fst (fst x) = fold_left (fun m x => Z.max m (fst (fst x))) l m).
Proof.
  induction l as [|y l IH]; intros m; cbn [fold_left]; [repeat split; [lia|intros x []|now left]|].
  destruct (IH (Z.max m (fst (fst y)))) as (A & B & C). split; [lia|]. split.
  - intros x [<-|Hx]; [lia|now apply B].
  - destruct C as [C|(x & Hx & C)]; [|right; exists x; split; [now right|exact C]].
    rewrite C. destruct (Z.max_spec m (fst (fst y))) as [[_ E]|[_ E]]; rewrite E; [right; exists y; split; [now left|reflexivity]|now left].
Qed.

(* ---- counting the elements of the first columns ---- *)
Definition cnt (M : list elem) (j : Z) : Z := Z.of_nat (length (filter (fun e => col e <=? j) M)).
Lemma cnt_app A B j : cnt (A ++ B) j = cnt A j + cnt B j.
Proof. unfold cnt. rewrite filter_app, app_length. apply Nat2Z.inj_add. Qed.
Lemma cnt_cons e B j : cnt (e :: B) j = (if col e <=? j then 1 else 0) + cnt B j.
Proof. unfold cnt. cbn [filter]. destruct (col e <=? j); cbn [length]; lia. Qed.
Lemma cnt_all M j : (forall e, In e M -> col e <= j) -> cnt M j = Z.of_nat (length M).
Proof.
  induction M as [|e t IH]; intros H; [reflexivity|]. rewrite cnt_cons, (proj2 (Z.leb_le _ _)) by (apply H; now left).
  rewrite IH by (intros; apply H; now right). cbn [length]. lia.
Qed.
Lemma cnt_none M j : (forall e, In e M -> j < col e) -> cnt M j = 0.
Proof.
  induction M as [|e t IH]; intros H; [reflexivity|]. rewrite cnt_cons. rewrite IH by (intros; apply H; now right).
  destruct (Z.leb_spec (col e) j); [|reflexivity]. specialize (H e (or_introl eq_refl)). lia.
Qed.
Lemma cnt_mono M j k : j <= k -> cnt M j <= cnt M k.
Proof.
  intros H. induction M as [|e t IH]; [reflexivity|]. rewrite !cnt_cons. destruct (Z.leb_spec (col e) j), (Z.leb_spec (col e) k); lia.
Qed.
Lemma cnt_bound M j : 0 <= cnt M j <= Z.of_nat (length M).
Proof. split; [unfold cnt; lia|]. induction M as [|e t IH]; [reflexivity|]. rewrite cnt_cons. cbn [length]. destruct (col e <=? j); lia. Qed.
Lemma srt_col A e B : srt (A ++ e :: B) -> (forall f, In f A -> col f <= col e) /\ (forall f, In f B -> col e <= col f).
Proof.
  intros H. induction A as [|a A IH]; cbn [app] in H.
  - split; [intros f []|]. apply StronglySorted_inv in H. destruct H as [_ H]. rewrite Forall_forall in H. intros f Hf.
    specialize (H f Hf). unfold elt_lt in H. apply pos_lt_iff in H. unfold col. lia.
  - apply StronglySorted_inv in H. destruct H as [H HF]. destruct (IH H) as [I1 I2]. split; [|exact I2].
    intros f [<-|Hf]; [|now apply I1]. rewrite Forall_forall in HF. specialize (HF e ltac:(apply in_or_app; right; now left)).
    unfold elt_lt in HF. apply pos_lt_iff in HF. unfold col. lia.
Qed.
Variable d0 : elem.
Definition at_ (M : list elem) (k : Z) : elem := nth (Z.to_nat k) M d0.
Lemma at_split M k : 0 <= k < Z.of_nat (length M) -> exists A B, M = A ++ at_ M k :: B /\ Z.of_nat (length A) = k.
Proof.
  intros H. unfold at_. destruct (nth_split M d0 (n := Z.to_nat k)) as (A & B & E & L); [lia|]. exists A, B. split; [exact E|lia].
Qed.
Lemma col_cnt M k j : srt M -> 0 <= k < Z.of_nat (length M) -> (col (at_ M k) <= j <-> k < cnt M j).
Proof.
  intros HS Hk. destruct (at_split M k Hk) as (A & B & E & L). set (e := at_ M k) in *. clearbody e. subst M.
  destruct (srt_col A e B HS) as [SA SB]. rewrite cnt_app, cnt_cons. pose proof (cnt_bound B j). split; intros H1.
  - rewrite (proj2 (Z.leb_le _ _) H1). rewrite (cnt_all A) by (intros f Hf; specialize (SA f Hf); lia). lia.
  - destruct (Z.le_gt_cases (col e) j) as [G|G]; [exact G|]. rewrite (proj2 (Z.leb_gt _ _) G) in H1.
    rewrite (cnt_none B) in H1 by (intros f Hf; specialize (SB f Hf); lia). pose proof (cnt_bound A j). lia.
Qed.
Lemma at_in M k : 0 <= k < Z.of_nat (length M) -> In (at_ M k) M.
Proof. intros H. unfold at_. apply nth_In. lia. Qed.
Lemma in_at M e : In e M -> exists k, 0 <= k < Z.of_nat (length M) /\ at_ M k = e.
Proof.
  intros H. destruct (In_nth M e d0 H) as (k & Hk & E). exists (Z.of_nat k). split; [lia|]. unfold at_. rewrite Nat2Z.id. exact E.
Qed.
Lemma at_row M k : srt M -> 0 <= k -> k + 1 < Z.of_nat (length M) -> col (at_ M k) = col (at_ M (k + 1)) -> row (at_ M k) < row (at_ M (k + 1)).
Proof.
  intros HS H0 H1 HC. destruct (at_split M k ltac:(lia)) as (A & B & E & L).
  assert (E2 : at_ M (k + 1) = hd d0 B).
  { unfold at_. rewrite E. rewrite app_nth2 by lia. replace (Z.to_nat (k + 1) - length A)%nat with 1%nat by lia. now destruct B. }
  destruct B as [|f B]. { exfalso. rewrite E, app_length in H1. cbn [length] in H1. lia. }
  cbn in E2. set (e := at_ M k) in *. clearbody e. rewrite E2 in *. subst M.
  clear -HS HC. induction A as [|a A IH]; cbn [app] in HS; apply StronglySorted_inv in HS; destruct HS as [HS HF]; [|now apply IH].
  inversion HF as [|? ? X _]; subst. unfold elt_lt in X. apply pos_lt_iff in X. unfold row, col in *. lia.
Qed.

(* ---- SuperLu::init ---- *)
Section SLU.
Variables (n : Z) (M : list elem).
Hypothesis Hn : 1 <= n.
Hypothesis HS : srt M.
Hypothesis HC : forall e, In e M -> 1 <= col e <= n.
Hypothesis HE : forall j, 1 <= j <= n -> exists e, In e M /\ col e = j.
Let nnz := Z.of_nat (length M).
Lemma slu_inv B : forall A l colc a ri cp, M = A ++ B -> l = Z.of_nat (length A) ->
  (forall e, In e A -> col e <= colc + 1) -> (forall e, In e B -> colc + 1 <= col e) -> (forall j, 1 <= j <= colc + 1 -> exists e, In e A /\ col e = j) ->
  -1 <= colc < n -> (forall j, 0 <= j <= colc -> cp j = cnt M j) -> cp n = nnz ->
  (forall k, 0 <= k < l -> ri k = row (at_ M k) - 1 /\ a k = snd (at_ M k)) ->
  exists a' ri' cp', slu_elems n nnz B (l, colc, a, ri, cp) = Ok (nnz, n - 1, a', ri', cp') /\
    (forall j, 0 <= j < n -> cp' j = cnt M j) /\ cp' n = nnz /\ (forall k, 0 <= k < nnz -> ri' k = row (at_ M k) - 1 /\ a' k = snd (at_ M k)).
Proof.
  induction B as [|e B IH]; intros A l colc a ri cp E L C1 C2 C3 CN P1 P2 P3.
  - rewrite app_nil_r in E. subst A. assert (colc = n - 1).
    { destruct (HE n ltac:(lia)) as (e & He & Ee). specialize (C1 e He). lia. }
    subst colc l. fold nnz. exists a, ri, cp. split; [reflexivity|]. split; [intros j Hj; apply P1; lia|]. split; assumption.
  - assert (HeM : In e M) by (rewrite E; apply in_or_app; right; now left).
    assert (He : colc + 1 <= col e) by (apply C2; now left). pose proof (HC e HeM) as Hc.
    assert (Hl : 0 <= l <= nnz - 1) by (unfold nnz; rewrite E, app_length; cbn [length]; lia).
    assert (Ea : at_ M l = e).
    { unfold at_. rewrite E. rewrite app_nth2 by lia. replace (Z.to_nat l - length A)%nat with O by lia. reflexivity. }
    pose proof HS as HS'. rewrite E in HS'. destruct (srt_col A e B HS') as [SA SB].
    assert (Hnx : col e <= colc + 2).
    { destruct (Z.le_gt_cases (col e) (colc + 2)) as [G|G]; [exact G|]. exfalso. destruct (HE (colc + 2) ltac:(lia)) as (f & Hf & Ef).
      rewrite E in Hf. apply in_app_or in Hf. destruct Hf as [Hf|[Hf|Hf]].
      - specialize (C1 f Hf). lia.
      - subst f. lia.
      - specialize (SB f Hf). lia. }
    cbn [slu_elems]. unfold slu_elem. fold (col e) (row e).
    assert (Q : forall colc' cp', col e = colc' + 1 -> (forall j, 0 <= j <= colc' -> cp' j = cnt M j) -> cp' n = nnz ->
      exists a' ri' cp'', slu_elems n nnz B (l + 1, colc', upd a l (snd e), upd ri l (row e - 1), cp') = Ok (nnz, n - 1, a', ri', cp'') /\
      (forall j, 0 <= j < n -> cp'' j = cnt M j) /\ cp'' n = nnz /\ (forall k, 0 <= k < nnz -> ri' k = row (at_ M k) - 1 /\ a' k = snd (at_ M k))).
    { intros colc' cp' G1 G2 G3. apply (IH (A ++ [e])).
      - rewrite <- app_assoc. exact E.
      - rewrite app_length. cbn [length]. lia.
      - intros f Hf. apply in_app_or in Hf. destruct Hf as [Hf|[<-|[]]]; [specialize (SA f Hf); lia|lia].
      - intros f Hf. specialize (SB f Hf). lia.
      - intros j Hj. destruct (Z.eq_dec j (col e)) as [->|Hne]; [exists e; split; [apply in_or_app; right; now left|reflexivity]|].
        destruct (C3 j ltac:(lia)) as (f & Hf & Ef). exists f. split; [apply in_or_app; now left|exact Ef].
      - lia.
      - exact G2.
      - exact G3.
      - intros k Hk. destruct (Z.eq_dec k l) as [->|Hne].
        + rewrite !upd_same, Ea. split; reflexivity.
        + rewrite !upd_other by exact Hne. apply P3. lia. }
    destruct (Z.eqb_spec (col e - 1) colc) as [G|G].
    + cbn [bind]. rewrite !wr_ok by lia. cbn [bind]. apply Q; [lia|exact P1|exact P2].
    + rewrite (wr_ok 0 n) by lia. cbn [bind]. rewrite !wr_ok by lia. cbn [bind]. apply Q; [lia| |].
      * intros j Hj. destruct (Z.eq_dec j (colc + 1)) as [->|Hne]; [|rewrite upd_other by exact Hne; apply P1; lia].
        rewrite upd_same. rewrite E, cnt_app, cnt_all by exact C1. rewrite cnt_none; [lia|].
        intros f [<-|Hf]; [lia|]. specialize (SB f Hf). lia.
      * rewrite upd_other by lia. exact P2.
Qed.
End SLU.
Lemma compressed n M a ri cp : 1 <= n -> srt M -> (forall e, In e M -> 1 <= row e <= n /\ 1 <= col e <= n) ->
  (forall j, 0 <= j < n -> cp j = cnt M j) -> cp n = Z.of_nat (length M) ->
  (forall k, 0 <= k < Z.of_nat (length M) -> ri k = row (at_ M k) - 1 /\ a k = snd (at_ M k)) ->
  compressed_columns n (Z.of_nat (length M)) a ri cp (fun i j => lk M (i, j)).
Proof.
  intros Hn HS HB H1 H2 H3.
  assert (HP : forall j, 0 <= j <= n -> cp j = cnt M j).
  { intros j Hj. destruct (Z.eq_dec j n) as [->|Hne]; [|apply H1; lia]. rewrite H2, cnt_all; [reflexivity|]. intros e He. apply HB in He. lia. }
  assert (HK : forall j k, 0 <= j < n -> (cp j <= k < cp (j + 1) <-> (0 <= k < Z.of_nat (length M) /\ col (at_ M k) = j + 1))).
  { intros j k Hj. rewrite !HP by lia. pose proof (cnt_bound M j). pose proof (cnt_bound M (j + 1)). split.
    - intros Hk. assert (Q : 0 <= k < Z.of_nat (length M)) by lia. split; [exact Q|].
      pose proof (col_cnt M k j HS Q). pose proof (col_cnt M k (j + 1) HS Q). lia.
    - intros [Q Hc]. pose proof (col_cnt M k j HS Q). pose proof (col_cnt M k (j + 1) HS Q). lia. }
  split; [|split; [exact H2|split; [|split; [|split]]]].
  - rewrite HP by lia. apply cnt_none. intros e He. apply HB in He. lia.
  - intros j Hj. rewrite !HP by lia. apply cnt_mono. lia.
  - intros j k Hj Hk. apply HK in Hk; [|exact Hj]. destruct Hk as [Hk _]. rewrite (proj1 (H3 k Hk)). pose proof (HB _ (at_in M k Hk)). lia.
  - intros j k Hj Hk Hk1. assert (Q1 : cp j <= k < cp (j + 1)) by lia. assert (Q2 : cp j <= k + 1 < cp (j + 1)) by lia.
    apply HK in Q1, Q2; try exact Hj. destruct Q1 as [Q1 R1], Q2 as [Q2 R2]. rewrite (proj1 (H3 k Q1)), (proj1 (H3 (k + 1) Q2)).
    pose proof (at_row M k HS ltac:(lia) ltac:(lia) ltac:(congruence)). lia.
  - intros j Hj i v. rewrite <- (lk_in M HS). split.
    + intros H. destruct (in_at M _ H) as (k & Hk & Ek). exists k. split; [apply HK; [exact Hj|]; split; [exact Hk|now rewrite Ek]|].
      destruct (H3 k Hk) as [A B]. rewrite A, B, Ek. unfold row. cbn [fst snd]. split; [lia|reflexivity].
    + intros (k & Hk & A & B). apply HK in Hk; [|exact Hj]. destruct Hk as [Hk Hc]. destruct (H3 k Hk) as [A' B'].
      replace (i + 1, j + 1, v) with (at_ M k); [now apply at_in|]. destruct (at_ M k) as [[r c] w]. unfold row, col in *. cbn in *.
      subst v w. rewrite A' in A. f_equal. f_equal; lia.
Qed.
Lemma slu_arrays_ok n P a0 ri0 cp0 : 1 <= n -> srt (pm_M P) -> pm_lig P = n -> (forall e, In e (pm_M P) -> 1 <= row e <= n /\ 1 <= col e <= n) ->
  (forall j, 1 <= j <= n -> exists e, In e (pm_M P) /\ col e = j) ->
  exists A, slu_arrays P a0 ri0 cp0 = Ok A /\ u_n A = n /\ u_nnz A = pm_n P /\
    compressed_columns n (pm_n P) (u_a A) (u_rowind A) (u_colptr A) (fun i j => lk (pm_M P) (i, j)).
Proof.
  intros Hn HS HL HB HE. unfold slu_arrays. rewrite HL. rewrite wr_ok by lia. cbn [bind]. unfold pm_n.
  destruct (slu_inv n (pm_M P) Hn HS (fun e He => proj2 (HB e He)) HE (pm_M P) [] 0 (-1) a0 ri0 (upd cp0 n (Z.of_nat (length (pm_M P)))))
    as (a & ri & cp & E & Q1 & Q2 & Q3); try reflexivity; try (intros; lia).
  - intros e [].
  - intros e He. apply HB in He. lia.
  - apply upd_same.
  - rewrite E. cbn [bind]. eexists. split; [reflexivity|]. cbn [u_n u_nnz u_a u_rowind u_colptr]. split; [reflexivity|]. split; [reflexivity|].
    now apply compressed.
Qed.

(* ---- CSRLineWise::init ---- *)
Section CSR.
Variables (n : Z) (M : list elem).
Hypothesis Hn : 1 <= n.
Hypothesis HS : srt M.
Hypothesis HC : forall e, In e M -> 1 <= col e <= n.
Let nnz := Z.of_nat (length M).
Lemma csr_inv B : forall A p cur ia ja a, M = A ++ B -> p = Z.of_nat (length A) ->
  (forall e, In e A -> col e <= cur) -> (forall e, In e B -> cur <= col e) -> 1 <= cur <= n ->
  (forall j, 0 <= j < cur -> ia j = cnt M j + 1) ->
  (forall k, 0 <= k < p -> ja k = row (at_ M k) /\ a k = snd (at_ M k)) ->
  exists cur' ia' ja' a', csr_lines n nnz B (p, cur, ia, ja, a) = Ok (nnz, cur', ia', ja', a') /\ 1 <= cur' <= n /\ (forall e, In e M -> col e <= cur') /\
    (forall j, 0 <= j < cur' -> ia' j = cnt M j + 1) /\ (forall k, 0 <= k < nnz -> ja' k = row (at_ M k) /\ a' k = snd (at_ M k)).
Proof.
  induction B as [|e B IH]; intros A p cur ia ja a E L C1 C2 CN P1 P3.
  - rewrite app_nil_r in E. subst A. subst p. exists cur, ia, ja, a. split; [reflexivity|]. repeat split; try assumption; try lia; now apply P3.
  - assert (HeM : In e M) by (rewrite E; apply in_or_app; right; now left).
    assert (He : cur <= col e) by (apply C2; now left). pose proof (HC e HeM) as Hc.
    assert (Hl : 0 <= p <= nnz - 1) by (unfold nnz; rewrite E, app_length; cbn [length]; lia).
    assert (Ea : at_ M p = e).
    { unfold at_. rewrite E. rewrite app_nth2 by lia. replace (Z.to_nat p - length A)%nat with O by lia. reflexivity. }
    pose proof HS as HS'. rewrite E in HS'. destruct (srt_col A e B HS') as [SA SB].
    cbn [csr_lines]. unfold csr_line. unfold pm_first, pm_second. fold (col e) (row e).
    assert (X : exists ia', (if col e =? cur then Ok ia else forM (cur + 1) (col e) (fun l ia => wr 0 n ia (l - 1) (p + 1)) ia) = Ok ia' /\
      forall j, 0 <= j < col e -> ia' j = cnt M j + 1).
    { destruct (Z.eqb_spec (col e) cur) as [G|G]; [exists ia; split; [reflexivity|rewrite G; exact P1]|].
      assert (W : wp (forM (cur + 1) (col e) (fun l ia => wr 0 n ia (l - 1) (p + 1)) ia) (fun ia' => forall j, 0 <= j < col e + 1 - 1 -> ia' j = cnt M j + 1)).
      { apply (forM_ind (fun l (ia' : Z -> Z) => forall j, 0 <= j < l - 1 -> ia' j = cnt M j + 1)); [lia| |].
        - intros j Hj. apply P1. lia.
        - intros l ia' Hlr H. rewrite wr_ok by lia. cbn [wp]. intros j Hj. destruct (Z.eq_dec j (l - 1)) as [->|Hne]; [|rewrite upd_other by exact Hne; apply H; lia].
          rewrite upd_same. rewrite E, cnt_app, cnt_all by (intros f Hf; specialize (C1 f Hf); lia). rewrite cnt_none; [lia|].
          intros f [<-|Hf]; [lia|]. specialize (SB f Hf). lia. }
      apply wp_ok in W. destruct W as (ia' & W1 & W2). exists ia'. split; [exact W1|]. intros j Hj. apply W2. lia. }
    destruct X as (ia' & X1 & X2). rewrite X1. cbn [bind]. rewrite !wr_ok by lia. cbn [bind].
    apply (IH (A ++ [e])).
    + rewrite <- app_assoc. exact E.
    + rewrite app_length. cbn [length]. lia.
    + intros f Hf. apply in_app_or in Hf. destruct Hf as [Hf|[<-|[]]]; [specialize (SA f Hf); lia|lia].
    + intros f Hf. specialize (SB f Hf). lia.
    + lia.
    + exact X2.
    + intros k Hk. destruct (Z.eq_dec k p) as [->|Hne].
      * rewrite !upd_same, Ea. split; reflexivity.
      * rewrite !upd_other by exact Hne. apply P3. lia.
Qed.
End CSR.
Lemma csr_init_ok n P ia0 ja0 a0 : 1 <= n -> srt (pm_M P) -> pm_lig P = n -> (forall e, In e (pm_M P) -> 1 <= row e <= n /\ 1 <= col e <= n) ->
  (exists e, In e (pm_M P) /\ col e = 1) -> (exists e, In e (pm_M P) /\ col e = n) ->
  exists A, csr_init P ia0 ja0 a0 = Ok A /\ c_order A = n /\ c_nzero A = pm_n P /\
    compressed_rows n (pm_n P) (c_ia A) (c_ja A) (c_a A) (transposed (fun i j => lk (pm_M P) (i, j))).
Proof.
  intros Hn HS HL HB (e1 & I1 & Q1) (en & In_ & Qn). unfold csr_init, pm_n. set (M := pm_M P) in *.
  destruct (csr_inv n M HS (fun e He => proj2 (HB e He)) M [] 0 1 (upd ia0 0 1) ja0 a0) as (cur & ia & ja & a & E & B1 & B2 & B3 & B4); try reflexivity; try (intros; lia).
  { intros e []. } { intros e He. apply HB in He. lia. }
  { intros j Hj. replace j with 0 by lia. rewrite upd_same, cnt_none; [reflexivity|]. intros e He. apply HB in He. lia. }
  assert (cur = n) by (specialize (B2 en In_); lia). subst cur.
  destruct M as [|e t] eqn:EM; [destruct I1|]. rewrite <- EM in *.
  assert (F : col e = 1).
  { rewrite EM in HS. destruct (srt_col [] e t HS) as [_ SB]. rewrite EM in I1. destruct I1 as [->|I1]; [exact Q1|].
    specialize (SB e1 I1). pose proof (HB e ltac:(rewrite EM; now left)). lia. }
  unfold pm_first. fold (col e). rewrite F. cbn [Z.eqb Pos.eqb negb]. rewrite HL. rewrite wr_ok by lia. cbn [bind]. rewrite E. cbn [bind].
  rewrite wr_ok by lia. cbn [bind]. eexists. split; [reflexivity|]. cbn [c_order c_nzero c_ia c_ja c_a]. split; [reflexivity|]. split; [reflexivity|].
  set (ia' := upd ia n (Z.of_nat (length M) + 1)).
  assert (HP : forall j, 0 <= j <= n -> ia' j = cnt M j + 1).
  { intros j Hj. unfold ia'. destruct (Z.eq_dec j n) as [->|Hne]; [|rewrite upd_other by exact Hne; apply B3; lia].
    rewrite upd_same, cnt_all; [reflexivity|]. intros f Hf. apply HB in Hf. lia. }
  assert (HK : forall j k, 1 <= j <= n -> (ia' (j - 1) <= k < ia' j <-> (0 <= k - 1 < Z.of_nat (length M) /\ col (at_ M (k - 1)) = j))).
  { intros j k Hj. rewrite !HP by lia. pose proof (cnt_bound M j). pose proof (cnt_bound M (j - 1)). split.
    - intros Hk. assert (Q : 0 <= k - 1 < Z.of_nat (length M)) by lia. split; [exact Q|].
      pose proof (col_cnt M (k - 1) j HS Q). pose proof (col_cnt M (k - 1) (j - 1) HS Q). lia.
    - intros [Q Hc]. pose proof (col_cnt M (k - 1) j HS Q). pose proof (col_cnt M (k - 1) (j - 1) HS Q). lia. }
  split; [|split; [|split; [|split]]].
  - rewrite HP by lia. rewrite cnt_none; [reflexivity|]. intros f Hf. apply HB in Hf. lia.
  - rewrite HP by lia. rewrite cnt_all; [reflexivity|]. intros f Hf. apply HB in Hf. lia.
  - intros j Hj. rewrite !HP by lia. pose proof (cnt_mono M (j - 1) j). lia.
  - intros j k Hj Hk. apply HK in Hk; [|exact Hj]. destruct Hk as [Hk _]. rewrite (proj1 (B4 _ Hk)). exact (proj1 (HB _ (at_in M _ Hk))).
  - intros j Hj i v. unfold transposed. rewrite <- (lk_in M HS). split.
    + intros H. destruct (in_at M _ H) as (k & Hk & Ek). exists (k + 1). replace (k + 1 - 1) with k by lia.
      split; [apply HK; [exact Hj|]; replace (k + 1 - 1) with k by lia; split; [exact Hk|now rewrite Ek]|].
      destruct (B4 k Hk) as [A B]. rewrite A, B, Ek. split; reflexivity.
    + intros (k & Hk & A & B). apply HK in Hk; [|exact Hj]. destruct Hk as [Hk Hc]. destruct (B4 _ Hk) as [A' B'].
      replace (i, j, v) with (at_ M (k - 1)); [now apply at_in|]. destruct (at_ M (k - 1)) as [[r c] w]. unfold row, col in *. cbn in *. congruence.
Qed.
End P.
