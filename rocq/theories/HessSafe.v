(* The Hessenberg routines stay inside their arrays, for every arithmetic (NaN and infinities
   included), and the pivots they store. *)
From Verif Require Import Base Spec HessModel.
Open Scope Z_scope.

Section Safe.
Context {K : num}.

Ltac st := repeat first
  [ apply wp_assoc
  | apply wp_rd2; [lia|lia|] | apply wp_wr2; [lia|lia|]
  | apply wp_rd; [lia|] | apply wp_wr; [lia|]
  | apply wp_okb ].

(* a loop whose body always completes *)
Lemma forM_total {St} lo hi (f : Z -> St -> out St) s :
  (forall j t, lo <= j <= hi -> wp (f j t) (fun _ => True)) -> wp (forM lo hi f s) (fun _ => True).
Proof.
  intros H. destruct (Z_le_gt_dec lo (hi + 1)).
  - apply (forM_ind (fun _ _ => True) lo hi f s); auto.
  - rewrite forM_empty by lia. exact Logic.I.
Qed.

Lemma dech_pivot_safe n k (A : mat K) : 1 <= k < n ->
  wp (dech_pivot n k (Z.min n (1 + k)) A) (fun m => m = k \/ m = k + 1).
Proof.
  intros H. unfold dech_pivot. replace (Z.min n (1 + k)) with (k + 1) by lia.
  eapply wp_mono; [apply (forM_ind (fun _ m => m = k \/ m = k + 1)); [lia|auto|]|auto].
  intros j m Hj Hm. st. cbn [wp]. destruct (_ <? _)%num; lia.
Qed.
Lemma dech_col_safe n k m j (A : mat K) : 1 <= k < n -> m = k \/ m = k + 1 -> 1 <= j <= n ->
  wp (dech_col n k (Z.min n (1 + k)) m j A) (fun _ => True).
Proof.
  intros H Hm Hj. unfold dech_col. st. destruct (negb _); [|exact Logic.I].
  apply forM_total. intros i A1 Hi. st. rewrite wr2_ok by lia. exact Logic.I.
Qed.
Definition piv_step (n k : Z) (ip ip' : ivec) : Prop :=
  (forall q, q <> k - 1 -> q <> n - 1 -> ip' q = ip q) /\
  (ip' (k - 1) = k /\ ip' (n - 1) = ip (n - 1) \/ ip' (k - 1) = k + 1 /\ ip' (n - 1) = - ip (n - 1)).
Lemma dech_step_safe n k (A : mat K) ip : 1 <= k < n ->
  wp (dech_step n k A ip) (fun '(_, ip', ret, brk) => piv_step n k ip ip' /\ (if brk : bool then ret = k else ret = 0)).
Proof.
  intros H. unfold dech_step.
  apply wp_bind. eapply wp_mono; [apply dech_pivot_safe; lia|]. intros m Hm. cbv beta in Hm. st.
  assert (Hp : forall ip1 : ivec, ip1 = (if negb (m =? k) then upd (upd ip (k - 1) m) (n - 1) (- upd ip (k - 1) m (n - 1)) else upd ip (k - 1) m) ->
     piv_step n k ip ip1).
  { intros ip1 ->. unfold piv_step. destruct (Z.eqb_spec m k); cbn [negb].
    - subst m. split; [|left; split]; intros; rewrite ?upd_same; rewrite ?upd_other by lia; reflexivity.
    - split; [|right; split]; intros; rewrite ?upd_same; repeat (rewrite upd_other by lia; rewrite ?upd_same); lia. }
  destruct (negb (m =? k)); st;
  (destruct (_ =? _)%num; [cbn [wp]; split; [apply Hp; reflexivity|reflexivity]|];
   apply wp_bind; eapply wp_mono; [apply forM_total; intros i A1 Hi; st; rewrite wr2_ok by lia; exact Logic.I|]; intros A1 _;
   apply wp_bind; eapply wp_mono; [apply forM_total; intros j A2 Hj; apply dech_col_safe; lia|]; intros A2 _;
   cbn [wp]; split; [apply Hp; reflexivity|reflexivity]).
Qed.

Fixpoint sign_of (ip : ivec) (k : nat) : Z :=
  match k with O => 1 | S k' => (if ip (Z.of_nat k') =? Z.of_nat k then 1 else -1) * sign_of ip k' end.
Lemma sign_of_ext ip ip' k : (forall q, 0 <= q < Z.of_nat k -> ip q = ip' q) -> sign_of ip k = sign_of ip' k.
Proof. induction k; intros H; cbn [sign_of]; [reflexivity|]. rewrite (H (Z.of_nat k)), IHk by (intros; try apply H; lia). reflexivity. Qed.

(* what is known before pass k *)
Definition piv_inv (n k : Z) (ip : ivec) : Prop :=
  (forall q, 1 <= q < k -> ip (q - 1) = q \/ ip (q - 1) = q + 1) /\ ip (n - 1) = sign_of ip (Z.to_nat (k - 1)).
Lemma piv_inv_step n k ip ip' : 1 <= k < n -> piv_inv n k ip -> piv_step n k ip ip' -> piv_inv n (k + 1) ip'.
Proof.
  intros H [Hi Hs] [Ho Hk]. split.
  - intros q Hq. destruct (Z.eq_dec q k) as [->|].
    + destruct Hk as [[? _]|[? _]]; auto.
    + rewrite Ho by lia. apply Hi. lia.
  - replace (Z.to_nat (k + 1 - 1)) with (S (Z.to_nat (k - 1))) by lia. cbn [sign_of].
    rewrite (sign_of_ext ip' ip (Z.to_nat (k - 1))) by (intros; apply Ho; lia). rewrite <- Hs.
    replace (Z.of_nat (Z.to_nat (k - 1))) with (k - 1) by lia.
    replace (Z.of_nat (S (Z.to_nat (k - 1)))) with k by lia.
    destruct Hk as [[-> ->]|[-> ->]].
    + rewrite Z.eqb_refl. lia.
    + destruct (Z.eqb_spec (k + 1) k); lia.
Qed.
Lemma dech_safe_lemma n (A : mat K) ip : 1 <= n ->
  wp (dech n A ip) (fun '(_, ip', ret) => 0 <= ret <= n /\ (ret = 0 -> piv_inv n n ip')).
Proof.
  intros H. unfold dech. st. set (ip0 := upd ip (n - 1) 1).
  set (P := fun k (st : mat K * ivec * Z * bool) => let '(_, ip', ret, brk) := st in
    if brk : bool then 1 <= ret < k else ret = 0 /\ piv_inv n k ip').
  apply wp_bind. apply wp_mono with (P := P n).
  - assert (H1 : P 1 (A, ip0, 0, false)).
    { cbn. split; [reflexivity|]. split; [intros; lia|]. unfold ip0. rewrite upd_same. reflexivity. }
    destruct (Z.eqb_spec n 1); cbn [negb]; [subst n; exact H1|].
    replace (P n) with (P (n - 1 + 1)) by (f_equal; lia).
    apply forM_ind; [lia|exact H1|].
    intros k [[[A1 ip1] r1] b1] Hk HP. destruct b1.
    + cbn in HP |- *. lia.
    + cbn in HP. destruct HP as [_ HP]. eapply wp_mono; [apply dech_step_safe; lia|].
      intros [[[A2 ip2] r2] b2] [Hs Hb]. destruct b2; cbn; [lia|]. split; [exact Hb|]. eapply piv_inv_step; eauto; lia.
  - intros [[[A1 ip1] r1] b1] HP. st. destruct (_ =? _)%num.
    + cbn [wp]. lia.
    + cbn [wp]. destruct b1; cbn in HP; [split; lia|]. destruct HP as [-> HP]. split; [lia|auto].
Qed.
Lemma solh_safe_lemma n (A : mat K) ip (B : vec K) : 1 <= n -> piv_inv n n ip ->
  wp (solh n A ip B) (fun _ => True).
Proof.
  intros H [Hp _]. unfold solh. apply wp_bind. apply wp_mono with (P := fun _ => True).
  - destruct (negb _); [|exact Logic.I]. apply wp_bind. apply wp_mono with (P := fun _ => True).
    + apply forM_total. intros k B1 Hk. unfold solh_fwd. specialize (Hp k). st.
      apply forM_total. intros i B2 Hi. st. rewrite wr_ok by lia. exact Logic.I.
    + intros B1 _. apply forM_total. intros kb B2 Hk. unfold solh_bwd. cbv zeta. st.
      apply forM_total. intros i B3 Hi. st. rewrite wr_ok by lia. exact Logic.I.
  - intros B1 _. st. rewrite wr_ok by lia. exact Logic.I.
Qed.

(* the complex routines *)
Lemma dechc_pivot_safe n k (Ar Ai : mat K) : 1 <= k < n ->
  wp (dechc_pivot n k (Z.min n (1 + k)) Ar Ai) (fun m => m = k \/ m = k + 1).
Proof.
  intros H. unfold dechc_pivot. replace (Z.min n (1 + k)) with (k + 1) by lia.
  eapply wp_mono; [apply (forM_ind (fun _ m => m = k \/ m = k + 1)); [lia|auto|]|auto].
  intros j m Hj Hm. st. cbn [wp]. destruct (_ <? _)%num; lia.
Qed.
Lemma dechc_col_safe n k m j (Ar Ai : mat K) : 1 <= k < n -> m = k \/ m = k + 1 -> 1 <= j <= n ->
  wp (dechc_col n k (Z.min n (1 + k)) m j Ar Ai) (fun _ => True).
Proof.
  intros H Hm Hj. unfold dechc_col. st. destruct (negb _); [|exact Logic.I].
  apply forM_total. intros i [A1 A2] Hi. st.
  match goal with |- wp (let '(_, _) := ?e in _) _ => destruct e as [pr pi] end. st. exact Logic.I.
Qed.
Lemma dechc_step_safe n k (Ar Ai : mat K) ip : 1 <= k < n ->
  wp (dechc_step n k Ar Ai ip) (fun '(_, _, ip', ret, brk) => piv_step n k ip ip' /\ (if brk : bool then ret = k else ret = 0)).
Proof.
  intros H. unfold dechc_step.
  apply wp_bind. eapply wp_mono; [apply dechc_pivot_safe; lia|]. intros m Hm. cbv beta in Hm. st.
  assert (Hp : forall ip1 : ivec, ip1 = (if negb (m =? k) then upd (upd ip (k - 1) m) (n - 1) (- upd ip (k - 1) m (n - 1)) else upd ip (k - 1) m) ->
     piv_step n k ip ip1).
  { intros ip1 ->. unfold piv_step. destruct (Z.eqb_spec m k); cbn [negb].
    - subst m. split; [|left; split]; intros; rewrite ?upd_same; rewrite ?upd_other by lia; reflexivity.
    - split; [|right; split]; intros; rewrite ?upd_same; repeat (rewrite upd_other by lia; rewrite ?upd_same); lia. }
  destruct (negb (m =? k)); st;
  (destruct (_ =? _)%num; [cbn [wp]; split; [apply Hp; reflexivity|reflexivity]|]; cbv zeta;
   apply wp_bind; eapply wp_mono; [apply forM_total; intros i [A1 A2] Hi; st; exact Logic.I|]; intros [A1 A2] _;
   apply wp_bind; eapply wp_mono; [apply forM_total; intros j [A3 A4] Hj; apply dechc_col_safe; lia|]; intros [A3 A4] _;
   cbn [wp]; split; [apply Hp; reflexivity|reflexivity]).
Qed.
Lemma dechc_safe_lemma n (Ar Ai : mat K) ip : 1 <= n ->
  wp (dechc n Ar Ai ip) (fun '(_, _, ip', ret) => 0 <= ret <= n /\ (ret = 0 -> piv_inv n n ip')).
Proof.
  intros H. unfold dechc. st. set (ip0 := upd ip (n - 1) 1).
  set (P := fun k (st : mat K * mat K * ivec * Z * bool) => let '(_, _, ip', ret, brk) := st in
    if brk : bool then 1 <= ret < k else ret = 0 /\ piv_inv n k ip').
  apply wp_bind. apply wp_mono with (P := P n).
  - assert (H1 : P 1 (Ar, Ai, ip0, 0, false)).
    { cbn. split; [reflexivity|]. split; [intros; lia|]. unfold ip0. rewrite upd_same. reflexivity. }
    destruct (Z.eqb_spec n 1); cbn [negb]; [subst n; exact H1|].
    replace (P n) with (P (n - 1 + 1)) by (f_equal; lia).
    apply forM_ind; [lia|exact H1|].
    intros k [[[[A1 A2] ip1] r1] b1] Hk HP. destruct b1.
    + cbn in HP |- *. lia.
    + cbn in HP. destruct HP as [_ HP]. eapply wp_mono; [apply dechc_step_safe; lia|].
      intros [[[[A3 A4] ip2] r2] b2] [Hs Hb]. destruct b2; cbn; [lia|]. split; [exact Hb|]. eapply piv_inv_step; eauto; lia.
  - intros [[[[A1 A2] ip1] r1] b1] HP. st. destruct (_ =? _)%num.
    + cbn [wp]. lia.
    + cbn [wp]. destruct b1; cbn in HP; [split; lia|]. destruct HP as [-> HP]. split; [lia|auto].
Qed.
Lemma solhc_div_safe n k (Ar Ai : mat K) B : 1 <= k <= n -> wp (solhc_div n k Ar Ai B) (fun _ => True).
Proof. intros H. unfold solhc_div. destruct B as [Br Bi]. st. exact Logic.I. Qed.
Lemma solhc_safe_lemma n (Ar Ai : mat K) ip B : 1 <= n -> piv_inv n n ip ->
  wp (solhc n Ar Ai ip B) (fun _ => True).
Proof.
  intros H [Hp _]. unfold solhc. apply wp_bind. apply wp_mono with (P := fun _ => True).
  - destruct (negb _); [|exact Logic.I]. apply wp_bind. apply wp_mono with (P := fun _ => True).
    + apply forM_total. intros k [B1 B1'] Hk. unfold solhc_fwd. specialize (Hp k). st.
      apply forM_total. intros i [B2 B2'] Hi. st. exact Logic.I.
    + intros B1 _. apply forM_total. intros kb B2 Hk. unfold solhc_bwd. cbv zeta.
      apply wp_bind. eapply wp_mono; [apply solhc_div_safe; lia|]. intros [B3 B3'] _. st.
      apply forM_total. intros i [B4 B4'] Hi. st. exact Logic.I.
  - intros B1 _. apply solhc_div_safe. lia.
Qed.

(* householder, n >= 2 *)
Lemma hh_body_safe n (A : mat K) tau j (Y : vec K) : 1 <= j <= n - 1 -> wp (hh_body n A tau j Y) (fun _ => True).
Proof.
  intros H. unfold hh_body. st. apply wp_bind. apply wp_mono with (P := fun _ => True).
  - apply forM_total. intros i s Hi. st. exact Logic.I.
  - intros s _. st. apply forM_total. intros i Y1 Hi. st. rewrite wr_ok by lia. exact Logic.I.
Qed.
Lemma hh_up n (A : mat K) tau : forall d fuel j (Y : vec K), (d < fuel)%nat -> Z.of_nat d = n - 1 - j -> 1 <= j ->
  wp (hh_loop fuel n A tau j (n - 1) 1 Y) (fun _ => True).
Proof.
  induction d as [|d IH]; intros [|fuel] j Y Hf Hd Hj; try lia; cbn [hh_loop].
  - replace j with (n - 1) by lia. rewrite Z.eqb_refl. exact Logic.I.
  - destruct (Z.eqb_spec j (n - 1)); [exact Logic.I|]. apply wp_bind.
    eapply wp_mono; [apply hh_body_safe; lia|]. intros Y1 _. apply IH; lia.
Qed.
Lemma hh_down n (A : mat K) tau : forall d fuel j (Y : vec K), (d < fuel)%nat -> Z.of_nat d = j -> j <= n - 1 ->
  wp (hh_loop fuel n A tau j 0 (-1) Y) (fun _ => True).
Proof.
  induction d as [|d IH]; intros [|fuel] j Y Hf Hd Hj; try lia; cbn [hh_loop].
  - replace j with 0 by lia. exact Logic.I.
  - destruct (Z.eqb_spec j 0); [exact Logic.I|]. apply wp_bind.
    eapply wp_mono; [apply hh_body_safe; lia|]. intros Y1 _. apply IH; lia.
Qed.
Lemma householder_safe_lemma n (A : mat K) tau (X : vec K) fuel dir : 2 <= n -> (Z.to_nat n <= fuel)%nat ->
  wp (householder fuel n A tau X dir) (fun _ => True).
Proof.
  intros H Hf. unfold householder. destruct dir.
  - apply (hh_up n A tau (Z.to_nat (n - 2))); lia.
  - apply (hh_down n A tau (Z.to_nat (n - 2))); lia.
Qed.
End Safe.
