(* Polynomials in the Chebyshev basis: integer coefficient lists enclosing an exact
   polynomial up to an error counted in the l1 norm of the coefficients. *)
From Coq Require Import Reals Lra Lia List ZArith Psatz.
Import ListNotations.
Open Scope R_scope.

Fixpoint Tn (n : nat) (x : R) : R :=
  match n with
  | O => 1
  | S O => x
  | S (S m as k) => 2 * x * Tn k x - Tn m x
  end.
Lemma Tn_SS n x : Tn (S (S n)) x = 2 * x * Tn (S n) x - Tn n x.
Proof. reflexivity. Qed.
Lemma Tn_cos n t : Tn n (cos t) = cos (INR n * t).
Proof.
  enough (H : Tn n (cos t) = cos (INR n * t) /\ Tn (S n) (cos t) = cos (INR (S n) * t)) by tauto.
  induction n as [|n [IH1 IH2]].
  - split; cbn [Tn INR]; [now rewrite Rmult_0_l, cos_0|now rewrite Rmult_1_l].
  - split; [assumption|]. rewrite Tn_SS, IH1, IH2.
    replace (INR (S (S n)) * t) with (INR (S n) * t + t) by (rewrite (S_INR (S n)); ring).
    replace (INR n * t) with (INR (S n) * t - t) by (rewrite (S_INR n); ring).
    rewrite cos_plus, cos_minus. ring.
Qed.
Lemma Tn_bound n x : -1 <= x <= 1 -> Rabs (Tn n x) <= 1.
Proof.
  intros Hx. rewrite <- (cos_acos x Hx), Tn_cos. apply Rabs_le. apply COS_bound.
Qed.
Lemma Tn_1 n : Tn n 1 = 1.
Proof. rewrite <- cos_0, Tn_cos, Rmult_0_r. reflexivity. Qed.

(* sum of l_i T_(k+i)(x) *)
Fixpoint evn (k : nat) (l : list R) (x : R) : R :=
  match l with [] => 0 | c :: t => c * Tn k x + evn (S k) t x end.
Definition ev := evn 0.
Fixpoint norm1 (l : list R) : R := match l with [] => 0 | c :: t => Rabs c + norm1 t end.
Lemma norm1_pos l : 0 <= norm1 l.
Proof. induction l; cbn; [lra|]. pose proof (Rabs_pos a). lra. Qed.

Fixpoint rpadd (a b : list R) : list R :=
  match a, b with
  | [], _ => b
  | _, [] => a
  | x :: a', y :: b' => (x + y) :: rpadd a' b'
  end.
Definition rdbl (l : list R) : list R := match l with [] => [] | c :: t => 2 * c :: t end.
Definition rtwox (l : list R) : list R := rpadd (0 :: rdbl l) (tl l).
Definition rscal (c : R) (l : list R) : list R := map (Rmult c) l.

Lemma evn_rpadd a : forall b k x, evn k (rpadd a b) x = evn k a x + evn k b x.
Proof. induction a as [|u a IH]; intros [|v b] k x; cbn; rewrite ?IH; ring. Qed.
Lemma evn_rscal c l : forall k x, evn k (rscal c l) x = c * evn k l x.
Proof. induction l as [|u l IH]; intros k x; cbn; [ring|]. fold (rscal c l). rewrite IH. ring. Qed.
Lemma evn_shift l : forall k x, evn (S k) l x + evn (S (S (S k))) l x = 2 * x * evn (S (S k)) l x.
Proof.
  induction l as [|u l IH]; intros k x; cbn [evn]; [ring|].
  specialize (IH (S k) x). rewrite (Tn_SS (S k)).
  replace (u * Tn (S k) x + evn (S (S k)) l x + (u * (2 * x * Tn (S (S k)) x - Tn (S k) x) + evn (S (S (S (S k)))) l x))
    with (2 * x * (u * Tn (S (S k)) x) + (evn (S (S k)) l x + evn (S (S (S (S k)))) l x)) by ring.
  rewrite IH. ring.
Qed.
Lemma evn_shift0 l x : evn 0 l x + evn 2 l x = 2 * x * evn 1 l x.
Proof.
  destruct l as [|u l]; cbn [evn]; [ring|]. pose proof (evn_shift l 0 x) as H.
  rewrite Tn_SS. cbn [Tn].
  replace (u * 1 + evn 1 l x + (u * (2 * x * x - 1) + evn 3 l x)) with (2 * x * (u * x) + (evn 1 l x + evn 3 l x)) by ring.
  rewrite H. ring.
Qed.
Lemma ev_rtwox l x : ev (rtwox l) x = 2 * x * ev l x.
Proof.
  unfold rtwox, ev. rewrite evn_rpadd. destruct l as [|c t]; cbn [tl rdbl evn]; [ring|].
  pose proof (evn_shift0 t x) as H. cbn [Tn].
  replace (0 * 1 + (2 * c * x + evn 2 t x) + evn 0 t x) with (2 * x * (c * 1) + (evn 0 t x + evn 2 t x)) by ring.
  rewrite H. ring.
Qed.
Lemma norm1_rpadd a : forall b, norm1 (rpadd a b) <= norm1 a + norm1 b.
Proof.
  induction a as [|u a IH]; intros [|v b]; cbn; try lra.
  specialize (IH b). pose proof (Rabs_triang u v). lra.
Qed.
Lemma norm1_rscal c l : norm1 (rscal c l) = Rabs c * norm1 l.
Proof. induction l as [|u l IH]; cbn; [ring|]. fold (rscal c l). rewrite IH, Rabs_mult. ring. Qed.
Lemma norm1_rtwox l : norm1 (rtwox l) <= 2 * norm1 l.
Proof.
  unfold rtwox. eapply Rle_trans; [apply norm1_rpadd|]. destruct l as [|c t]; cbn [tl rdbl norm1].
  - rewrite Rabs_R0. lra.
  - rewrite Rabs_R0, Rabs_mult, (Rabs_right 2) by lra. pose proof (norm1_pos t). lra.
Qed.
Lemma length_rpadd a : forall b, length (rpadd a b) = Nat.max (length a) (length b).
Proof. induction a as [|u a IH]; intros [|v b]; cbn; try reflexivity. now rewrite IH. Qed.
Lemma length_rscal c l : length (rscal c l) = length l.
Proof. apply map_length. Qed.
Lemma length_rtwox l : length (rtwox l) = S (length l).
Proof. unfold rtwox. rewrite length_rpadd. destruct l; cbn [length rdbl tl]; lia. Qed.
Lemma evn_bound l : forall k x, -1 <= x <= 1 -> Rabs (evn k l x) <= norm1 l.
Proof.
  induction l as [|c l IH]; intros k x Hx; cbn; [rewrite Rabs_R0; lra|].
  eapply Rle_trans; [apply Rabs_triang|]. specialize (IH (S k) x Hx). rewrite Rabs_mult.
  pose proof (Tn_bound k x Hx). pose proof (Rabs_pos c). nra.
Qed.

(* ---- integer lists --------------------------------------------------------- *)
Open Scope Z_scope.
Fixpoint padd (a b : list Z) : list Z :=
  match a, b with
  | [], _ => b
  | _, [] => a
  | x :: a', y :: b' => (x + y) :: padd a' b'
  end.
Definition dbl (l : list Z) : list Z := match l with [] => [] | c :: t => 2 * c :: t end.
Definition twox (l : list Z) : list Z := padd (0 :: dbl l) (tl l).
Definition scal (c : Z) (l : list Z) : list Z := map (Z.mul c) l.
Definition rdiv (d : Z) (l : list Z) : list Z := map (fun x => x / d) l.
(* the same for d = 2^b*c *)
Definition sdiv (b c : Z) (l : list Z) : list Z := map (fun x => Z.shiftr x b / c) l.

Definition toR (l : list Z) : list R := map IZR l.
Lemma toR_padd a : forall b, toR (padd a b) = rpadd (toR a) (toR b).
Proof. induction a as [|u a IH]; intros [|v b]; cbn; try reflexivity. unfold toR in *. rewrite IH, plus_IZR. reflexivity. Qed.
Lemma toR_scal c l : toR (scal c l) = rscal (IZR c) (toR l).
Proof.
  unfold toR, scal, rscal. rewrite !map_map. apply map_ext. intros; apply mult_IZR.
Qed.
Lemma toR_twox l : toR (twox l) = rtwox (toR l).
Proof.
  unfold twox, rtwox. rewrite toR_padd. destruct l as [|c t]; [reflexivity|].
  cbn [dbl tl toR map rdbl]. rewrite mult_IZR. reflexivity.
Qed.
Lemma sdiv_rdiv b c l : 0 <= b -> 0 < c -> sdiv b c l = rdiv (2 ^ b * c) l.
Proof.
  intros Hb Hc. unfold sdiv, rdiv. apply map_ext. intros x.
  rewrite Z.shiftr_div_pow2 by assumption. rewrite Z.div_div; [reflexivity| |assumption].
  pose proof (Z.pow_pos_nonneg 2 b). lia.
Qed.

(* remainders of the division, as fractions *)
Lemma rdiv_rest d l : 0 < d -> exists r, length r = length l /\ (norm1 r <= INR (length l))%R /\
  forall k x, (evn k (toR l) x = IZR d * (evn k (toR (rdiv d l)) x + evn k r x))%R.
Proof.
  intros Hd. induction l as [|c l (r & Hl & Hn & He)].
  - exists []. cbn. split; [reflexivity|]. split; [lra|]. intros; ring.
  - exists ((IZR (c mod d) / IZR d)%R :: r).
    assert (Hd' : (0 < IZR d)%R) by (apply (IZR_lt 0); assumption).
    assert (Hm := Z.mod_pos_bound c d Hd).
    split; [cbn; now rewrite Hl|]. split.
    + change (length (c :: l)) with (S (length l)). rewrite S_INR. cbn [norm1].
      assert (Rabs (IZR (c mod d) / IZR d) <= 1)%R; [|lra].
      rewrite Rabs_right.
      * apply (Rmult_le_reg_r (IZR d)); [assumption|]. unfold Rdiv. rewrite Rmult_assoc, Rinv_l, Rmult_1_r, Rmult_1_l by lra.
        apply IZR_le. lia.
      * apply Rle_ge. apply Rmult_le_pos; [apply IZR_le; lia|]. left. now apply Rinv_0_lt_compat.
    + intros k x. cbn [toR map rdiv evn]. fold (toR l). rewrite He. fold (rdiv d l). fold (toR (rdiv d l)).
      rewrite (Z.div_mod c d) at 1 by lia. rewrite plus_IZR, mult_IZR. field. lra.
Qed.

(* ---- enclosures -------------------------------------------------------------- *)
Open Scope R_scope.
Definition enc (Sc : R) (P : list Z) (e : R) (phi : R -> R) : Prop :=
  exists dl, norm1 dl <= e /\ (length dl <= length P)%nat /\ forall x, Sc * phi x = ev (toR P) x + ev dl x.

Lemma length_toR l : length (toR l) = length l. Proof. apply map_length. Qed.
Lemma length_padd a b : length (padd a b) = Nat.max (length a) (length b).
Proof. rewrite <- length_toR, toR_padd, length_rpadd, !length_toR. reflexivity. Qed.
Lemma length_twox l : length (twox l) = S (length l).
Proof. rewrite <- length_toR, toR_twox, length_rtwox, length_toR. reflexivity. Qed.
Lemma length_scal c l : length (scal c l) = length l. Proof. apply map_length. Qed.
Lemma length_rdiv c l : length (rdiv c l) = length l. Proof. apply map_length. Qed.

Lemma enc_ext Sc P e phi psi : (forall x, phi x = psi x) -> enc Sc P e phi -> enc Sc P e psi.
Proof. intros H (dl & ? & ? & E). exists dl. repeat split; trivial. intros x. now rewrite <- H. Qed.
Lemma enc_weaken Sc P e e' phi : e <= e' -> enc Sc P e phi -> enc Sc P e' phi.
Proof. intros H (dl & ? & ? & E). exists dl. repeat split; trivial. lra. Qed.
Lemma enc_rescale Sc P e phi k : k <> 0 -> enc Sc P e phi -> enc (Sc * k) P e (fun x => phi x / k).
Proof. intros H (dl & ? & ? & E). exists dl. repeat split; trivial. intros x. rewrite <- E. field. assumption. Qed.
Lemma enc_padd Sc P e phi Q f psi : enc Sc P e phi -> enc Sc Q f psi -> enc Sc (padd P Q) (e + f) (fun x => phi x + psi x).
Proof.
  intros (dl & A1 & A2 & A3) (dm & B1 & B2 & B3). exists (rpadd dl dm). repeat split.
  - eapply Rle_trans; [apply norm1_rpadd|lra].
  - rewrite length_rpadd, length_padd. lia.
  - intros x. rewrite toR_padd. unfold ev in *. rewrite !evn_rpadd. specialize (A3 x). specialize (B3 x). lra.
Qed.
Lemma enc_scal Sc P e phi c : enc Sc P e phi -> enc Sc (scal c P) (Rabs (IZR c) * e) (fun x => IZR c * phi x).
Proof.
  intros (dl & A1 & A2 & A3). exists (rscal (IZR c) dl). repeat split.
  - rewrite norm1_rscal. apply Rmult_le_compat_l; [apply Rabs_pos|assumption].
  - rewrite length_rscal, length_scal. assumption.
  - intros x. rewrite toR_scal. unfold ev in *. rewrite !evn_rscal. rewrite <- Rmult_plus_distr_l, <- A3. ring.
Qed.
Lemma enc_twox Sc P e phi : enc Sc P e phi -> enc Sc (twox P) (2 * e) (fun x => 2 * x * phi x).
Proof.
  intros (dl & A1 & A2 & A3). exists (rtwox dl). repeat split.
  - eapply Rle_trans; [apply norm1_rtwox|lra].
  - rewrite length_rtwox, length_twox. lia.
  - intros x. rewrite toR_twox, !ev_rtwox, <- Rmult_plus_distr_l, <- A3. ring.
Qed.
Lemma enc_rdiv Sc P e phi d : (0 < d)%Z -> enc Sc P e phi ->
  enc (Sc / IZR d) (rdiv d P) (e / IZR d + INR (length P)) phi.
Proof.
  intros Hd (dl & A1 & A2 & A3). destruct (rdiv_rest d P Hd) as (r & Hl & Hn & He).
  assert (Hd' : 0 < IZR d) by (apply (IZR_lt 0); assumption).
  exists (rpadd (rscal (/ IZR d) dl) r). repeat split.
  - eapply Rle_trans; [apply norm1_rpadd|]. rewrite norm1_rscal, Rabs_right by (left; now apply Rinv_0_lt_compat).
    apply Rplus_le_compat; [|assumption]. unfold Rdiv. rewrite (Rmult_comm e).
    apply Rmult_le_compat_l; [left; now apply Rinv_0_lt_compat|assumption].
  - rewrite length_rpadd, length_rscal, length_rdiv. lia.
  - intros x. unfold ev in *. rewrite evn_rpadd, evn_rscal. specialize (He 0%nat x). specialize (A3 x).
    rewrite He in A3. apply (Rmult_eq_reg_l (IZR d)); [|lra].
    replace (IZR d * (Sc / IZR d * phi x)) with (Sc * phi x) by (field; lra). rewrite A3. field. lra.
Qed.
Lemma enc_const c : enc 1 [c] 0 (fun _ => IZR c).
Proof. exists []. repeat split; cbn; [lra|lia|]. intros x. unfold ev. cbn. ring. Qed.

(* ---- multiplication by T_k and by the polynomials of the second kind ------------- *)
Lemma Tn_prod k : forall i x, Tn (i + k + k) x + Tn i x = 2 * Tn (i + k) x * Tn k x.
Proof.
  enough (H : forall i x, Tn (i + k + k) x + Tn i x = 2 * Tn (i + k) x * Tn k x /\
    Tn (i + S k + S k) x + Tn i x = 2 * Tn (i + S k) x * Tn (S k) x) by (intros; apply H).
  induction k as [|k IH]; intros i x.
  - rewrite !Nat.add_0_r. split; [cbn [Tn]; ring|]. replace (i + 1 + 1)%nat with (S (S i)) by lia.
    replace (i + 1)%nat with (S i) by lia. rewrite Tn_SS. cbn [Tn]. ring.
  - split; [apply IH|]. destruct (IH (S (S i)) x) as [A _]. destruct (IH (S i) x) as [_ B].
    replace (S (S i) + k + k)%nat with (i + k + k + 2)%nat in A by lia.
    replace (S i + S k + S k)%nat with (S (i + k + k + 2)) in B by lia.
    replace (S i + S k)%nat with (i + k + 2)%nat in B by lia. replace (S (S i) + k)%nat with (i + k + 2)%nat in A by lia.
    replace (i + S (S k) + S (S k))%nat with (S (S (i + k + k + 2))) by lia.
    replace (i + S (S k))%nat with (i + k + 2)%nat by lia.
    rewrite (Tn_SS i) in A. rewrite (Tn_SS k), (Tn_SS (i + k + k + 2)). nra.
Qed.
Lemma mono n (c : R) : exists l, norm1 l = Rabs c /\ length l = S n /\ forall k x, evn k l x = c * Tn (k + n) x.
Proof.
  induction n as [|n (l & A & B & C)].
  - exists [c]. cbn. split; [ring|]. split; [reflexivity|]. intros. rewrite Nat.add_0_r. ring.
  - exists (0 :: l). cbn [norm1 length evn]. split; [rewrite A, Rabs_R0; ring|]. split; [now rewrite B|].
    intros k x. rewrite C. replace (S k + n)%nat with (k + S n)%nat by lia. ring.
Qed.
Lemma tmul k l : exists l', norm1 l' <= norm1 l /\ (length l' <= k + length l)%nat /\ forall x, ev l' x = Tn k x * ev l x.
Proof.
  enough (H : forall i, exists l', norm1 l' <= norm1 l /\ (length l' <= k + i + length l)%nat /\ forall x, ev l' x = Tn k x * evn i l x).
  { destruct (H 0%nat) as (l' & A & B & C). exists l'. rewrite Nat.add_0_r in B. repeat split; assumption. }
  induction l as [|c l IH]; intros i.
  - exists []. cbn. split; [lra|]. split; [lia|]. intros. unfold ev. cbn. ring.
  - destruct (IH (S i)) as (l1 & A & B & C).
    destruct (mono (i + k) (c / 2)) as (l2 & A2 & B2 & C2).
    destruct (mono (if Nat.leb k i then i - k else k - i) (c / 2)) as (l3 & A3 & B3 & C3).
    exists (rpadd l1 (rpadd l2 l3)). split; [|split].
    + cbn [norm1]. assert (N1 := norm1_rpadd l1 (rpadd l2 l3)). assert (N2 := norm1_rpadd l2 l3).
      assert (Rabs (c / 2) = Rabs c / 2) by (unfold Rdiv; rewrite Rabs_mult, (Rabs_right (/ 2)); lra). lra.
    + rewrite !length_rpadd, B2, B3. cbn [length]. destruct (Nat.leb k i) eqn:E; [apply Nat.leb_le in E|apply Nat.leb_gt in E]; lia.
    + intros x. unfold ev in *. rewrite !evn_rpadd, C, C2, C3. cbn [evn]. rewrite !Nat.add_0_l.
      assert (HP : Tn (i + k) x + Tn (if Nat.leb k i then i - k else k - i) x = 2 * Tn i x * Tn k x).
      { destruct (Nat.leb k i) eqn:E; [apply Nat.leb_le in E|apply Nat.leb_gt in E].
        - assert (P := Tn_prod k (i - k) x). replace (i - k + k)%nat with i in P by lia. exact P.
        - assert (P := Tn_prod i (k - i) x). replace (k - i + i)%nat with k in P by lia.
          rewrite Nat.add_comm, P. ring. }
      replace (Tn k x * evn (S i) l x + (c / 2 * Tn (i + k) x + c / 2 * Tn (if Nat.leb k i then i - k else k - i) x))
        with (Tn k x * evn (S i) l x + c / 2 * (Tn (i + k) x + Tn (if Nat.leb k i then i - k else k - i) x)) by ring.
      rewrite HP. field.
Qed.
(* second kind, shifted: 0, 1, 2x, ... *)
Fixpoint Vn (n : nat) (x : R) : R :=
  match n with
  | O => 0
  | S O => 1
  | S (S m as k) => 2 * x * Vn k x - Vn m x
  end.
Lemma Vn_SS n x : Vn (S (S n)) x = 2 * x * Vn (S n) x - Vn n x.
Proof. reflexivity. Qed.
Lemma Vn_Tn n x : Vn (S (S n)) x = 2 * Tn (S n) x + Vn n x.
Proof.
  enough (H : Vn (S (S n)) x = 2 * Tn (S n) x + Vn n x /\ Vn (S (S (S n))) x = 2 * Tn (S (S n)) x + Vn (S n) x) by apply H.
  induction n as [|n [A B]].
  - cbn [Vn Tn]. split; ring.
  - split; [exact B|]. assert (E1 := Vn_SS (S (S n)) x). assert (E2 := Tn_SS (S n) x). assert (E3 := Vn_SS n x).
    rewrite E1, E2, B. rewrite A in E3 at 1. rewrite A. lra.
Qed.
Lemma umul k l : exists l', norm1 l' <= INR k * norm1 l /\ (length l' <= pred k + length l)%nat /\ forall x, ev l' x = Vn k x * ev l x.
Proof.
  enough (H : (exists l', norm1 l' <= INR k * norm1 l /\ (length l' <= pred k + length l)%nat /\ forall x, ev l' x = Vn k x * ev l x) /\
    (exists l', norm1 l' <= INR (S k) * norm1 l /\ (length l' <= k + length l)%nat /\ forall x, ev l' x = Vn (S k) x * ev l x)) by apply H.
  induction k as [|k [(l1 & A1 & B1 & C1) (l2 & A2 & B2 & C2)]].
  - split.
    + exists []. cbn. split; [lra|]. split; [lia|]. intros. unfold ev. cbn. ring.
    + exists l. cbn [INR Vn]. split; [lra|]. split; [lia|]. intros. ring.
  - split; [exists l2; repeat split; assumption|].
    destruct (tmul (S k) l) as (l3 & A3 & B3 & C3). exists (rpadd (rscal 2 l3) l1). split; [|split].
    + assert (N := norm1_rpadd (rscal 2 l3) l1). rewrite norm1_rscal, (Rabs_right 2) in N by lra. rewrite !S_INR. lra.
    + rewrite length_rpadd, length_rscal. lia.
    + intros x. unfold ev in *. rewrite evn_rpadd, evn_rscal, C3, C1, Vn_Tn. ring.
Qed.
