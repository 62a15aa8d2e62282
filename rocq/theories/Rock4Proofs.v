(* Proofs about the stage selection and the kernel of Rock4 (any arithmetic), and the kernel
   over the reals. *)
From Coq Require Import Reals Lra FunctionalExtensionality.
From Verif Require Import Base HessModel Spec VecFun CMacros Rock4Model Rock4Spec.
Open Scope Z_scope.

(* ---- selection ----------------------------------------------------------------------------- *)
Definition chosen (m : Z) : Z * Z * Z := match mdegre m 0 with Ok x => x | _ => (0, 0, 0) end.
Definition smallestb (m d : Z) : bool :=
  existsb (Z.eqb d) MS && (m <=? d) && forallb (fun d' => (d' <? m) || (d <=? d')) MS.
Definition right_blockb (d i r : Z) : bool :=
  (1 <=? i) && (i <=? 50) && (nth (Z.to_nat (i - 1)) MS 0 =? d) && (r =? block_start i).
Lemma smallestb_ok m d : smallestb m d = true -> smallest_degree m d.
Proof.
  unfold smallestb. rewrite !andb_true_iff. intros [[H1 H2] H3]. repeat split.
  - apply existsb_exists in H1. destruct H1 as (x & Hx & He). apply Z.eqb_eq in He. congruence.
  - lia.
  - intros d' Hd Hm. rewrite forallb_forall in H3. specialize (H3 d' Hd). apply orb_true_iff in H3. lia.
Qed.
Lemma right_blockb_ok d i r : right_blockb d i r = true -> right_block d i r.
Proof. unfold right_blockb, right_block. rewrite !andb_true_iff. lia. Qed.
Lemma mdegre_indep n : forall i m a b r x, mdegre_loop n i m a r = Ok x ->
  (exists d j s, mdegre_loop n i m b r = Ok (d, j, s) /\ (x = (d, j, s) \/ (j = b /\ d = m))).
Proof.
  induction n as [|n IH]; intros i m a b r x H; cbn [mdegre_loop] in *.
  - do 3 eexists. split; [reflexivity|]. right. auto.
  - destruct (ms i) as [v| | |]; cbn [bind] in *; try discriminate.
    destruct (m =? 0); [discriminate|]. destruct (1 <=? Z.quot v m).
    + injection H as <-. do 3 eexists. split; [reflexivity|]. left. reflexivity.
    + eapply IH; exact H.
Qed.
Definition sel_ok (m : Z) : bool :=
  match mdegre m 0 with Ok (d, i, r) => smallestb m d && right_blockb d i r && negb (i =? 0) | _ => false end.
Lemma sel_ok_all : forallb sel_ok (zrange 1 148) = true.
Proof. vm_compute. reflexivity. Qed.
Lemma mdegre_loop_same n : forall i m a b r d j s, mdegre_loop n i m a r = Ok (d, j, s) -> j <> a -> 
  mdegre_loop n i m b r = Ok (d, j, s).
Proof.
  induction n as [|n IH]; intros i m a b r d j s H Hn; cbn [mdegre_loop] in *.
  - congruence.
  - destruct (ms i) as [v| | |]; cbn [bind] in *; try discriminate.
    destruct (m =? 0); [discriminate|]. destruct (1 <=? Z.quot v m); [exact H|]. eapply IH; eassumption.
Qed.
Lemma selection m mp : 1 <= m <= 148 ->
  wp (mdegre m mp) (fun x => let '(d, i, r) := x in smallest_degree m d /\ right_block d i r).
Proof.
  intros Hm. pose proof sel_ok_all as H. rewrite forallb_forall in H.
  specialize (H m (proj2 (zrange_In 1 148 m) Hm)). unfold sel_ok in H.
  destruct (mdegre m 0) as [[[d i] r]| | |] eqn:E0; try discriminate.
  rewrite !andb_true_iff in H. destruct H as [[H1 H2] H3].
  unfold mdegre in *. rewrite (mdegre_loop_same _ _ _ _ mp _ _ _ _ E0) by lia.
  split; [apply smallestb_ok; exact H1|apply right_blockb_ok; exact H2].
Qed.
Lemma block_bounds_all : forallb (fun i => (1 <=? block_start i) &&
    (block_start i + 2 * nth (Z.to_nat (i - 1)) MS 0 - 2 <=? 4382) && (1 <=? nth (Z.to_nat (i - 1)) MS 0)) (zrange 1 50) = true.
Proof. vm_compute. reflexivity. Qed.
Lemma right_block_bounds d i r : right_block d i r -> 1 <= i <= 50 /\ 1 <= d /\ 1 <= r /\ r + 2 * d - 2 <= 4382.
Proof.
  intros (Hi & Hd & Hr). pose proof block_bounds_all as H. rewrite forallb_forall in H.
  specialize (H i (proj2 (zrange_In 1 50 i) Hi)). rewrite !andb_true_iff in H. lia.
Qed.
Lemma right_block_table d i r : right_block d i r -> In d MS.
Proof. intros (Hi & Hd & _). rewrite <- Hd. apply nth_In. change (Datatypes.length MS) with 50%nat. lia. Qed.
Lemma table_self d : In d MS -> smallest_degree d d.
Proof. intros H. repeat split; [exact H|lia|auto]. Qed.

Lemma NoDup8 (a b c d e f g h : Z) : NoDup [a; b; c; d; e; f; g; h] ->
  a <> b /\ a <> c /\ a <> d /\ a <> e /\ a <> f /\ a <> g /\ a <> h /\ b <> c /\ b <> d /\ b <> e /\ b <> f /\ b <> g /\ b <> h /\
  c <> d /\ c <> e /\ c <> f /\ c <> g /\ c <> h /\ d <> e /\ d <> f /\ d <> g /\ d <> h /\ e <> f /\ e <> g /\ e <> h /\
  f <> g /\ f <> h /\ g <> h.
Proof.
  intros H. repeat match goal with H : NoDup (_ :: _) |- _ => inversion H; clear H; subst end. cbn [In] in *.
  repeat match goal with H : ~ (_ \/ _) |- _ => apply Decidable.not_or in H; destruct H end.
  repeat split; apply not_eq_sym; assumption.
Qed.

Lemma wp_val {A B} (a : A) (g : A -> out B) Q : (forall x, x = a -> wp (g x) Q) -> wp (bind (Ok a) g) Q.
Proof. intros H. exact (H a eq_refl). Qed.
(* ---- kernel -------------------------------------------------------------------------------- *)
Section Kernel.
Context {K : num}.
Variable Sg : Type.
Variable userF : Sg -> vec K -> Sg * vec K.
Variables RECF FPA FPB FPBE : Z -> K.
Variable size : Z.
Variables atol rtol : K.
Variable f : vec K -> vec K.
Hypothesis pureF : forall s v, snd (userF s v) = f v.
Definition ptrs (e : est (K := K) Sg) : list Z := [e_y e; e_fn e; e_k1 e; e_k2 e; e_k3 e; e_k4 e; e_temp e; e_g0 e].

Lemma hset_eq (H : heap (K := K)) p v : hset H p v p = v.
Proof. unfold hset. rewrite Z.eqb_refl. reflexivity. Qed.
Lemma hset_ne (H : heap (K := K)) p v q : q <> p -> hset H p v q = H q.
Proof. unfold hset. destruct (Z.eqb_spec q p); congruence. Qed.
Lemma callF_eq H s p q : exists s', callF userF H s p q = (hset H q (f (H p)), s').
Proof. unfold callF. pose proof (pureF s (H p)). destruct (userF s (H p)) as [s' v]. cbn in *. subst. eauto. Qed.
Ltac ne := first [assumption | apply not_eq_sym; assumption].
(* advance the facts known about a heap over an assignment E : Hn = hset Ho p v *)
Ltac heap_step Hn E :=
  match type of E with _ = hset ?Ho ?p ?v =>
    repeat match goal with F : Ho ?q = _ |- _ => progress rewrite F in E end;
    assert (Hn p = ltac:(match type of E with _ = hset _ _ ?v => exact v end)) by (rewrite E; apply hset_eq);
    repeat match goal with F : Ho ?q = ?w |- _ =>
      first [ assert (Hn q = w) by (rewrite E, hset_ne by ne; exact F); clear F | clear F ] end;
    clear E
  end.
Ltac hs := repeat first [rewrite hset_eq | rewrite hset_ne by ne].

Variable h : K.
Variable r : Z.
Variable y : vec K.
(* the recurrence as the code evaluates it *)
Definition c_mu (j : Z) : K := RECF (r + 2 * (j - 2) + 1 - 1).
Definition c_ka (j : Z) : K := RECF (r + 2 * (j - 2) + 2 - 1).
Fixpoint gs (n : nat) : vec K * vec K :=
  match n with
  | O => (y, y)
  | S O => (v_x_lc1 y (h * RECF (r - 1))%num (f y), y)
  | S m => let '(g, gp) := gs m in
           (v_lc3 (h * c_mu (Z.of_nat n))%num (f g) (nlit 1 0 - (- c_ka (Z.of_nat n)))%num g (- c_ka (Z.of_nat n))%num gp, g)
  end.
Lemma gs_SS m : gs (S (S m)) = (v_lc3 (h * c_mu (Z.of_nat (S (S m))))%num (f (fst (gs (S m)))) (nlit 1 0 - (- c_ka (Z.of_nat (S (S m)))))%num (fst (gs (S m)))
    (- c_ka (Z.of_nat (S (S m))))%num (fst (gs m)), fst (gs (S m))).
Proof.
  assert (Hp : snd (gs (S m)) = fst (gs m)).
  { destruct m as [|m]; [reflexivity|]. cbn [gs]. destruct (match m with O => _ | _ => _ end). reflexivity. }
  cbn [gs]. cbn [gs] in Hp. destruct (match m with O => _ | S _ => _ end) as [a b]. cbn in Hp. subst b. reflexivity.
Qed.
Definition G (j : Z) : vec K := fst (gs (Z.to_nat j)).
Lemma G_0 : G 0 = y.
Proof. reflexivity. Qed.
Lemma G_1 : G 1 = v_x_lc1 y (h * RECF (r - 1))%num (f y).
Proof. reflexivity. Qed.
Lemma G_rec j : 2 <= j -> G j = v_lc3 (h * c_mu j)%num (f (G (j - 1))) (nlit 1 0 - (- c_ka j))%num (G (j - 1)) (- c_ka j)%num (G (j - 2)).
Proof.
  intros Hj. unfold G. replace (Z.to_nat j) with (S (S (Z.to_nat (j - 2)))) by lia.
  rewrite gs_SS. cbn [fst]. replace (Z.to_nat (j - 1)) with (S (Z.to_nat (j - 2))) by lia.
  replace (Z.of_nat (S (S (Z.to_nat (j - 2))))) with j by lia. reflexivity.
Qed.

Lemma k_loop_spec d i H0 s0 pa pb k1 py fn : right_block d i r -> 2 <= d ->
  NoDup [pa; pb; k1; py; fn] -> H0 py = y -> H0 pa = G 1 ->
  wp (k_loop userF RECF r d h k1 py (H0, s0, pa, pb)) (fun st =>
    let '(H, s, g1, g0) := st in
    ((g1 = pa /\ g0 = pb) \/ (g1 = pb /\ g0 = pa)) /\ H g1 = G d /\
    (forall q, q <> pa -> q <> pb -> q <> k1 -> H q = H0 q)).
Proof.
  intros Hb Hd HN Hy Ha. apply right_block_bounds in Hb.
  assert (D : pa <> pb /\ pa <> k1 /\ pa <> py /\ pb <> k1 /\ pb <> py /\ k1 <> py).
  { repeat match goal with H : NoDup (_ :: _) |- _ => inversion H; clear H; subst end. simpl in *. intuition. }
  destruct D as (D1 & D2 & D3 & D4 & D5 & D6).
  set (P := fun (j : Z) (st : heap (K := K) * Sg * Z * Z) => let '(H, s, g1, g0) := st in
    ((g1 = pa /\ g0 = pb) \/ (g1 = pb /\ g0 = pa)) /\ H g1 = G (j - 1) /\ (3 <= j -> H g0 = G (j - 2)) /\
    (forall q, q <> pa -> q <> pb -> q <> k1 -> H q = H0 q)).
  assert (HL : wp (k_loop userF RECF r d h k1 py (H0, s0, pa, pb)) (P (d + 1))).
  2:{ eapply wp_mono; [exact HL|]. intros [[[H s] g1] g0]. unfold P. replace (d + 1 - 1) with d by lia. tauto. }
  unfold k_loop. apply forM_ind; [lia| |].
  - unfold P. replace (2 - 1) with 1 by lia. repeat split; auto. lia.
  - intros j [[[H s] g1] g0] Hj (Hp & Hg1 & Hg0 & Hq).
    assert (Hpy : H py = y) by (rewrite Hq by ne; exact Hy).
    destruct (Z.eqb_spec j 2) as [->|Hj2].
    + unfold t_apply2, recf. rewrite bind_assoc. apply wp_rd; [lia|]. rewrite bind_assoc. apply wp_rd; [lia|].
      destruct (callF_eq H s g1 g0) as [s' ->]. cbn [bind wp].
      replace (2 - 1) with 1 in Hg1 by lia.
      unfold P. split; [tauto|]. replace (2 + 1 - 1) with 2 by lia. replace (2 + 1 - 2) with 1 by lia.
      assert (Hn : g1 <> g0) by (destruct Hp as [[-> ->]|[-> ->]]; ne).
      assert (Hm : py <> g0) by (destruct Hp as [[-> ->]|[-> ->]]; ne).
      split; [|split].
      * hs. rewrite Hg1, Hpy. rewrite (G_rec 2) by lia. unfold c_mu, c_ka.
        change (2 - 1) with 1. change (2 - 2) with 0. rewrite G_0. change (2 * 0) with 0. rewrite Z.add_0_r. reflexivity.
      * intros _. hs. exact Hg1.
      * intros q Q1 Q2 Q3. assert (q <> g0) by (destruct Hp as [[-> ->]|[-> ->]]; ne). hs. apply Hq; ne.
    + unfold t_apply, recf. rewrite bind_assoc. apply wp_rd; [lia|]. rewrite bind_assoc. apply wp_rd; [lia|].
      destruct (callF_eq H s g1 k1) as [s' ->]. cbn [bind wp].
      unfold P. split; [tauto|]. replace (j + 1 - 1) with j by lia. replace (j + 1 - 2) with (j - 1) by lia.
      specialize (Hg0 ltac:(lia)).
      assert (Hn : g1 <> g0 /\ g1 <> k1 /\ g0 <> k1) by (destruct Hp as [[-> ->]|[-> ->]]; repeat split; ne).
      destruct Hn as (N1 & N2 & N3).
      split; [|split].
      * hs. rewrite Hg1, Hg0, (G_rec j) by lia. reflexivity.
      * intros _. hs. exact Hg1.
      * intros q Q1 Q2 Q3. assert (q <> g0) by (destruct Hp as [[-> ->]|[-> ->]]; ne). hs. apply Hq; ne.
Qed.

(* the finishing method as the code evaluates it *)
Definition c_a (i j : Z) : K := FPA ((j - 1) * 50 + i - 1).
Definition c_b (i j : Z) : K := FPB ((j - 1) * 50 + i - 1).
Definition c_e (i j : Z) : K := FPBE ((j - 1) * 50 + i - 1).
Definition x_k1 (g : vec K) := f g.
Definition x_k2 i (g : vec K) := f (v_x_lc1 g (h * c_a i 1)%num (x_k1 g)).
Definition x_k3 i (g : vec K) := f (v_x_lc2 g (h * c_a i 2)%num (x_k1 g) (h * c_a i 3)%num (x_k2 i g)).
Definition x_k4 i (g : vec K) := f (v_x_lc3 g (h * c_a i 4)%num (x_k1 g) (h * c_a i 5)%num (x_k2 i g) (h * c_a i 6)%num (x_k3 i g)).
Definition x_y i (g : vec K) := v_x_lc4 g (h * c_b i 1)%num (x_k1 g) (h * c_b i 2)%num (x_k2 i g) (h * c_b i 3)%num (x_k3 i g) (h * c_b i 4)%num (x_k4 i g).
Definition x_err i (g : vec K) : K :=
  nsqrt (rpp2 size (x_y i g) (h * c_e i 1 - h * c_b i 1)%num (x_k1 g) (h * c_e i 2 - h * c_b i 2)%num (x_k2 i g)
    (h * c_e i 3 - h * c_b i 3)%num (x_k3 i g) (h * c_e i 4 - h * c_b i 4)%num (x_k4 i g) (h * c_e i 5)%num (f (x_y i g)) atol rtol / nlit size 0)%num.

Definition kpost (d i : Z) (e e' : est (K := K) Sg) (err : K) : Prop :=
  let g := G d in
  e_H e' (e_temp e') = x_y i g /\ e_H e' (e_g0 e') = f (x_y i g) /\ err = x_err i g /\
  e_y e' = e_y e /\ e_H e' (e_y e') = e_H e (e_y e) /\
  e_fn e' = e_fn e /\ e_H e' (e_fn e') = e_H e (e_fn e) /\
  e_k1 e' = e_k1 e /\ e_k2 e' = e_k2 e /\ e_k3 e' = e_k3 e /\ e_k4 e' = e_k4 e /\
  ((e_temp e' = e_temp e /\ e_g0 e' = e_g0 e) \/ (e_temp e' = e_g0 e /\ e_g0 e' = e_temp e)) /\
  e_funccal e' = e_funccal e + (d - 1) + 4 + 1.

Lemma kernel_spec d i e : right_block d i r -> NoDup (ptrs e) -> e_H e (e_y e) = y -> e_H e (e_fn e) = f y ->
  wp (kernel userF RECF FPA FPB FPBE size atol rtol d i r e h) (fun x => kpost d i e (fst x) (snd x)).
Proof.
  intros Hb HN Hy Hfn. pose proof (right_block_bounds _ _ _ Hb) as B. unfold ptrs in HN.
  destruct e as [H s fn k1 k2 k3 k4 tp g00 py fc]. cbn [e_y e_fn e_k1 e_k2 e_k3 e_k4 e_temp e_g0 e_H e_f e_funccal] in *.
  apply NoDup8 in HN. destruct HN as (?&?&?&?&?&?&?&?&?&?&?&?&?&?&?&?&?&?&?&?&?&?&?&?&?&?&?&?).
  assert (HN'' : NoDup [tp; g00; k1; py; fn]).
  { repeat constructor; simpl; intuition congruence. }
  unfold kernel. cbn [e_y e_fn e_k1 e_k2 e_k3 e_k4 e_temp e_g0 e_H e_f e_funccal].
  cbv zeta. unfold recf at 1. apply wp_rd; [clear - B; lia|]. cbv beta.
  apply wp_val. intros Hp1 E1.
  assert (F1 : Hp1 tp = G 1) by (rewrite E1, hset_eq, Hy, Hfn; reflexivity).
  assert (F2 : Hp1 py = y) by (rewrite E1, hset_ne by ne; exact Hy).
  assert (F3 : Hp1 fn = f y) by (rewrite E1, hset_ne by ne; exact Hfn).
  clear E1.
  apply wp_val. intros gg Eg. rewrite (surjective_pairing gg). cbv beta iota.
  apply wp_bind.
  assert (HH : wp (k_loop userF RECF r d h k1 py (Hp1, s, fst gg, snd gg)) (fun st =>
     let '(Hx, sx, g1, g0) := st in
       let t := if 2 <=? d then g0 else g1 in let g := if 2 <=? d then g1 else g0 in
       ((t = tp /\ g = g00) \/ (t = g00 /\ g = tp)) /\ Hx g = G d /\ Hx py = y /\ Hx fn = f y)).
  { destruct (Z.ltb_spec d 2) as [Hd|Hd]; subst gg; cbn [fst snd].
    - assert (d = 1) by (clear - B Hd; lia). subst d. unfold k_loop. rewrite forM_empty by (clear; lia). cbn [wp]. change (2 <=? 1) with false. cbv zeta iota. tauto.
    - eapply wp_mono; [apply (k_loop_spec d i Hp1 s tp g00 k1 py fn Hb Hd HN'' F2 F1)|].
      intros [[[Hx sx] g1] g0] (X1 & X2 & X3). destruct (Z.leb_spec 2 d) as [|Hdd]; [|clear - Hd Hdd; lia]. cbv zeta.
      split; [tauto|]. split; [exact X2|]. rewrite !X3 by ne. auto. }
  clear Eg. eapply wp_mono; [exact HH|]. clear HH. intros [[[Hx sx] g1] g0] HX. cbv zeta in HX.
  apply wp_val. intros gp Egp.
  replace gp with (if 2 <=? d then g0 else g1, if 2 <=? d then g1 else g0) by (rewrite Egp; destruct (2 <=? d); reflexivity). clear Egp gp.
  cbv beta iota.
  set (t := if 2 <=? d then g0 else g1) in *. set (g := if 2 <=? d then g1 else g0) in *. clearbody t g. clear g1 g0 gg.
  destruct HX as (HP & FG & FY & FN).
  assert (DD : t <> g /\ t <> k1 /\ t <> k2 /\ t <> k3 /\ t <> k4 /\ t <> py /\ t <> fn /\ g <> k1 /\ g <> k2 /\ g <> k3 /\ g <> k4 /\ g <> py /\ g <> fn).
  { destruct HP as [[-> ->]|[-> ->]]; repeat split; ne. }
  destruct DD as (?&?&?&?&?&?&?&?&?&?&?&?&?). clear F1 F2 F3 Hp1.
  unfold fpa, fpb, fpbe.
  (* first stage *)
  destruct (callF_eq Hx sx g k1) as [s1 E1]. rewrite E1. clear E1. apply wp_val. intros [Hn0 sn] En. injection En as En _. cbv beta iota.
  heap_step Hn0 En. match goal with F : Hn0 k1 = _ |- _ => change (Hn0 k1 = x_k1 (G d)) in F end.
  apply wp_rd; [clear - B; lia|]. apply wp_val. intros Hp2 E2. heap_step Hp2 E2.
  destruct (callF_eq Hp2 sn t k2) as [s2 E]. rewrite E. clear E. apply wp_val. intros [Hn1 sn2] En. injection En as En _. cbv beta iota.
  heap_step Hn1 En. match goal with F : Hn1 k2 = _ |- _ => change (Hn1 k2 = x_k2 i (G d)) in F end.
  apply wp_rd; [clear - B; lia|]. apply wp_rd; [clear - B; lia|]. apply wp_val. intros Hp3 E3. heap_step Hp3 E3.
  destruct (callF_eq Hp3 sn2 t k3) as [s3 E]. rewrite E. clear E. apply wp_val. intros [Hn2 sn3] En. injection En as En _. cbv beta iota.
  heap_step Hn2 En. match goal with F : Hn2 k3 = _ |- _ => change (Hn2 k3 = x_k3 i (G d)) in F end.
  apply wp_rd; [clear - B; lia|]. apply wp_rd; [clear - B; lia|]. apply wp_rd; [clear - B; lia|]. apply wp_val. intros Hp4 E4. heap_step Hp4 E4.
  destruct (callF_eq Hp4 sn3 t k4) as [s4 E]. rewrite E. clear E. apply wp_val. intros [Hn3 sn4] En. injection En as En _. cbv beta iota.
  heap_step Hn3 En. match goal with F : Hn3 k4 = _ |- _ => change (Hn3 k4 = x_k4 i (G d)) in F end.
  do 4 (apply wp_rd; [clear - B; lia|]). apply wp_val. intros Hp5 E5. heap_step Hp5 E5.
  match goal with F : Hp5 t = _ |- _ => change (Hp5 t = x_y i (G d)) in F end.
  do 5 (apply wp_rd; [clear - B; lia|]).
  destruct (callF_eq Hp5 sn4 t g) as [s5 E]. rewrite E. clear E. apply wp_val. intros [Hn4 sn5] En. injection En as En _. cbv beta iota.
  heap_step Hn4 En.
  apply wp_val. intros err Eerr. cbn [wp]. unfold kpost. cbn [fst snd e_y e_fn e_k1 e_k2 e_k3 e_k4 e_temp e_g0 e_H e_f e_funccal].
  repeat match goal with F : Hn4 ?q = _ |- _ => try rewrite F in Eerr; try rewrite F; clear F end.
  rewrite Hy, Hfn.
  repeat split; try reflexivity; try assumption.
Qed.
End Kernel.

(* ---- the kernel without hypothesis on the user's function: no undefined behaviour, calls counted *)
Definition pcc {A} (m : out A) (Q : A -> Prop) : Prop := match m with Ok a => Q a | _ => True end.
Lemma pcc_bind {A B} (m : out A) (g : A -> out B) Q : (forall a, m = Ok a -> pcc (g a) Q) -> pcc (bind m g) Q.
Proof. destruct m; cbn; auto. Qed.
Lemma pcc_val {A B} (a : A) (g : A -> out B) Q : (forall x, x = a -> pcc (g x) Q) -> pcc (bind (Ok a) g) Q.
Proof. intros H. exact (H a eq_refl). Qed.
Section Total.
Context {K : num}.
Variable Sg : Type.
Variable userF : Sg -> vec K -> Sg * vec K.
Variables RECF FPA FPB FPBE : Z -> K.
Variable size : Z.
Variables atol rtol : K.
(* [Rel n s]: the state s of the user's object has seen n calls *)
Variable Rel : Z -> Sg -> Prop.
Hypothesis RelS : forall n s v, Rel n s -> Rel (n + 1) (fst (userF s v)).
Lemma callF_rel H s p q n : Rel n s -> exists H' s', callF userF H s p q = (H', s') /\ Rel (n + 1) s'.
Proof. intros HR. apply (RelS n s (H p)) in HR. unfold callF. destruct (userF s (H p)) as [s' v]. eauto. Qed.
Lemma k_loop_total r d i h k1 y H s g1 g0 n : right_block d i r -> Rel n s ->
  wp (k_loop userF RECF r d h k1 y (H, s, g1, g0)) (fun st => let '(_, s, _, _) := st in Rel (n + (d - 1)) s).
Proof.
  intros Hb HR. apply right_block_bounds in Hb.
  destruct (Z.eq_dec d 1) as [->|Hd].
  - unfold k_loop. rewrite forM_empty by lia. cbn [wp]. replace (n + (1 - 1)) with n by lia. exact HR.
  - set (P := fun (j : Z) (st : heap (K := K) * Sg * Z * Z) => let '(_, s, _, _) := st in Rel (n + (j - 2)) s).
    assert (HL : wp (k_loop userF RECF r d h k1 y (H, s, g1, g0)) (P (d + 1))).
    2:{ eapply wp_mono; [exact HL|]. intros [[[? ?] ?] ?]. unfold P. replace (n + (d + 1 - 2)) with (n + (d - 1)) by lia. auto. }
    unfold k_loop. apply forM_ind; [lia| |].
    + unfold P. replace (n + (2 - 2)) with n by lia. exact HR.
    + intros j [[[Hx sx] a] b] Hj HP. unfold P in HP |- *. replace (n + (j + 1 - 2)) with (n + (j - 2) + 1) by lia.
      destruct (j =? 2) eqn:Ej.
      * unfold t_apply2, recf. rewrite bind_assoc. apply wp_rd; [lia|]. rewrite bind_assoc. apply wp_rd; [lia|].
        destruct (callF_rel Hx sx a b _ HP) as (H' & s' & -> & HR'). exact HR'.
      * unfold t_apply, recf. rewrite bind_assoc. apply wp_rd; [lia|]. rewrite bind_assoc. apply wp_rd; [lia|].
        destruct (callF_rel Hx sx a k1 _ HP) as (H' & s' & -> & HR'). exact HR'.
Qed.
Lemma kernel_total d i r e h n : right_block d i r -> Rel n (e_f e) ->
  wp (kernel userF RECF FPA FPB FPBE size atol rtol d i r e h) (fun x =>
    e_funccal (fst x) = e_funccal e + (d + 4) /\ Rel (n + (d + 4)) (e_f (fst x))).
Proof.
  intros Hb HR. pose proof (right_block_bounds _ _ _ Hb) as B. unfold kernel, recf at 1. cbv zeta. apply wp_rd; [lia|].
  apply wp_val. intros Hx _. apply wp_val. intros [ga gb] _. cbv beta iota. apply wp_bind.
  eapply wp_mono; [apply (k_loop_total _ _ _ _ _ _ _ _ _ _ _ Hb HR)|]. intros [[[Hy sx] g1] g0] HR1. cbv beta iota in HR1.
  apply wp_val. intros [t g] _. cbv beta iota. unfold fpa, fpb, fpbe.
  repeat first [ apply wp_rd; [lia|]
    | lazymatch goal with |- wp (bind (Ok (callF userF ?HH ?ss ?a ?b)) _) _ =>
      match goal with HS : Rel ?m ss |- _ => let H' := fresh "Hh" in let s' := fresh "sh" in let En := fresh "En" in let Ea := fresh "Ea" in
        destruct (callF_rel HH ss a b m HS) as (H' & s' & Ea & ?); rewrite Ea; clear Ea; clear HS; apply wp_val; intros ? En; rewrite En; clear En; cbv beta iota end end
    | lazymatch goal with |- wp (bind (Ok (callF _ _ _ _ _)) _) _ => fail | |- wp (bind (Ok _) _) _ => apply wp_val; intros ? _; cbv beta iota end ].
  cbn [wp fst e_funccal e_f]. split; [lia|].
  match goal with HS : Rel ?m ?s |- Rel ?k ?s => replace k with m by lia; exact HS end.
Qed.
Lemma kernel_ptrs d i r e h :
  match kernel userF RECF FPA FPB FPBE size atol rtol d i r e h with
  | Ok (e', _) => e_y e' = e_y e /\ e_fn e' = e_fn e /\ e_k1 e' = e_k1 e /\ e_k2 e' = e_k2 e /\ e_k3 e' = e_k3 e /\ e_k4 e' = e_k4 e /\
     ((e_temp e' = e_temp e /\ e_g0 e' = e_g0 e) \/ (e_temp e' = e_g0 e /\ e_g0 e' = e_temp e))
  | _ => True end.
Proof.
  cut (pcc (kernel userF RECF FPA FPB FPBE size atol rtol d i r e h) (fun x => let e' := fst x in
    e_y e' = e_y e /\ e_fn e' = e_fn e /\ e_k1 e' = e_k1 e /\ e_k2 e' = e_k2 e /\ e_k3 e' = e_k3 e /\ e_k4 e' = e_k4 e /\
     ((e_temp e' = e_temp e /\ e_g0 e' = e_g0 e) \/ (e_temp e' = e_g0 e /\ e_g0 e' = e_temp e)))).
  { destruct (kernel _ _ _ _ _ _ _ _ _ _ _ _ _) as [[e' err]| | |]; auto. }
  assert (HL : forall H s a b, match k_loop userF RECF r d h (e_k1 e) (e_y e) (H, s, a, b) with
     | Ok (_, _, g1, g0) => (g1 = a /\ g0 = b) \/ (g1 = b /\ g0 = a) | _ => True end).
  { intros H s a b. unfold k_loop, forM.
    assert (HI : forall m j H s g1 g0, ((g1 = a /\ g0 = b) \/ (g1 = b /\ g0 = a)) ->
      match iterM m j (fun i0 st => let '(H, f, g1, g0) := st in
        '(H, f) <- (if i0 =? 2 then t_apply2 userF RECF r h H f g0 g1 (e_y e) else t_apply userF RECF r h i0 H f g1 g0 (e_k1 e)) ;;
        Ok (H, f, g0, g1)) (H, s, g1, g0) with
      | Ok (_, _, g1, g0) => (g1 = a /\ g0 = b) \/ (g1 = b /\ g0 = a) | _ => True end).
    { induction m as [|m IH]; intros j H' s' g1 g0 Hg; cbn [iterM]; [exact Hg|].
      destruct (if j =? 2 then _ else _) as [[? ?]| | |]; cbn [bind]; trivial. apply IH. tauto. }
    apply HI. tauto. }
  unfold kernel. cbv zeta. apply pcc_bind. intros c _. apply pcc_val. intros Hx _. apply pcc_val. intros [ga gb] Eg. cbv beta iota.
  assert (Hab : (ga = e_temp e /\ gb = e_g0 e) \/ (ga = e_g0 e /\ gb = e_temp e)) by (destruct (d <? 2); injection Eg as -> ->; tauto).
  apply pcc_bind. intros [[[Hy sx] g1] g0] Ek. specialize (HL Hx (e_f e) ga gb). rewrite Ek in HL.
  apply pcc_val. intros [t g] Et. cbv beta iota.
  assert (Ht : (t = g0 /\ g = g1) \/ (t = g1 /\ g = g0)) by (destruct (2 <=? d); injection Et as -> ->; tauto).
  clear Et Eg Ek.
  repeat first [ lazymatch goal with |- pcc (bind (Ok _) _) _ => idtac end; apply pcc_val; first [intros [? ?] _ | intros ? _]; cbv beta iota | lazymatch goal with |- pcc (bind _ _) _ => idtac end; apply pcc_bind; intros ? _].
  cbn [pcc fst e_y e_fn e_k1 e_k2 e_k3 e_k4 e_temp e_g0].
  repeat split. destruct HL as [[-> ->]|[-> ->]], Hab as [[-> ->]|[-> ->]], Ht as [[-> ->]|[-> ->]]; tauto.
Qed.
End Total.
