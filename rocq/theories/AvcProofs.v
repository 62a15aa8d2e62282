(* Proofs about E5 and AvcF. *)
From Coq Require Import Reals Lra Lia Ranalysis5 FunctionalExtensionality.
From Verif Require Import Base HessModel E5Model AvcModel FlowSpec.
Open Scope R_scope.

Ltac rlit := unfold Rlit; cbn [powerRZ Pos.to_nat Pos.iter_op Nat.add pow]; try lra.

Lemma constant_on f a b : a <= b -> (forall t, a <= t <= b -> derivable_pt_lim f t 0) -> f b = f a.
Proof.
  intros Hab H. destruct (Rle_lt_or_eq_dec a b Hab) as [Hlt| ->]; [|reflexivity].
  destruct (MVT_cor2 f (fun _ => 0) a b Hlt H) as (c & E & _). lra.
Qed.
(* ---- E5 ---- *)
Lemma e5_eval t (y res : Z -> R) : exists d, e5_rhs (K := Rnum) t y res = Ok d /\
  d 0%Z = (- e5_A (K := Rnum)) * y 0%Z - e5_B (K := Rnum) * y 0%Z * y 2%Z /\ d 1%Z = e5_A (K := Rnum) * y 0%Z - e5_MC (K := Rnum) * y 1%Z * y 2%Z /\
  d 3%Z = e5_B (K := Rnum) * y 0%Z * y 2%Z - e5_C (K := Rnum) * y 3%Z /\ d 2%Z = d 1%Z - d 3%Z.
Proof. eexists. split; [reflexivity|]. split; [reflexivity|]. split; [reflexivity|]. split; reflexivity. Qed.
Lemma e5_is_field t y res : wp (e5_rhs (K := Rnum) t y res) (fun d => forall k, (0 <= k < 4)%Z ->
  d k = e5_field (789 / 10 ^ 12) (11 * 10 ^ 6) (10 ^ 6) (1130) y k).
Proof.
  destruct (e5_eval t y res) as (d & -> & H0 & H1 & H3 & H2). cbn [wp]. intros k Hk.
  assert (EA : e5_A (K := Rnum) = 789 / 10 ^ 12) by (unfold e5_A; cbn [nlit Rnum]; unfold Rlit; simpl; lra).
  assert (EB : e5_B (K := Rnum) = 11 * 10 ^ 6) by (unfold e5_B; cbn [nlit Rnum]; unfold Rlit; simpl; lra).
  assert (EC : e5_C (K := Rnum) = 1130) by (unfold e5_C; cbn [nlit Rnum]; unfold Rlit; simpl; lra).
  assert (EM : e5_MC (K := Rnum) = 10 ^ 6 * 1130) by (unfold e5_MC; rewrite EC; unfold e5_M; cbn [nlit Rnum nmul]; unfold Rlit; simpl; lra).
  rewrite EM, EA in H1. rewrite EB, EC in H3. rewrite EA, EB in H0. rewrite H1, H3 in H2. unfold e5_field.
  assert (k = 0 \/ k = 1 \/ k = 2 \/ k = 3)%Z as [-> |[-> |[-> | ->]]] by lia; cbn [Z.eqb Pos.eqb]; [rewrite H0|rewrite H1|rewrite H2|rewrite H3]; clear; generalize (y 0%Z) (y 1%Z) (y 2%Z) (y 3%Z); intros; cbn [car Rnum] in *; ring.
Qed.
Lemma e5_autonomous : autonomous 4 (e5_rhs (K := Rnum)).
Proof.
  intros t s x z. destruct (e5_eval t x z) as (d & E & _). destruct (e5_eval s x z) as (d' & E' & _).
  assert (E2 : e5_rhs (K := Rnum) s x z = e5_rhs (K := Rnum) t x z) by reflexivity. rewrite E2, E. cbn [wp]. intros; reflexivity.
Qed.
Lemma e5_positive : keeps_positive 4 (e5_rhs (K := Rnum)).
Proof.
  intros t x z k Hk Hx H0. pose proof (e5_is_field t x z) as H. destruct (e5_rhs (K := Rnum) t x z) as [d| | |]; cbn [wp] in *; try contradiction.
  rewrite (H k Hk). unfold e5_field. pose proof (Hx 0%Z ltac:(lia)) as P0. pose proof (Hx 1%Z ltac:(lia)) as P1. pose proof (Hx 2%Z ltac:(lia)) as P2. pose proof (Hx 3%Z ltac:(lia)) as P3.
  pose proof (Rmult_le_pos _ _ P0 P2) as P02.
  assert (k = 0 \/ k = 1 \/ k = 2 \/ k = 3)%Z as [-> |[-> |[-> | ->]]] by lia; cbn [Z.eqb Pos.eqb]; rewrite ?H0 in *; simpl; lra.
Qed.
Lemma e5_invariant y a b : a <= b -> solves 4 (e5_rhs (K := Rnum)) y a b ->
  y b 1%Z - y b 2%Z - y b 3%Z = y a 1%Z - y a 2%Z - y a 3%Z.
Proof.
  intros Hab Hs. apply (constant_on (fun t => y t 1%Z - y t 2%Z - y t 3%Z)); [exact Hab|]. intros t Ht. specialize (Hs t (fun _ => 0) Ht).
  destruct (e5_eval t (y t) (fun _ => 0)) as (d & E & _ & _ & _ & H2). rewrite E in Hs. cbn [wp] in Hs.
  replace 0 with (d 1%Z - d 2%Z - d 3%Z) by (rewrite H2; ring).
  apply (derivable_pt_lim_minus (fun t => y t 1%Z - y t 2%Z) (fun t => y t 3%Z)); [apply (derivable_pt_lim_minus (fun t => y t 1%Z) (fun t => y t 2%Z))|]; apply Hs; lia.
Qed.

(* ---- AvcF ---- *)
(* what avc_store leaves in z *)
Definition pval {K : num} (r : Z -> K) (rv rr : K) (x : vec K) (k : Z) : K :=
  if (k <? 5)%Z then ((r k - x k * r 17%Z) / x 17%Z)%num else if (k <? 10)%Z then ((r k - x k * r 18%Z) / x 18%Z)%num
  else if (k <? 15)%Z then ((r k + x k * (r 17%Z + r 18%Z)) / (nlit 10 (-1) - x 18%Z - x 17%Z))%num
  else if (k <? 19)%Z then r k else if (k =? 19)%Z then rv else rr.
(* the constants of the charge balance *)
Lemma F_eq : c_F (K := Rnum) = 9648530929 / 10 ^ 8.
Proof. unfold c_F. cbn [nlit Rnum]. unfold Rlit. simpl. lra. Qed.
Lemma v_eq : c_v (K := Rnum) = 25000.
Proof. unfold c_v. cbn [nlit Rnum]. unfold Rlit. simpl. lra. Qed.
Lemma ncap_eq : c_ncap (K := Rnum) = cap 10000.
Proof.
  unfold c_ncap, c_nsurf, c_rn, c_vn, cap, radius. cbn [nlit nmul ndiv npow Rnum]. replace (Rlit 1 0 / Rlit 3 0) with (1 / 3) by (unfold Rlit; simpl; field).
  replace (Rlit 10000 0) with 10000 by (unfold Rlit; simpl; lra). generalize (Rpower 10000 (1 / 3)). intros. unfold Rlit; simpl. field.
Qed.
Lemma acap_eq : c_acap (K := Rnum) = cap 9000.
Proof.
  unfold c_acap, c_asurf, c_ra, c_va, cap, radius. cbn [nlit nmul ndiv npow Rnum]. replace (Rlit 1 0 / Rlit 3 0) with (1 / 3) by (unfold Rlit; simpl; field).
  replace (Rlit 9000 0) with 9000 by (unfold Rlit; simpl; lra). generalize (Rpower 9000 (1 / 3)). intros. unfold Rlit; simpl. field.
Qed.
Lemma cap_pos v : 0 < cap v.
Proof. unfold cap, radius. pose proof (exp_pos (1 / 3 * ln v)). change (Rpower v (1 / 3)) with (exp (1 / 3 * ln v)). repeat apply Rmult_lt_0_compat; lra. Qed.
Lemma ncap_pos : 0 < c_ncap (K := Rnum).
Proof. rewrite ncap_eq. apply cap_pos. Qed.
Lemma acap_pos : 0 < c_acap (K := Rnum).
Proof. rewrite acap_eq. apply cap_pos. Qed.
Lemma n1_eq rat : c_n1 (K := Rnum) rat = cells rat.
Proof. unfold c_n1, c_k, c_v, c_vn, c_va, cells, ratio. cbn [nlit nmul nadd ndiv Rnum]. destruct rat; unfold Rlit; simpl; field. Qed.
Lemma n2_eq rat : c_n2 (K := Rnum) rat = ratio rat * cells rat.
Proof. unfold c_n2. rewrite <- n1_eq. unfold c_k, ratio. cbn [nlit nmul nadd ndiv Rnum]. f_equal. destruct rat; unfold Rlit; simpl; field. Qed.
Lemma volume_loop {K : num} (g : Z -> K -> K -> K -> K) lo hi (f : Z -> vec K -> out (vec K)) (z : vec K) : (0 <= lo <= hi)%Z -> (hi < 17)%Z ->
  (forall i z, (lo <= i <= hi)%Z -> f i z = Ok (upd z i (g i (z i) (z 17%Z) (z 18%Z)))) ->
  wp (forM lo hi f z) (fun d => forall k, d k = if andb (lo <=? k)%Z (k <=? hi)%Z then g k (z k) (z 17%Z) (z 18%Z) else z k).
Proof.
  intros H0 H1 Hf.
  eapply wp_mono; [apply (forM_ind (fun i d => forall k, d k = if andb (lo <=? k)%Z (k <? i)%Z then g k (z k) (z 17%Z) (z 18%Z) else z k) lo hi f z)|]; [lia| | |].
  - intros k. destruct (Z.leb_spec lo k), (Z.ltb_spec k lo); cbn [andb]; try reflexivity; lia.
  - intros i d Hi Hd. rewrite (Hf i d Hi). cbn [wp]. intros k. unfold upd. rewrite !Hd.
    destruct (Z.eqb_spec k i) as [-> |Hn].
    + repeat match goal with |- context [(?a <=? ?b)%Z] => destruct (Z.leb_spec a b); try lia | |- context [(?a <? ?b)%Z] => destruct (Z.ltb_spec a b); try lia end; reflexivity.
    + repeat match goal with |- context [(?a <=? ?b)%Z] => destruct (Z.leb_spec a b); try lia | |- context [(?a <? ?b)%Z] => destruct (Z.ltb_spec a b); try lia end; reflexivity.
  - cbn beta. intros d Hd k. rewrite Hd. replace (k <? hi + 1)%Z with (k <=? hi)%Z; [reflexivity|]. destruct (Z.leb_spec k hi), (Z.ltb_spec k (hi + 1)); lia || reflexivity.
Qed.
Lemma store19 {K : num} {A} (r : Z -> K) (f : vec K -> out A) Q (z : vec K) :
  (forall z0, (forall k, (0 <= k < 19)%Z -> z0 k = r k) -> wp (f z0) Q) -> wp (
  z <- wr 0 20 z 0 (r 0%Z) ;;
  z <- wr 0 20 z 1 (r 1%Z) ;;
  z <- wr 0 20 z 2 (r 2%Z) ;;
  z <- wr 0 20 z 3 (r 3%Z) ;;
  z <- wr 0 20 z 4 (r 4%Z) ;;
  z <- wr 0 20 z 5 (r 5%Z) ;;
  z <- wr 0 20 z 6 (r 6%Z) ;;
  z <- wr 0 20 z 7 (r 7%Z) ;;
  z <- wr 0 20 z 8 (r 8%Z) ;;
  z <- wr 0 20 z 9 (r 9%Z) ;;
  z <- wr 0 20 z 10 (r 10%Z) ;;
  z <- wr 0 20 z 11 (r 11%Z) ;;
  z <- wr 0 20 z 12 (r 12%Z) ;;
  z <- wr 0 20 z 13 (r 13%Z) ;;
  z <- wr 0 20 z 14 (r 14%Z) ;;
  z <- wr 0 20 z 15 (r 15%Z) ;;
  z <- wr 0 20 z 16 (r 16%Z) ;;
  z <- wr 0 20 z 17 (r 17%Z) ;;
  z <- wr 0 20 z 18 (r 18%Z) ;;
  f z) Q.
Proof.
  intros H. do 19 (apply wp_wr; [lia|]). apply H. clear H.
  intros k Hk. assert (D : List.In k (List.map Z.of_nat (List.seq 0 19))) by (apply List.in_map_iff; exists (Z.to_nat k); split; [lia|apply List.in_seq; lia]).
  cbn in D. repeat (destruct D as [<-|D]; [reflexivity|]). destruct D.
Qed.
Lemma volume_loops {K : num} (x z0 : vec K) (f1 f2 f3 : Z -> vec K -> out (vec K)) (rv rr : K) r v17 v18 ve a1 b1 a2 b2 a3 b3 : (a1, b1, a2, b2, a3, b3) = (0, 4, 5, 9, 10, 14)%Z ->
  (forall k, (0 <= k < 19)%Z -> z0 k = r k) ->
  (forall i z, (0 <= i < 17)%Z -> f1 i z = Ok (upd z i ((z i - x i * z 17%Z) / v17)%num)) ->
  (forall i z, (0 <= i < 17)%Z -> f2 i z = Ok (upd z i ((z i - x i * z 18%Z) / v18)%num)) ->
  (forall i z, (0 <= i < 17)%Z -> f3 i z = Ok (upd z i ((z i + x i * (z 17%Z + z 18%Z)) / ve)%num)) ->
  wp (z <- forM a1 b1 f1 z0 ;; z <- forM a2 b2 f2 z ;; z <- forM a3 b3 f3 z ;; z <- wr 0 20 z 19 rv ;; wr 0 20 z 20 rr)
   (fun d => forall k, (0 <= k < 21)%Z -> d k = 
     if (k <? 5)%Z then ((r k - x k * r 17%Z) / v17)%num else if (k <? 10)%Z then ((r k - x k * r 18%Z) / v18)%num
  else if (k <? 15)%Z then ((r k + x k * (r 17%Z + r 18%Z)) / ve)%num
  else if (k <? 19)%Z then r k else if (k =? 19)%Z then rv else rr).
Proof.
  intros [= -> -> -> -> -> ->] H0 F1 F2 F3. apply wp_bind.
  eapply wp_mono; [apply (volume_loop (fun i a b c => (a - x i * b) / v17)%num); [lia|lia|]|].
  { intros i w Hi. apply F1. lia. }
  cbn beta. intros z1 H1. apply wp_bind.
  eapply wp_mono; [apply (volume_loop (fun i a b c => (a - x i * c) / v18)%num); [lia|lia|]|].
  { intros i w Hi. apply F2. lia. }
  cbn beta. intros z2 H2. apply wp_bind.
  eapply wp_mono; [apply (volume_loop (fun i a b c => (a + x i * (b + c)) / ve)%num); [lia|lia|]|].
  { intros i w Hi. apply F3. lia. }
  cbn beta. intros z3 H3. apply wp_wr; [lia|]. rewrite wr_ok by lia. cbn [wp]. clear F1 F2 F3.
  assert (E : (forall k, (0 <= k < 5)%Z -> z3 k = ((r k - x k * r 17%Z) / v17)%num) /\ (forall k, (5 <= k < 10)%Z -> z3 k = ((r k - x k * r 18%Z) / v18)%num) /\
    (forall k, (10 <= k < 15)%Z -> z3 k = ((r k + x k * (r 17%Z + r 18%Z)) / ve)%num) /\ (forall k, (15 <= k < 19)%Z -> z3 k = r k)).
  { repeat split; intros k Hk; rewrite !H3, !H2, !H1; cbn [Z.leb Z.compare Pos.compare Pos.compare_cont andb]; rewrite ?(H0 17%Z), ?(H0 18%Z), ?(H0 k) by lia;
    repeat match goal with |- context [(?a <=? k)%Z] => destruct (Z.leb_spec a k); try lia | |- context [(k <=? ?a)%Z] => destruct (Z.leb_spec k a); try lia end; cbn [andb]; reflexivity. }
  clear H1 H2 H3. destruct E as (E1 & E2 & E3 & E4). intros k Hk. unfold upd.
  destruct (Z.eqb_spec k 20); destruct (Z.eqb_spec k 19); try lia; destruct (Z.ltb_spec k 5); try lia; [| |apply E1; lia|]; destruct (Z.ltb_spec k 10); try lia; [| |apply E2; lia|]; 
   destruct (Z.ltb_spec k 15); try lia; [| |apply E3; lia|]; destruct (Z.ltb_spec k 19); try lia; [| |apply E4; lia]; reflexivity.
Qed.
(* the conclusions are not stated with wp: it would be evaluated when the type of the lemma is inspected *)
Lemma avc_volumes_eval {K : num} (r : Z -> K) (rv rr : K) (x z0 : vec K) : (forall k, (0 <= k < 19)%Z -> z0 k = r k) ->
  exists d, avc_volumes rv rr x z0 = Ok d /\ (forall k, (0 <= k < 21)%Z -> d k = pval r rv rr x k).
Proof.
  intros H0. apply wp_ok. unfold avc_volumes, pval. apply volume_loops; [reflexivity|exact H0| | |]; intros i w Hi; rewrite !rd_ok by lia; cbn [bind]; rewrite wr_ok by lia; reflexivity.
Qed.
Lemma avc_store_eval {K : num} (r : Z -> K) (rv rr : K) (x z : vec K) :
  exists d, avc_store r rv rr x z = Ok d /\ (forall k, (0 <= k < 21)%Z -> d k = pval r rv rr x k).
Proof.
  apply wp_ok. unfold avc_store. apply (store19 (A := vec K) r (avc_volumes rv rr x)). intros z0 H0. destruct (avc_volumes_eval r rv rr x z0 H0) as (d & E & Hd). rewrite E. exact Hd.
Qed.
Local Opaque avc_store.
Lemma ok_inj {A} (a b : A) : Ok a = Ok b -> a = b.
Proof. intros H. exact (f_equal (fun o => match o with Ok u => u | _ => a end) H). Qed.
Lemma avc_rhs_eval {K : num} (fe fl fs : K -> K) rat t (x z : vec K) : exists d, avc_rhs fe fl fs rat t x z = Ok d /\
  (forall k, (0 <= k < 21)%Z -> d k = pval (avc_rate fe fl fs rat t x) (recup_v fe x) (recup_r fe x) x k).
Proof. exact (avc_store_eval (avc_rate fe fl fs rat t x) (recup_v fe x) (recup_r fe x) x z). Qed.
Section Avc.
Variables fe fl fs : R -> R.
Variable rat : bool.
Notation rhs := (avc_rhs (K := Rnum) fe fl fs rat).
Notation rate := (avc_rate (K := Rnum) fe fl fs rat).
Lemma avc_eval t (x z : Z -> R) : exists d, rhs t x z = Ok d /\ forall k, (0 <= k < 19)%Z ->
  d k = if (k <? 5)%Z then (rate t x k - x k * rate t x 17%Z) / x 17%Z else if (k <? 10)%Z then (rate t x k - x k * rate t x 18%Z) / x 18%Z
  else if (k <? 15)%Z then (rate t x k + x k * (rate t x 17%Z + rate t x 18%Z)) / (1 - x 18%Z - x 17%Z) else rate t x k.
Proof.
  unfold avc_rhs. destruct (avc_store_eval (rate t x) (recup_v fe x) (recup_r fe x) x z) as (d & E & H). exists d. split; [exact E|].
  intros k Hk. rewrite (H k ltac:(lia)). unfold pval. generalize (rate t x). intros r. 
  destruct (k <? 5)%Z; [reflexivity|]. destruct (k <? 10)%Z; [reflexivity|]. destruct (k <? 15)%Z.
  - cbn [nlit ndiv nadd nmul nsub Rnum]. replace (Rlit 10 (-1)) with 1 by (unfold Rlit; simpl; lra). reflexivity.
  - destruct (Z.ltb_spec k 19); [reflexivity|lia].
Qed.
Lemma rate_values t x : exists SK SNa SCa SCl SG AK ANa ACa ACl AG : R, let sn := v_snfv (K := Rnum) rat in let sa := v_safv (K := Rnum) rat in
  (rate t x 0%Z = - sn * SK /\ rate t x 1%Z = - sn * SNa /\ rate t x 2%Z = - sn * SCa / 2 /\ rate t x 3%Z = sn * SCl /\ rate t x 4%Z = sn * SG) /\
  (rate t x 5%Z = - sa * AK /\ rate t x 6%Z = - sa * ANa /\ rate t x 7%Z = - sa * ACa / 2 /\ rate t x 8%Z = sa * ACl /\ rate t x 9%Z = sa * AG) /\
  (rate t x 10%Z = sn * SK + sa * AK /\ rate t x 11%Z = sn * SNa + sa * ANa /\ rate t x 12%Z = sn * SCa / 2 + sa * ACa / 2 /\
   rate t x 13%Z = - sn * SCl - sa * ACl /\ rate t x 14%Z = - sn * SG - sa * AG) /\
  rate t x 15%Z = - (1000) * (c_nsurf (K := Rnum) / c_ncap (K := Rnum)) * (SNa + SK + SCa + SCl + SG) /\
  rate t x 16%Z = - (1000) * (c_asurf (K := Rnum) / c_acap (K := Rnum)) * (ANa + AK + ACa + ACl + AG).
Proof.
  exists (v_nSommeCourantsK (K := Rnum) fe fl fs t x), (v_nSommeCourantsNa (K := Rnum) fe fl fs t x), (v_nSommeCourantsCa (K := Rnum) fe t x), (v_nSommeCourantsCl (K := Rnum) fe fl rat t x), (v_nSommeCourantsglu (K := Rnum) fl x).
  exists (v_aSommeCourantsK (K := Rnum) fe fl fs t x), (v_aSommeCourantsNa (K := Rnum) fe fl fs t x), (v_aSommeCourantsCa (K := Rnum) fe t x), (v_aSommeCourantsCl (K := Rnum) fe fl rat t x), (v_aSommeCourantsglu (K := Rnum) fl x).
  intros sn sa.
  assert (L2 : nlit (n := Rnum) 20 (-1) = 2) by (cbn [nlit Rnum]; unfold Rlit; simpl; lra).
  assert (L1000 : nlit (n := Rnum) 10000 (-1) = 1000) by (cbn [nlit Rnum]; unfold Rlit; simpl; lra).
  unfold avc_rate. cbn [Z.eqb Pos.eqb].
  unfold rate0, rate1, rate2, rate3, rate4, rate5, rate6, rate7, rate8, rate9, rate10, rate11, rate12, rate13, rate14, rate15, rate16. rewrite L2, L1000.
  cbn [nadd nsub nmul ndiv nopp Rnum]. repeat split.
Qed.
(* what leaves the neurons and the astrocytes enters the extracellular space *)
Lemma rate_balance t x i : (0 <= i < 5)%Z -> rate t x i + rate t x (i + 5)%Z + rate t x (i + 10)%Z = 0.
Proof.
  intros Hi. destruct (rate_values t x) as (SK & SNa & SCa & SCl & SG & AK & ANa & ACa & ACl & AG & (R0 & R1 & R2 & R3 & R4) & (R5 & R6 & R7 & R8 & R9) & (R10 & R11 & R12 & R13 & R14) & _).
  assert (i = 0 \/ i = 1 \/ i = 2 \/ i = 3 \/ i = 4)%Z as [-> |[-> |[-> |[-> | ->]]]] by lia;
   [change (0 + 5)%Z with 5%Z; change (0 + 10)%Z with 10%Z; rewrite R0, R5, R10|change (1 + 5)%Z with 6%Z; change (1 + 10)%Z with 11%Z; rewrite R1, R6, R11
   |change (2 + 5)%Z with 7%Z; change (2 + 10)%Z with 12%Z; rewrite R2, R7, R12|change (3 + 5)%Z with 8%Z; change (3 + 10)%Z with 13%Z; rewrite R3, R8, R13
   |change (4 + 5)%Z with 9%Z; change (4 + 10)%Z with 14%Z; rewrite R4, R9, R14]; clear; generalize (v_snfv (K := Rnum) rat) (v_safv (K := Rnum) rat); cbn [car Rnum]; intros; field.
Qed.
(* the ions that leave a cell carry the current that charges its membrane *)
Lemma rate_charge_n t x : c_ncap (K := Rnum) * c_n1 (K := Rnum) rat * rate t x 15%Z =
  c_F (K := Rnum) * c_v (K := Rnum) * (rate t x 0%Z + rate t x 1%Z + 2 * rate t x 2%Z - rate t x 3%Z - rate t x 4%Z).
Proof.
  destruct (rate_values t x) as (SK & SNa & SCa & SCl & SG & AK & ANa & ACa & ACl & AG & (-> & -> & -> & -> & ->) & _ & _ & -> & _). clear.
  unfold v_snfv. assert (L : nlit (n := Rnum) 1000 0 = 1000) by (cbn [nlit Rnum]; unfold Rlit; simpl; lra). rewrite L.
  pose proof ncap_pos as C0. assert (C : c_ncap (K := Rnum) <> 0) by (intro Z0; rewrite Z0 in C0; exact (Rlt_irrefl _ C0)). clear C0.
  assert (D : c_F (K := Rnum) * c_v (K := Rnum) <> 0) by (unfold c_F, c_v; cbn [nlit nadd nmul nsub ndiv Rnum]; unfold Rlit; simpl; lra).
  cbn [nadd nsub nmul ndiv nopp Rnum]. revert C D. generalize (c_ncap (K := Rnum)) (c_n1 (K := Rnum) rat) (c_F (K := Rnum)) (c_v (K := Rnum)) (c_nsurf (K := Rnum)).
  cbn [car Rnum]. intros. field. repeat split; auto; intro; subst; lra.
Qed.
Lemma rate_charge_a t x : c_acap (K := Rnum) * c_n2 (K := Rnum) rat * rate t x 16%Z =
  c_F (K := Rnum) * c_v (K := Rnum) * (rate t x 5%Z + rate t x 6%Z + 2 * rate t x 7%Z - rate t x 8%Z - rate t x 9%Z).
Proof.
  destruct (rate_values t x) as (SK & SNa & SCa & SCl & SG & AK & ANa & ACa & ACl & AG & _ & (-> & -> & -> & -> & ->) & _ & _ & ->). clear.
  unfold v_safv. assert (L : nlit (n := Rnum) 1000 0 = 1000) by (cbn [nlit Rnum]; unfold Rlit; simpl; lra). rewrite L.
  pose proof acap_pos as C0. assert (C : c_acap (K := Rnum) <> 0) by (intro Z0; rewrite Z0 in C0; exact (Rlt_irrefl _ C0)). clear C0.
  assert (D : c_F (K := Rnum) * c_v (K := Rnum) <> 0) by (unfold c_F, c_v; cbn [nlit nadd nmul nsub ndiv Rnum]; unfold Rlit; simpl; lra).
  cbn [nadd nsub nmul ndiv nopp Rnum]. revert C D. generalize (c_acap (K := Rnum)) (c_n2 (K := Rnum) rat) (c_F (K := Rnum)) (c_v (K := Rnum)) (c_asurf (K := Rnum)).
  cbn [car Rnum]. intros. field. repeat split; auto; intro; subst; lra.
Qed.
(* a conserved quantity of the concentrations: x 17 * x i changes by rate i *)
Lemma amount_rate (x d : Z -> R) v i r : x v <> 0 -> d i = (r - x i * d v) / x v -> x v * d i + d v * x i = r.
Proof. intros H ->. field. exact H. Qed.
Lemma avc_amount y a b i : a <= b -> solves 21 rhs y a b -> (forall t, a <= t <= b -> nonempty (y t)) -> (0 <= i < 5)%Z ->
  amount i (y b) = amount i (y a).
Proof.
  intros Hab Hs Hn Hi. apply (constant_on (fun t => amount i (y t)) a b Hab). intros t Ht. specialize (Hs t (fun _ => 0) Ht). destruct (Hn t Ht) as (N1 & N2 & N3).
  destruct (avc_eval t (y t) (fun _ => 0)) as (d & E & Hd). rewrite E in Hs. cbn [wp] in Hs.
  pose proof (Hd 17%Z ltac:(lia)) as D17. pose proof (Hd 18%Z ltac:(lia)) as D18. cbn [Z.ltb Z.compare Pos.compare Pos.compare_cont] in D17, D18.
  pose proof (Hd i ltac:(lia)) as DA. destruct (Z.ltb_spec i 5); [|lia]. pose proof (Hd (i + 5)%Z ltac:(lia)) as DB. destruct (Z.ltb_spec (i + 5) 5); [lia|]. destruct (Z.ltb_spec (i + 5) 10); [|lia].
  pose proof (Hd (i + 10)%Z ltac:(lia)) as DC. destruct (Z.ltb_spec (i + 10) 5); [lia|]. destruct (Z.ltb_spec (i + 10) 10); [lia|]. destruct (Z.ltb_spec (i + 10) 15); [|lia].
  pose proof (rate_balance t (y t) i Hi) as B. rewrite <- D17, <- D18 in *.
  replace 0 with ((d 17%Z * y t i + y t 17%Z * d i) + (d 18%Z * y t (i + 5)%Z + y t 18%Z * d (i + 5)%Z) +
     ((0 - d 17%Z - d 18%Z) * y t (i + 10)%Z + (1 - y t 17%Z - y t 18%Z) * d (i + 10)%Z)).
  2: { rewrite DA, DB, DC. transitivity (rate t (y t) i + rate t (y t) (i + 5)%Z + rate t (y t) (i + 10)%Z); [|exact B]. field. repeat split; auto. }
  unfold amount. change (derivable_pt_lim (((fun s => y s 17%Z) * (fun s => y s i) + (fun s => y s 18%Z) * (fun s => y s (i + 5)%Z) + (fct_cte 1 - (fun s => y s 17%Z) - (fun s => y s 18%Z)) * (fun s => y s (i + 10)%Z))%F) t
    ((d 17%Z * y t i + y t 17%Z * d i) + (d 18%Z * y t (i + 5)%Z + y t 18%Z * d (i + 5)%Z) + ((0 - d 17%Z - d 18%Z) * y t (i + 10)%Z + (1 - y t 17%Z - y t 18%Z) * d (i + 10)%Z))).
  apply derivable_pt_lim_plus; [apply derivable_pt_lim_plus|].
  - apply (derivable_pt_lim_mult (fun s => y s 17%Z) (fun s => y s i)); apply Hs; lia.
  - apply (derivable_pt_lim_mult (fun s => y s 18%Z) (fun s => y s (i + 5)%Z)); apply Hs; lia.
  - apply (derivable_pt_lim_mult (fct_cte 1 - (fun s => y s 17%Z) - (fun s => y s 18%Z))%F (fun s => y s (i + 10)%Z)); [|apply Hs; lia].
    apply derivable_pt_lim_minus; [apply derivable_pt_lim_minus; [apply derivable_pt_lim_const|]|]; apply Hs; lia.
Qed.
Lemma charge_deriv (y : R -> Z -> R) (d r : Z -> R) t o w V p q : y t w <> 0 -> (forall k, k = o \/ k = (o + 1)%Z \/ k = (o + 2)%Z \/ k = (o + 3)%Z \/ k = (o + 4)%Z -> derivable_pt_lim (fun s => y s k) t (d k) /\ d k = (r k - y t k * d w) / y t w) ->
  derivable_pt_lim (fun s => y s w) t (d w) -> derivable_pt_lim (fun s => y s V) t (d V) ->
  p * d V = q * (r o + r (o + 1)%Z + 2 * r (o + 2)%Z - r (o + 3)%Z - r (o + 4)%Z) ->
  derivable_pt_lim (fun s => p * y s V - q * charge o w (y s)) t 0.
Proof.
  intros Hw Hk Dw DV E.
  destruct (Hk o ltac:(tauto)) as (P0 & Q0). destruct (Hk (o + 1)%Z ltac:(tauto)) as (P1 & Q1). destruct (Hk (o + 2)%Z ltac:(tauto)) as (P2 & Q2). destruct (Hk (o + 3)%Z ltac:(tauto)) as (P3 & Q3). destruct (Hk (o + 4)%Z ltac:(tauto)) as (P4 & Q4).
  replace 0 with (p * d V - q * (d w * (y t o + y t (o + 1)%Z + 2 * y t (o + 2)%Z - y t (o + 3)%Z - y t (o + 4)%Z) + y t w * (d o + d (o + 1)%Z + 2 * d (o + 2)%Z - d (o + 3)%Z - d (o + 4)%Z))).
  2: { rewrite E, Q0, Q1, Q2, Q3, Q4. field. exact Hw. }
  unfold charge.
  change (derivable_pt_lim ((mult_real_fct p (fun s => y s V) - mult_real_fct q ((fun s => y s w) * ((fun s => y s o) + (fun s => y s (o + 1)%Z) + mult_real_fct 2 (fun s => y s (o + 2)%Z) - (fun s => y s (o + 3)%Z) - (fun s => y s (o + 4)%Z))))%F) t
    (p * d V - q * (d w * (y t o + y t (o + 1)%Z + 2 * y t (o + 2)%Z - y t (o + 3)%Z - y t (o + 4)%Z) + y t w * (d o + d (o + 1)%Z + 2 * d (o + 2)%Z - d (o + 3)%Z - d (o + 4)%Z)))).
  apply derivable_pt_lim_minus; apply derivable_pt_lim_scal; [exact DV|]. apply (derivable_pt_lim_mult (fun s => y s w) ((fun s => y s o) + (fun s => y s (o + 1)%Z) + mult_real_fct 2 (fun s => y s (o + 2)%Z) - (fun s => y s (o + 3)%Z) - (fun s => y s (o + 4)%Z))%F); [exact Dw|].
  apply derivable_pt_lim_minus; [apply derivable_pt_lim_minus; [apply derivable_pt_lim_plus; [apply derivable_pt_lim_plus|apply derivable_pt_lim_scal]|]|]; assumption.
Qed.
Lemma avc_charge_n y a b : a <= b -> solves 21 rhs y a b -> (forall t, a <= t <= b -> nonempty (y t)) ->
  cap 10000 * cells rat * y b 15%Z - 9648530929 / 10 ^ 8 * 25000 * charge 0 17 (y b) = cap 10000 * cells rat * y a 15%Z - 9648530929 / 10 ^ 8 * 25000 * charge 0 17 (y a).
Proof.
  intros Hab Hs Hn. apply (constant_on (fun t => cap 10000 * cells rat * y t 15%Z - 9648530929 / 10 ^ 8 * 25000 * charge 0 17 (y t)) a b Hab).
  intros t Ht. specialize (Hs t (fun _ => 0) Ht). destruct (Hn t Ht) as (N1 & N2 & N3).
  destruct (avc_eval t (y t) (fun _ => 0)) as (d & E & Hd). rewrite E in Hs. cbn [wp] in Hs.
  apply (charge_deriv y d (rate t (y t)) t 0 17 15); [exact N1| |apply Hs; lia|apply Hs; lia|].
  - intros k Hk. split; [apply Hs; lia|]. rewrite (Hd k) by lia. destruct (Z.ltb_spec k 5); [|lia]. rewrite (Hd 17%Z) by lia. reflexivity.
  - rewrite (Hd 15%Z) by lia. cbn [Z.ltb Z.compare Pos.compare Pos.compare_cont Z.add Pos.add Pos.succ]. rewrite <- ncap_eq, <- n1_eq, <- F_eq, <- v_eq. apply rate_charge_n.
Qed.
Lemma avc_charge_a y a b : a <= b -> solves 21 rhs y a b -> (forall t, a <= t <= b -> nonempty (y t)) ->
  cap 9000 * (ratio rat * cells rat) * y b 16%Z - 9648530929 / 10 ^ 8 * 25000 * charge 5 18 (y b) = cap 9000 * (ratio rat * cells rat) * y a 16%Z - 9648530929 / 10 ^ 8 * 25000 * charge 5 18 (y a).
Proof.
  intros Hab Hs Hn. apply (constant_on (fun t => cap 9000 * (ratio rat * cells rat) * y t 16%Z - 9648530929 / 10 ^ 8 * 25000 * charge 5 18 (y t)) a b Hab).
  intros t Ht. specialize (Hs t (fun _ => 0) Ht). destruct (Hn t Ht) as (N1 & N2 & N3).
  destruct (avc_eval t (y t) (fun _ => 0)) as (d & E & Hd). rewrite E in Hs. cbn [wp] in Hs.
  apply (charge_deriv y d (rate t (y t)) t 5 18 16); [exact N2| |apply Hs; lia|apply Hs; lia|].
  - intros k Hk. split; [apply Hs; lia|]. rewrite (Hd k) by lia. destruct (Z.ltb_spec k 5); [lia|]. destruct (Z.ltb_spec k 10); [|lia]. rewrite (Hd 18%Z) by lia. reflexivity.
  - rewrite (Hd 16%Z) by lia. cbn [Z.ltb Z.compare Pos.compare Pos.compare_cont Z.add Pos.add Pos.succ]. rewrite <- acap_eq, <- n2_eq, <- F_eq, <- v_eq. apply rate_charge_a.
Qed.
End Avc.
(* ---- AvcF depends on t ---- *)
Lemma fdepol_r0 t : fdepol (K := Rnum) exp t 0 = 1025 / 1000 * (1 / 4 + 3 / 4 * exp (- t / 60)).
Proof.
  unfold fdepol. cbn [nlit nadd nsub nmul ndiv nopp Rnum].
  replace (- (Rlit 10 (-1) / Rlit 60 0) * t) with (- t / 60) by (unfold Rlit; simpl; field).
  generalize (exp (- t / 60)). intros e. generalize (f_S (K := Rnum) exp). cbn [car Rnum]. intros S0.
  match goal with |- context [S0 ?a] => generalize (S0 a) end. intros q. unfold Rlit; simpl. field.
Qed.
Lemma n2_pos rat : 0 < c_n2 (K := Rnum) rat.
Proof. rewrite n2_eq. unfold ratio, cells, ratio. destruct rat; lra. Qed.
Lemma asurf_pos : 0 < c_asurf (K := Rnum).
Proof.
  pose proof acap_pos as H. unfold c_acap in H. cbn [nmul nlit Rnum] in H. replace (Rlit 1 (-2)) with (1 / 100) in H by (unfold Rlit; simpl; lra).
  revert H. generalize (c_asurf (K := Rnum)). cbn [car Rnum]. intros. lra.
Qed.
Lemma safv_pos rat : 0 < v_safv (K := Rnum) rat.
Proof.
  unfold v_safv. pose proof (n2_pos rat) as P1. pose proof asurf_pos as P2. cbn [nmul ndiv nlit Rnum]. rewrite F_eq, v_eq. revert P1 P2.
  generalize (c_n2 (K := Rnum) rat) (c_asurf (K := Rnum)). cbn [car Rnum]. intros p q P1 P2. replace (Rlit 1000 0) with 1000 by (unfold Rlit; simpl; lra).
  apply Rdiv_lt_0_compat; [repeat apply Rmult_lt_0_compat; lra|lra].
Qed.
Lemma avc_t fl fs rat (x z : Z -> R) t s d e : x 18%Z <> 0 -> x 7%Z <> 0 -> x 7%Z + 2 / 10 ^ 4 <> 0 -> x 20%Z = 0 ->
  avc_rhs (K := Rnum) exp fl fs rat t x z = Ok d -> avc_rhs (K := Rnum) exp fl fs rat s x z = Ok e -> d 7%Z = e 7%Z -> t = s.
Proof.
  intros H18 H7 Hs H20 Ed Ee E7.
  destruct (avc_eval exp fl fs rat t x z) as (d' & Ed' & Hd). rewrite Ed in Ed'. apply ok_inj in Ed'. subst d'. destruct (avc_eval exp fl fs rat s x z) as (e' & Ee' & He). rewrite Ee in Ee'. apply ok_inj in Ee'. subst e'.
  rewrite (Hd 7%Z), (He 7%Z) in E7 by lia. cbn [Z.ltb Z.compare Pos.compare Pos.compare_cont] in E7.
  assert (R18 : avc_rate (K := Rnum) exp fl fs rat t x 18 = avc_rate (K := Rnum) exp fl fs rat s x 18) by reflexivity. rewrite R18 in E7.
  assert (R7 : forall u, avc_rate (K := Rnum) exp fl fs rat u x 7 = - v_safv (K := Rnum) rat * ((v_aICaHVA (K := Rnum) exp x + v_aICaantiport (K := Rnum) exp x) + fdepol (K := Rnum) exp u (x 20%Z) * c_agCapompe (K := Rnum) * (1 / 100) * x 7%Z / (x 7%Z + 2 / 10 ^ 4)) / 2).
  { intros u. change (avc_rate (K := Rnum) exp fl fs rat u x 7) with (rate7 (K := Rnum) exp rat u x). unfold rate7, v_aSommeCourantsCa, v_aICapompe. cbn [nadd nsub nmul ndiv nopp nlit Rnum].
    replace (Rlit 20 (-1)) with 2 by (unfold Rlit; simpl; lra). replace (Rlit 1 (-2)) with (1 / 100) by (unfold Rlit; simpl; lra). replace (Rlit 2 (-4)) with (2 / 10 ^ 4) by (unfold Rlit; simpl; lra). reflexivity. }
  rewrite (R7 t), (R7 s), H20, !fdepol_r0 in E7. clear R7 R18 Hd He Ed Ee.
  assert (G : c_agCapompe (K := Rnum) <> 0) by (unfold c_agCapompe; cbn [nlit nmul ndiv Rnum]; unfold Rlit; simpl; lra).
  pose proof (safv_pos rat) as Ps. revert E7 Ps G.
  generalize (v_safv (K := Rnum) rat) (v_aICaHVA (K := Rnum) exp x) (v_aICaantiport (K := Rnum) exp x) (c_agCapompe (K := Rnum)) (avc_rate (K := Rnum) exp fl fs rat s x 18).
  cbn [car Rnum]. intros sa hv an g r18 E7 Ps G.
  assert (X : exp (- t / 60) = exp (- s / 60)).
  { assert (Y : (exp (- t / 60) - exp (- s / 60)) * (- sa * (1025 / 1000) * (3 / 4) * g * (1 / 100) * x 7%Z / (x 7%Z + 2 / 10 ^ 4) / 2 / x 18%Z) = 0).
    { apply Rminus_diag_eq in E7. rewrite <- E7. field. split; auto. intro Z0. apply Hs. lra. }
    apply Rmult_integral in Y. destruct Y as [Y|Y]; [lra|]. exfalso.
    assert (N : - sa * (1025 / 1000) * (3 / 4) * g * (1 / 100) * x 7%Z <> 0).
    { repeat apply Rmult_integral_contrapositive_currified; lra || auto. }
    unfold Rdiv in Y. repeat (apply Rmult_integral in Y; destruct Y as [Y|Y]); try lra; try (apply N; unfold Rdiv; rewrite ?Y; ring);
     try (apply Rinv_neq_0_compat in Y; auto; fail).
    all: try (revert Y; apply Rinv_neq_0_compat; assumption). all: try (revert Y; apply Rinv_neq_0_compat; unfold Rdiv in Hs; assumption). all: auto. }
  apply exp_inv in X. lra.
Qed.
(* ---- cases ---- *)
(* a solution of E5 that is not constant *)
Definition e5_decay (t : R) (k : Z) : R := if (k =? 3)%Z then exp (- (1130) * t) else if (k =? 2)%Z then 1 - exp (- (1130) * t) else 0.
Lemma e5_decay_solves : solves 4 (e5_rhs (K := Rnum)) e5_decay 0 1.
Proof.
  intros t z _. pose proof (e5_is_field t (e5_decay t) z) as H. destruct (e5_rhs (K := Rnum) t (e5_decay t) z) as [d| | |]; cbn [wp] in *; try contradiction.
  assert (De : derivable_pt_lim (fun s => exp (- (1130) * s)) t (exp (- (1130) * t) * (- (1130) * 1))).
  { apply (derivable_pt_lim_comp (fun s => - (1130) * s) exp); [apply derivable_pt_lim_scal, derivable_pt_lim_id|apply derivable_pt_lim_exp]. }
  intros k Hk. rewrite (H k Hk). unfold e5_field, e5_decay. assert (k = 0 \/ k = 1 \/ k = 2 \/ k = 3)%Z as [-> |[-> |[-> | ->]]] by lia; cbn [Z.eqb Pos.eqb].
  - replace (- (789 / 10 ^ 12) * 0 - 11 * 10 ^ 6 * 0 * (1 - exp (- (1130) * t))) with 0 by ring. apply derivable_pt_lim_const.
  - replace (789 / 10 ^ 12 * 0 - 10 ^ 6 * 1130 * 0 * (1 - exp (- (1130) * t))) with 0 by ring. apply derivable_pt_lim_const.
  - match goal with |- derivable_pt_lim _ _ ?v => replace v with (0 - exp (- (1130) * t) * (- (1130) * 1)) by (simpl; ring) end.
    apply (derivable_pt_lim_minus (fct_cte 1) (fun s => exp (- (1130) * s))); [apply derivable_pt_lim_const|exact De].
  - match goal with |- derivable_pt_lim _ _ ?v => replace v with (exp (- (1130) * t) * (- (1130) * 1)) by (simpl; ring) end. exact De.
Qed.
Lemma init_nonempty rat x : wp (avc_init (K := Rnum) rat x) (fun y => nonempty y /\ 1 - y 18%Z - y 17%Z = 2 / 10 /\ y 7%Z = 6 / 10 ^ 4 /\ y 20%Z = 0).
Proof.
  unfold avc_init. do 20 (apply wp_wr; [lia|]). rewrite wr_ok by lia. cbn [wp]. unfold upd, nonempty. cbn [Z.eqb Pos.eqb].
  unfold c_k. cbn [nlit nmul nadd ndiv nopp Rnum]. destruct rat; unfold Rlit; simpl; repeat split; lra.
Qed.
(* through every state goes a curve that solves at one instant *)
Lemma avc_instant fe fl fs rat (x : Z -> R) : exists y, (forall k, y 0 k = x k) /\ solves 21 (avc_rhs (K := Rnum) fe fl fs rat) y 0 0.
Proof.
  destruct (avc_rhs_eval (K := Rnum) fe fl fs rat 0 x (fun _ => 0)) as (d & E & H1).
  assert (EX : forall z, exists d', avc_rhs (K := Rnum) fe fl fs rat 0 x z = Ok d' /\ forall k, (0 <= k < 21)%Z -> d' k = d k).
  { intros z. destruct (avc_rhs_eval (K := Rnum) fe fl fs rat 0 x z) as (d2 & E2 & H2). exists d2. split; [exact E2|]. intros k Hk. rewrite (H2 k Hk), (H1 k Hk). reflexivity. }
  exists (fun t k => x k + t * d k). split; [intros k; ring|]. intros t z Ht. assert (t = 0) as -> by lra.
  assert (X0 : (fun k => x k + 0 * d k) = x) by (apply FunctionalExtensionality.functional_extensionality; intros; ring). rewrite X0.
  destruct (EX z) as (d' & -> & Hd'). cbn [wp]. intros k Hk. rewrite (Hd' k Hk).
  assert (D0 : d k = 0 + (1 * d k + 0 * 0)) by (generalize (d k); cbn [car Rnum]; intros; ring). match goal with |- derivable_pt_lim ?f ?t _ => enough (H : derivable_pt_lim f t (0 + (1 * d k + 0 * 0))) by (rewrite <- D0 in H; exact H) end. clear D0.
  apply (derivable_pt_lim_plus (fct_cte (x k)) (id * fct_cte (d k))%F); [apply derivable_pt_lim_const|].
  apply (derivable_pt_lim_mult id (fct_cte (d k))); [apply derivable_pt_lim_id|apply derivable_pt_lim_const].
Qed.
Lemma avc_t_wp : avc_autonomous = true /\ forall fl fs rat (x z : Z -> R) t s, x 18%Z <> 0 -> x 7%Z <> 0 -> x 7%Z + 2 / 10 ^ 4 <> 0 -> x 20%Z = 0 -> t <> s ->
  wp (avc_rhs (K := Rnum) exp fl fs rat t x z) (fun d => wp (avc_rhs (K := Rnum) exp fl fs rat s x z) (fun e => d 7%Z <> e 7%Z)).
Proof.
  split; [reflexivity|]. intros fl fs rat x z t s H18 H7 Hs H20 Ht.
  destruct (avc_eval exp fl fs rat t x z) as (d & Ed & _). destruct (avc_eval exp fl fs rat s x z) as (e & Ee & _). rewrite Ed. cbn [wp]. rewrite Ee. cbn [wp].
  intros E. apply Ht. exact (avc_t fl fs rat x z t s d e H18 H7 Hs H20 Ed Ee E).
Qed.
Lemma avc_not_autonomous fl fs rat : ~ autonomous 21 (avc_rhs (K := Rnum) exp fl fs rat).
Proof.
  intros H. set (x := fun k : Z => if (k =? 20)%Z then 0 else 1). specialize (H 0 1 x (fun _ => 0)).
  destruct (avc_eval exp fl fs rat 0 x (fun _ => 0)) as (d & Ed & _). destruct (avc_eval exp fl fs rat 1 x (fun _ => 0)) as (e & Ee & _). rewrite Ed in H. cbn [wp] in H. rewrite Ee in H. cbn [wp] in H.
  assert (F : 0 = 1); [|lra]. apply (avc_t fl fs rat x (fun _ => 0) 0 1 d e); try assumption; try (apply H; lia); unfold x; cbn [Z.eqb Pos.eqb]; lra.
Qed.
