(* Proofs about LayoutModel.v. *)
From Coq Require Import Reals Lra.
From Verif Require Import Base Spec HessModel LayoutModel FieldLU HessProofs HessPathProofs.
Open Scope Z_scope.

Lemma lin_bound w n j r : 0 <= r < w -> 1 <= j <= n -> 0 <= (j - 1) * w + r < w * n.
Proof. intros. nia. Qed.
Lemma lin_inj w j j' r r' : 0 <= r < w -> 0 <= r' < w -> (j - 1) * w + r = (j' - 1) * w + r' -> j = j' /\ r = r'.
Proof. intros. assert (j = j') by nia. subst. lia. Qed.

Lemma fa_layout n : 1 <= n -> forall i j, in_full n i j ->
  fa_off n i j = lapack_ge n i j /\ 0 <= fa_off n i j < fa_size n /\
  (forall i' j', in_full n i' j' -> fa_off n i' j' = fa_off n i j -> i' = i /\ j' = j).
Proof.
  intros Hn i j [Hi Hj]. unfold fa_off, lapack_ge, fa_size.
  pose proof (lin_bound n n j (i - 1) ltac:(lia) Hj). split; [lia|]. split; [lia|].
  intros i' j' [Hi' Hj'] E. destruct (lin_inj n j' j (i' - 1) (i - 1)); lia.
Qed.
Lemma fc_layout n : 1 <= n -> forall i j, in_full n i j ->
  fc_re n i j = 2 * lapack_ge n i j /\ fc_im n i j = 2 * lapack_ge n i j + 1 /\
  0 <= fc_re n i j < fc_size n /\ 0 <= fc_im n i j < fc_size n /\
  (forall i' j', in_full n i' j' ->
     (fc_re n i' j' = fc_re n i j -> i' = i /\ j' = j) /\
     (fc_im n i' j' = fc_im n i j -> i' = i /\ j' = j) /\ fc_re n i' j' <> fc_im n i j).
Proof.
  intros Hn i j [Hi Hj]. unfold fc_re, fc_im, lapack_ge, fc_size, fc_d2.
  pose proof (lin_bound n n j (i - 1) ltac:(lia) Hj). split; [lia|]. split; [lia|].
  split; [nia|]. split; [nia|]. intros i' j' [Hi' Hj'].
  pose proof (lin_inj n j' j (i' - 1) (i - 1) ltac:(lia) ltac:(lia)).
  split; [intros E|split; [intros E|]]; lia.
Qed.
Lemma fb_layout n kl ku : 1 <= n -> 0 <= kl -> 0 <= ku -> forall i j, in_band n kl ku i j ->
  fb_off kl ku i j = lapack_gb kl ku i j /\ 0 <= fb_off kl ku i j < fb_size n kl ku /\
  (forall i' j', in_band n kl ku i' j' -> fb_off kl ku i' j' = fb_off kl ku i j -> i' = i /\ j' = j).
Proof.
  intros Hn Hl Hu i j (Hi & Hj & Hb).
  unfold fb_off, lapack_gb, fb_size, fb_l1, fb_cc, fb_klku, fb_ldab.
  pose proof (lin_bound (2 * kl + ku + 1) n j (kl + ku + i - j) ltac:(lia) Hj).
  split; [lia|]. split; [nia|]. intros i' j' (Hi' & Hj' & Hb') E.
  destruct (lin_inj (2 * kl + ku + 1) j' j (kl + ku + i' - j') (kl + ku + i - j)); lia.
Qed.
Lemma fbc_layout n kl ku : 1 <= n -> 0 <= kl -> 0 <= ku -> forall i j, in_band n kl ku i j ->
  fbc_re kl ku i j = 2 * lapack_gb kl ku i j /\ fbc_im kl ku i j = 2 * lapack_gb kl ku i j + 1 /\
  0 <= fbc_re kl ku i j < fbc_size n kl ku /\ 0 <= fbc_im kl ku i j < fbc_size n kl ku /\
  (forall i' j', in_band n kl ku i' j' ->
     (fbc_re kl ku i' j' = fbc_re kl ku i j -> i' = i /\ j' = j) /\
     (fbc_im kl ku i' j' = fbc_im kl ku i j -> i' = i /\ j' = j) /\
     fbc_re kl ku i' j' <> fbc_im kl ku i j).
Proof.
  intros Hn Hl Hu i j (Hi & Hj & Hb).
  unfold fbc_re, fbc_im, lapack_gb, fbc_size, fb_l1, fb_cc, fb_klku, fb_ldab.
  pose proof (lin_bound (2 * kl + ku + 1) n j (kl + ku + i - j) ltac:(lia) Hj).
  split; [lia|]. split; [lia|]. split; [nia|]. split; [nia|]. intros i' j' (Hi' & Hj' & Hb').
  pose proof (lin_inj (2 * kl + ku + 1) j' j (kl + ku + i' - j') (kl + ku + i - j) ltac:(lia) ltac:(lia)).
  split; [intros E|split; [intros E|]]; lia.
Qed.

(* ---- assembly, for any arithmetic ---------------------------------------- *)
Section Asm.
Context {K : num}.
Implicit Types x X E J : Z -> K.

Ltac bstep := cbv beta;
  lazymatch goal with
  | |- wp (bind (bind _ _) _) _ => apply wp_assoc
  | |- wp (bind (brd _ _ _) _) _ => unfold brd at 1; apply wp_rd; [try lia|]
  | |- wp (bind (bwr _ _ _ _) _) _ => unfold bwr at 1; apply wp_wr; [try lia|]
  | |- wp (brd ?l ?x ?k) _ => unfold brd; rewrite rd_ok; [cbn [wp]|try lia]
  | |- wp (bwr ?l ?x ?k ?v) _ => unfold bwr; rewrite wr_ok; [cbn [wp]|try lia]
  | |- wp (bind (rd _ _ _ _) _) _ => apply wp_rd; [try lia|]
  | |- wp (bind (wr _ _ _ _ _) _) _ => apply wp_wr; [try lia|]
  end.

(* copy loops *)
Lemma neg_loop len x X : 0 <= len ->
  wp (forM 0 (len - 1) (fun i x => a <- brd len X i ;; bwr len x i (- a)%num) x)
     (fun y => forall k, y k = if inb 0 (len - 1) k then (- X k)%num else x k).
Proof.
  intros Hl. refine (wp_mono _ _ _ (forM_ind (fun i y => forall k, y k = if inb 0 (i - 1) k then (- X k)%num else x k) _ _ _ _ _ _ _) _).
  - lia.
  - intros k. rewrite (proj2 (inb_false 0 (0 - 1) k)) by lia. reflexivity.
  - intros i y Hi Hy. bstep. bstep. intros k. unfold upd. destruct (Z.eqb_spec k i) as [->|].
    + rewrite inb_true by lia. reflexivity.
    + rewrite Hy. unfold inb. destruct (Z.leb_spec 0 k), (Z.leb_spec k (i - 1)), (Z.leb_spec k (i + 1 - 1)); try lia; reflexivity.
  - intros y Hy k. rewrite Hy. replace (len - 1 + 1 - 1) with (len - 1) by lia. reflexivity.
Qed.
(* adding to injectively indexed places *)
Lemma diag_loop len lo hi (p : Z -> Z) x v : lo <= hi + 1 ->
  (forall i, lo <= i <= hi -> 0 <= p i <= len - 1) ->
  (forall i i', lo <= i <= hi -> lo <= i' <= hi -> p i = p i' -> i = i') ->
  wp (forM lo hi (fun i x => let k := p i in a <- brd len x k ;; bwr len x k (a + v)%num) x)
     (fun y => (forall i, lo <= i <= hi -> y (p i) = (x (p i) + v)%num) /\
               (forall k, (forall i, lo <= i <= hi -> k <> p i) -> y k = x k)).
Proof.
  intros Hlo Hb Hinj.
  refine (wp_mono _ _ _ (forM_ind (fun m y => (forall i, lo <= i < m -> y (p i) = (x (p i) + v)%num) /\
               (forall k, (forall i, lo <= i < m -> k <> p i) -> y k = x k)) _ _ _ _ _ _ _) _).
  - lia.
  - split; [intros; lia|reflexivity].
  - intros m y Hm [H1 H2]. cbv zeta. bstep; [apply Hb; lia|]. bstep; [|apply Hb; lia]. split.
    + intros i Hi. destruct (Z.eq_dec i m) as [->|].
      * rewrite upd_same. rewrite H2; [reflexivity|]. intros q Hq E. apply Hinj in E; lia.
      * rewrite upd_other. { apply H1; lia. } intros E. apply Hinj in E; lia.
    + intros k Hk. rewrite upd_other by (apply Hk; lia). apply H2. intros i Hi. apply Hk. lia.
  - intros y [H1 H2]. split; [intros; apply H1; lia|]. intros k Hk. apply H2. intros i Hi. apply Hk. lia.
Qed.

(* C03, real full *)
Lemma asm_real_full_spec n E J fac : 1 <= n ->
  wp (asm_real_full n E J fac) (fun E' => forall i j, in_full n i j ->
    E' (lapack_ge n i j) = if i =? j then (- J (lapack_ge n i j) + fac)%num else (- J (lapack_ge n i j))%num).
Proof.
  intros Hn. unfold asm_real_full, fa_equal_minus. apply wp_bind.
  eapply wp_mono. { apply (neg_loop (fa_size n)). unfold fa_size; nia. }
  intros y Hy. unfold fa_addDiag.
  eapply wp_mono.
  { apply (diag_loop (fa_size n) 0 (n - 1) (fun i => i * (n + 1)) y fac).
    - lia.
    - intros i Hi. unfold fa_size. nia.
    - intros i i' Hi Hi' E0. nia. }
  intros z [H1 H2] i j [Hi Hj].
  pose proof (lin_bound n n j (i - 1) ltac:(lia) Hj) as Hb.
  assert (Hyk : y (lapack_ge n i j) = (- J (lapack_ge n i j))%num).
  { rewrite Hy. rewrite inb_true; [reflexivity|]. unfold lapack_ge, fa_size. lia. }
  destruct (Z.eqb_spec i j) as [->|Hne].
  - replace (lapack_ge n j j) with ((j - 1) * (n + 1)) in * by (unfold lapack_ge; ring).
    rewrite H1 by lia. rewrite Hyk. reflexivity.
  - rewrite H2; [exact Hyk|]. intros q Hq E0. unfold lapack_ge in E0.
    destruct (lin_inj n j (q + 1) (i - 1) q); [lia|lia|lia|lia].
Qed.
(* C03, real banded *)
Lemma asm_real_band_spec n kl ku E J fac : 1 <= n -> 0 <= kl -> 0 <= ku ->
  wp (asm_real_band n kl ku E J fac) (fun E' => forall i j, in_band n kl ku i j ->
    E' (lapack_gb kl ku i j) =
      if i =? j then (- J (lapack_gb kl ku i j) + fac)%num else (- J (lapack_gb kl ku i j))%num).
Proof.
  intros Hn Hl Hu. unfold asm_real_band, fb_equal_minus. apply wp_bind.
  eapply wp_mono. { apply neg_loop. unfold fb_size, fb_ldab; nia. }
  intros y Hy. unfold fb_addDiag.
  eapply wp_mono.
  { apply (diag_loop (fb_size n kl ku) 1 n (fun i => i * fb_ldab kl ku + fb_cc kl ku) y fac).
    - lia.
    - intros i Hi. unfold fb_size, fb_cc, fb_klku, fb_ldab. nia.
    - intros i i' Hi Hi' E0. unfold fb_ldab in E0. nia. }
  intros z [H1 H2] i j (Hi & Hj & Hb).
  pose proof (lin_bound (2 * kl + ku + 1) n j (kl + ku + i - j) ltac:(lia) Hj) as Hbd.
  assert (Hyk : y (lapack_gb kl ku i j) = (- J (lapack_gb kl ku i j))%num).
  { rewrite Hy. rewrite inb_true; [reflexivity|]. unfold lapack_gb, fb_size, fb_ldab. lia. }
  destruct (Z.eqb_spec i j) as [->|Hne].
  - assert (Ep : lapack_gb kl ku j j = j * fb_ldab kl ku + fb_cc kl ku)
      by (unfold lapack_gb, fb_cc, fb_klku, fb_ldab; ring).
    rewrite Ep in *. rewrite H1 by lia. rewrite Hyk. reflexivity.
  - rewrite H2; [exact Hyk|]. intros q Hq E0. unfold lapack_gb, fb_cc, fb_klku, fb_ldab in E0.
    destruct (lin_inj (2 * kl + ku + 1) j q (kl + ku + i - j) (kl + ku)); lia.
Qed.

(* complex assembly: first loop over a set of positions given by ranges, abstractly *)
Lemma cset_loops n (lo hi : Z -> Z) len (re im : Z -> Z -> Z) (val : Z -> Z -> K) E
  (rdv : Z -> Z -> out K) (P := fun i j => 1 <= j <= n /\ lo j <= i <= hi j) :
  (forall j, 1 <= j <= n -> lo j <= hi j + 1) -> 0 <= n ->
  (forall i j, P i j -> rdv i j = Ok (val i j)) ->
  (forall i j, P i j -> 0 <= re i j <= len - 1 /\ 0 <= im i j <= len - 1) ->
  (forall i j i' j', P i j -> P i' j' -> (re i' j' = re i j -> i' = i /\ j' = j) /\
     (im i' j' = im i j -> i' = i /\ j' = j) /\ re i' j' <> im i j) ->
  wp (forM 1 n (fun j E => forM (lo j) (hi j) (fun i E =>
        a <- rdv i j ;; E <- bwr len E (re i j) (- a)%num ;; bwr len E (im i j) n0) E) E)
     (fun E' => forall i j, P i j -> E' (re i j) = (- val i j)%num /\ E' (im i j) = n0).
Proof.
  intros Hlh Hn Hrd Hb Hinj.
  refine (wp_mono _ _ _ (forM_ind (fun m y => forall i j, P i j -> j < m -> y (re i j) = (- val i j)%num /\ y (im i j) = n0) _ _ _ _ _ _ _) _).
  - lia.
  - unfold P. intros. lia.
  - intros m y Hm Hy.
    refine (wp_mono _ _ _ (forM_ind (fun q z => forall i j, P i j -> j < m \/ (j = m /\ i < q) ->
        z (re i j) = (- val i j)%num /\ z (im i j) = n0) _ _ _ _ _ _ _) _).
    + apply Hlh. exact Hm.
    + intros i j HP [H|[-> H]]; [auto|]. unfold P in HP. lia.
    + intros q z Hq Hz. assert (HPq : P q m) by (unfold P; lia).
      rewrite Hrd by exact HPq. cbn [bind]. destruct (Hb _ _ HPq) as [B1 B2].
      bstep. bstep. intros i j HP Hij.
      destruct (Hinj _ _ _ _ HPq HP) as (I1 & I2 & I3). destruct (Hinj _ _ _ _ HP HPq) as (I1' & I2' & I3').
      assert (Hc : (i = q /\ j = m) \/ (j < m \/ (j = m /\ i < q)) /\ ~ (i = q /\ j = m)) by lia.
      destruct Hc as [[-> ->]|[Hij' Hne]].
      * rewrite upd_same. rewrite upd_other by exact I3. rewrite upd_same. auto.
      * rewrite (upd_other _ (im q m) _ (re i j)) by auto. rewrite (upd_other _ (im q m) _ (im i j)) by tauto.
        rewrite (upd_other _ (re q m) _ (re i j)) by tauto. rewrite (upd_other _ (re q m) _ (im i j)) by (intro E0; apply I3'; auto).
        apply Hz; assumption.
    + intros z Hz i j HP Hj. apply Hz; [exact HP|]. unfold P in HP.
      destruct (Z.eq_dec j m) as [->|]; [right; lia|left; lia].
  - intros y Hy i j HP. apply Hy; [exact HP|]. unfold P in HP. lia.
Qed.
(* second loop: the diagonal *)
Lemma cdiag_loop n len (re im : Z -> Z -> Z) (D : Z -> Z -> Prop) E (alpha beta : K) :
  0 <= n -> (forall i, 1 <= i <= n -> D i i) ->
  (forall i j, D i j -> 0 <= re i j <= len - 1 /\ 0 <= im i j <= len - 1) ->
  (forall i j i' j', D i j -> D i' j' -> (re i' j' = re i j -> i' = i /\ j' = j) /\
     (im i' j' = im i j -> i' = i /\ j' = j) /\ re i' j' <> im i j) ->
  (forall i, D i i -> 1 <= i <= n) ->
  wp (forM 1 n (fun i E2 =>
    a <- brd len E2 (re i i) ;;
    E2 <- bwr len E2 (re i i) (a + alpha)%num ;;
    bwr len E2 (im i i) beta) E)
  (fun E' => forall i j, D i j ->
     E' (re i j) = (if i =? j then (E (re i j) + alpha)%num else E (re i j)) /\
     E' (im i j) = (if i =? j then beta else E (im i j))).
Proof.
  intros Hn HD Hb Hinj HD2.
  refine (wp_mono _ _ _ (forM_ind (fun m y => forall i j, D i j ->
     y (re i j) = (if (i =? j) && (i <? m) then (E (re i j) + alpha)%num else E (re i j)) /\
     y (im i j) = (if (i =? j) && (i <? m) then beta else E (im i j))) _ _ _ _ _ _ _) _).
  - lia.
  - intros i j HDij. destruct (Z.eqb_spec i j) as [->|]; [|auto]. apply HD2 in HDij.
    destruct (Z.ltb_spec j 1); [lia|auto].
  - intros m y Hm Hy. pose proof (HD m Hm) as HDm. destruct (Hb _ _ HDm) as [B1 B2].
    bstep. bstep. bstep. intros i j HDij.
    destruct (Hinj _ _ _ _ HDm HDij) as (I1 & I2 & I3). destruct (Hinj _ _ _ _ HDij HDm) as (I1' & I2' & I3').
    destruct (Z.eq_dec i j) as [->|Hne].
    + rewrite Z.eqb_refl. cbn [andb]. destruct (Z.eq_dec j m) as [->|Hjm].
      * rewrite upd_same. rewrite upd_other by exact I3. rewrite upd_same.
        destruct (Hy m m HDm) as [-> _]. rewrite Z.eqb_refl. cbn [andb].
        destruct (Z.ltb_spec m m), (Z.ltb_spec m (m + 1)); try lia. auto.
      * rewrite (upd_other _ (im m m) _ (re j j)) by exact I3. rewrite (upd_other _ (im m m) _ (im j j)) by tauto.
        rewrite (upd_other _ (re m m) _ (re j j)) by tauto. rewrite (upd_other _ (re m m) _ (im j j)) by (intro E0; apply I3'; auto).
        destruct (Hy j j HDij) as [-> ->]. rewrite Z.eqb_refl. cbn [andb].
        destruct (Z.ltb_spec j m), (Z.ltb_spec j (m + 1)); try lia; auto.
    + rewrite (upd_other _ (im m m) _ (re i j)) by exact I3.
      rewrite (upd_other _ (im m m) _ (im i j)) by (intro E0; destruct (I2 E0); lia).
      rewrite (upd_other _ (re m m) _ (re i j)) by (intro E0; destruct (I1 E0); lia).
      rewrite (upd_other _ (re m m) _ (im i j)) by (intro E0; apply I3'; auto).
      destruct (Hy i j HDij) as [-> ->]. destruct (Z.eqb_spec i j); [lia|]. auto.
  - intros y Hy i j HDij. destruct (Hy i j HDij) as [-> ->].
    destruct (Z.eqb_spec i j) as [->|]; [|auto]. apply HD2 in HDij.
    destruct (Z.ltb_spec j (n + 1)); [auto|lia].
Qed.

Lemma asm_complex_full_spec n E J (alpha beta : K) : 1 <= n ->
  wp (asm_complex_full n E J alpha beta) (fun E' => forall i j, in_full n i j ->
    E' (2 * lapack_ge n i j) = (if i =? j then (- J (lapack_ge n i j) + alpha)%num else (- J (lapack_ge n i j))%num) /\
    E' (2 * lapack_ge n i j + 1) = (if i =? j then beta else n0)).
Proof.
  intros Hn. unfold asm_complex_full. apply wp_bind.
  assert (Hext : forall i j, fc_im n i j = (j - 1) * fc_d2 n + 2 * (i - 1) + 1) by (intros; unfold fc_im; lia).
  eapply wp_mono.
  { unfold fc_set. cbv zeta.
    apply (cset_loops n (fun _ => 1) (fun _ => n) (fc_size n)
             (fun i j => (j - 1) * fc_d2 n + 2 * (i - 1)) (fun i j => (j - 1) * fc_d2 n + 2 * (i - 1) + 1) (fun i j => J (lapack_ge n i j)) E
             (fun i j => fa_get n J i j)).
    - lia.
    - lia.
    - intros i j [H1 H2]. unfold fa_get, brd.
      destruct (fa_layout n Hn i j) as (L1 & L2 & _); [split; lia|]. rewrite rd_ok by lia. rewrite L1. reflexivity.
    - intros i j [H1 H2]. destruct (fc_layout n Hn i j) as (_ & _ & L1 & L2 & _); [split; lia|].
      rewrite Hext in L2. unfold fc_re in L1. lia.
    - intros i j i' j' [H1 H2] [H3 H4]. destruct (fc_layout n Hn i j) as (_ & _ & _ & _ & L); [split; lia|].
      specialize (L i' j' ltac:(split; lia)). rewrite !Hext in L. unfold fc_re in L. exact L. }
  intros y Hy. cbv beta in Hy.
  eapply wp_mono.
  { apply (cdiag_loop n (fc_size n) (fc_re n) (fc_im n) (in_full n) y alpha beta).
    - lia.
    - intros i Hi. split; lia.
    - intros i j H. destruct (fc_layout n Hn i j H) as (_ & _ & L1 & L2 & _). lia.
    - intros i j i' j' H1 H2. destruct (fc_layout n Hn i j H1) as (_ & _ & _ & _ & L). exact (L i' j' H2).
    - intros i [H _]. exact H. }
  intros z Hz i j Hij. specialize (Hz i j Hij). destruct (fc_layout n Hn i j Hij) as (L1 & L2 & _).
  rewrite <- L2, <- L1. destruct Hz as [-> ->].
  destruct (Hy i j) as [Y1 Y2]. { destruct Hij; lia. }
  rewrite <- Hext in Y2. unfold fc_re in *. rewrite Y1, Y2. auto.
Qed.
Lemma asm_complex_band_spec n kl ku E J (alpha beta : K) : 1 <= n -> 0 <= kl -> 0 <= ku ->
  wp (asm_complex_band n kl ku E J alpha beta) (fun E' => forall i j, in_band n kl ku i j ->
    E' (2 * lapack_gb kl ku i j) =
      (if i =? j then (- J (lapack_gb kl ku i j) + alpha)%num else (- J (lapack_gb kl ku i j))%num) /\
    E' (2 * lapack_gb kl ku i j + 1) = (if i =? j then beta else n0)).
Proof.
  intros Hn Hl Hu. unfold asm_complex_band. apply wp_bind.
  eapply wp_mono.
  { unfold fbc_set. cbv zeta.
    apply (cset_loops n (fun j => Z.max 1 (j - ku)) (fun j => Z.min n (j + kl)) (fbc_size n kl ku)
             (fbc_re kl ku) (fbc_im kl ku) (fun i j => J (lapack_gb kl ku i j)) E
             (fun i j => fb_get n kl ku J i j)).
    - lia.
    - lia.
    - intros i j [H1 H2]. unfold fb_get, brd.
      destruct (fb_layout n kl ku Hn Hl Hu i j) as (L1 & L2 & _); [unfold in_band; lia|]. rewrite rd_ok by lia. rewrite L1. reflexivity.
    - intros i j [H1 H2]. destruct (fbc_layout n kl ku Hn Hl Hu i j) as (_ & _ & L1 & L2 & _); [unfold in_band; lia|]. lia.
    - intros i j i' j' [H1 H2] [H3 H4]. destruct (fbc_layout n kl ku Hn Hl Hu i j) as (_ & _ & _ & _ & L); [unfold in_band; lia|].
      apply (L i' j'). unfold in_band; lia. }
  intros y Hy. cbv beta in Hy.
  eapply wp_mono.
  { apply (cdiag_loop n (fbc_size n kl ku) (fbc_re kl ku) (fbc_im kl ku) (in_band n kl ku) y alpha beta).
    - lia.
    - intros i Hi. unfold in_band; lia.
    - intros i j H. destruct (fbc_layout n kl ku Hn Hl Hu i j H) as (_ & _ & L1 & L2 & _). lia.
    - intros i j i' j' H1 H2. destruct (fbc_layout n kl ku Hn Hl Hu i j H1) as (_ & _ & _ & _ & L). exact (L i' j' H2).
    - intros i (H & _). exact H. }
  intros z Hz i j Hij. specialize (Hz i j Hij). destruct (fbc_layout n kl ku Hn Hl Hu i j Hij) as (L1 & L2 & _).
  rewrite <- L2, <- L1. destruct Hz as [-> ->].
  destruct (Hy i j) as [Y1 Y2]. { destruct Hij as (?&?&?); lia. }
  rewrite Y1, Y2. auto.
Qed.
End Asm.

(* ---- factorisation and solves over the reals ------------------------------ *)
Lemma nopp_add_R (a f : R) : @nadd Rnum (@nopp Rnum a) f = (f - a)%R.
Proof. cbn. ring. Qed.
Lemma solution_ext n M M' x x' b b' :
  (forall i j, in_full n i j -> M i j = M' i j) -> (forall i, 1 <= i <= n -> x i = x' i) ->
  (forall i, 1 <= i <= n -> b i = b' i) -> solution n M x b -> solution n M' x' b'.
Proof.
  intros HM Hx Hb H i Hi. rewrite <- Hb, <- (H i Hi) by lia. apply rsum_ext. intros j Hj.
  rewrite HM, Hx by (try split; lia). reflexivity.
Qed.
Lemma csolution_ext n Mr Mi Mr' Mi' xr xi xr' xi' br bi br' bi' :
  (forall i j, in_full n i j -> Mr i j = Mr' i j /\ Mi i j = Mi' i j) ->
  (forall i, 1 <= i <= n -> xr i = xr' i /\ xi i = xi' i) ->
  (forall i, 1 <= i <= n -> br i = br' i /\ bi i = bi' i) ->
  csolution n Mr Mi xr xi br bi -> csolution n Mr' Mi' xr' xi' br' bi'.
Proof.
  intros HM Hx Hb H i Hi. destruct (Hb i Hi) as [<- <-]. destruct (H i Hi) as [<- <-].
  split; apply rsum_ext; intros j Hj; destruct (HM i j) as [-> ->]; try (split; lia);
    destruct (Hx j) as [-> ->]; try lia; reflexivity.
Qed.
Lemma nonsingular_ext n M M' : (forall i j, in_full n i j -> M i j = M' i j) -> nonsingular n M <-> nonsingular n M'.
Proof.
  intros HM. split; intros H x Hx; apply H; (eapply solution_ext; [| | |exact Hx]; [|auto|auto]);
    intros i j Hij; [symmetry|]; auto.
Qed.
Lemma cnonsingular_ext n Mr Mi Mr' Mi' : (forall i j, in_full n i j -> Mr i j = Mr' i j /\ Mi i j = Mi' i j) ->
  cnonsingular n Mr Mi <-> cnonsingular n Mr' Mi'.
Proof.
  intros HM. split; intros H xr xi Hx; apply H; (eapply csolution_ext; [| | |exact Hx]; [|auto|auto]);
    intros i j Hij; destruct (HM i j Hij) as [A B]; rewrite ?A, ?B; auto.
Qed.
Definition diag_matrix (b : R) : Z -> Z -> R := fun i j => if (i =? j)%Z then b else 0%R.

(* the shape of the result of factorising a buffer that holds the matrix M *)
Lemma factorise_real n mat trf trs (A : vec Rnum) M :
  lapack_real n mat trf trs -> (forall i j, in_full n i j -> mat A i j = M i j) ->
  match @factorise Rnum trf A with
  | Ok f => nonsingular n M /\
      forall Zv : Z -> R, exists X, @solvereal Rnum trs f Zv = Ok X /\ solution n M X Zv
  | Throw _ => ~ nonsingular n M
  | UB _ => False | Diverge => False end.
Proof.
  intros HL HM. unfold factorise. destruct (trf A) as [[LU ip] info] eqn:E.
  destruct (HL A LU ip info E) as [H1 H2]. rewrite (nonsingular_ext n _ M HM) in H1.
  destruct (Z.eqb_spec info 0) as [->|Hne]; cbn.
  - split; [tauto|]. intros Zv. unfold solvereal. destruct (H2 eq_refl (fun k => Zv (k + 1))) as (x & Ex & Hx).
    change (fun k => Zv (k + 1)) with (fun k => (Zv : vec Rnum) (k + 1)) in Ex. cbn [car Rnum] in *. rewrite Ex. cbn.
    eexists; split; [reflexivity|]. eapply solution_ext; [exact HM| | |exact Hx]; cbv beta; intros; f_equal; lia.
  - tauto.
Qed.

Lemma pack_spec n (Z2 Zr Zi : vec Rnum) : 1 <= n ->
  wp (@pack Rnum n Z2 Zr Zi) (fun Y => forall i, 1 <= i <= n -> Y (2 * i - 1) = Zr i /\ Y (2 * i) = Zi i).
Proof.
  intros Hn. unfold pack.
  refine (wp_mono _ _ _ (forM_ind (fun q (Y : vec Rnum) => forall i, n + 1 - q < i <= n -> Y (2 * i - 1) = Zr i /\ Y (2 * i) = Zi i) _ _ _ _ _ _ _) _).
  - lia.
  - intros; lia.
  - intros q Y Hq HY. cbv zeta. apply wp_rd; [lia|]. apply wp_wr; [lia|]. apply wp_rd; [lia|].
    rewrite wr_ok by lia. cbn [wp]. intros i Hi.
    destruct (Z.eq_dec i (n + 1 - q)) as [->|Hne].
    + rewrite upd_same. rewrite upd_other by lia. rewrite upd_same. auto.
    + rewrite !(upd_other _ (2 * (n + 1 - q))) by lia. rewrite !(upd_other _ (2 * (n + 1 - q) - 1)) by lia.
      apply HY. lia.
  - intros Y HY i Hi. apply HY. lia.
Qed.
Lemma unpack_spec n (Z2 Zr Zi : vec Rnum) : 1 <= n ->
  wp (@unpack Rnum n Z2 (Zr, Zi)) (fun Y => forall i, 1 <= i <= n -> fst Y i = Z2 (2 * i - 1) /\ snd Y i = Z2 (2 * i)).
Proof.
  intros Hn. unfold unpack.
  refine (wp_mono _ _ _ (forM_ind (fun q (Y : vec Rnum * vec Rnum) => forall i, 1 <= i < q -> fst Y i = Z2 (2 * i - 1) /\ snd Y i = Z2 (2 * i)) _ _ _ _ _ _ _) _).
  - lia.
  - intros; lia.
  - intros q [Yr Yi] Hq HY. apply wp_rd; [lia|]. apply wp_wr; [lia|]. apply wp_rd; [lia|]. apply wp_wr; [lia|].
    cbn [wp fst snd] in *. intros i Hi.
    destruct (Z.eq_dec i q) as [->|Hne].
    + rewrite !upd_same. auto.
    + rewrite !upd_other by lia. apply HY. lia.
  - intros Y HY i Hi. apply HY. lia.
Qed.
Lemma factorise_complex n mat trf trs (A : vec Rnum) Mr Mi : 1 <= n ->
  lapack_complex n mat trf trs ->
  (forall i j, in_full n i j -> mat (re_part A) i j = Mr i j /\ mat (im_part A) i j = Mi i j) ->
  match @factorise Rnum trf A with
  | Ok f => cnonsingular n Mr Mi /\
      forall Z2 Zr Zi : Z -> R, exists Xr Xi, @solvecomplex Rnum trs n f Z2 Zr Zi = Ok (Xr, Xi) /\
        csolution n Mr Mi Xr Xi Zr Zi
  | Throw _ => ~ cnonsingular n Mr Mi
  | UB _ => False | Diverge => False end.
Proof.
  intros Hn HL HM. unfold factorise. destruct (trf A) as [[LU ip] info] eqn:E.
  destruct (HL A LU ip info E) as [H1 H2]. rewrite (cnonsingular_ext n _ _ Mr Mi HM) in H1.
  destruct (Z.eqb_spec info 0) as [->|Hne]; cbn.
  - split; [tauto|]. intros Z2 Zr Zi. unfold solvecomplex.
    destruct (proj1 (wp_ok _ _) (pack_spec n Z2 Zr Zi Hn)) as (Y & EY & HY). cbn [car Rnum] in *. rewrite EY. cbn [bind].
    destruct (H2 eq_refl (fun k => Y (k + 1))) as (x & Ex & Hx). cbn [car Rnum] in *. rewrite Ex. cbn [negb Z.eqb].
    destruct (proj1 (wp_ok _ _) (unpack_spec n (fun i => x (i - 1)) Zr Zi Hn)) as ([Xr Xi] & EX & HX). cbn [car Rnum] in *.
    exists Xr, Xi. split; [exact EX|].
    eapply csolution_ext; [exact HM| | |exact Hx]; unfold re_part, im_part; cbv beta; intros i Hi.
    + destruct (HX i Hi) as [E1 E2]. cbn [fst snd] in *. rewrite E1, E2. split; f_equal; lia.
    + destruct (HY i Hi) as [E1 E2]. rewrite <- E1, <- E2. split; f_equal; lia.
  - tauto.
Qed.

Lemma decomr_full_lemma n trf trs E J fac : 1 <= n -> lapack_real n (mat_ge n) trf trs ->
  match @decomr_full Rnum trf n E J fac with
  | Ok f => nonsingular n (newton_matrix fac (mat_ge n J)) /\
      forall Zv : Z -> R, exists X, @solvereal Rnum trs f Zv = Ok X /\
        solution n (newton_matrix fac (mat_ge n J)) X Zv
  | Throw _ => ~ nonsingular n (newton_matrix fac (mat_ge n J))
  | UB _ => False | Diverge => False end.
Proof.
  intros Hn HL. unfold decomr_full.
  destruct (proj1 (wp_ok _ _) (@asm_real_full_spec Rnum n E J fac Hn)) as (A & EA & HA). rewrite EA. cbn [bind].
  apply (factorise_real n (mat_ge n)); [exact HL|]. intros i j Hij. unfold mat_ge, newton_matrix. rewrite HA by exact Hij.
  destruct (i =? j); cbn; ring.
Qed.
Lemma decomr_band_lemma n kl ku trf trs E J fac : 1 <= n -> 0 <= kl -> 0 <= ku -> lapack_real n (mat_gb kl ku) trf trs ->
  match @decomr_band Rnum trf n kl ku E J fac with
  | Ok f => nonsingular n (newton_matrix fac (mat_gb kl ku J)) /\
      forall Zv : Z -> R, exists X, @solvereal Rnum trs f Zv = Ok X /\
        solution n (newton_matrix fac (mat_gb kl ku J)) X Zv
  | Throw _ => ~ nonsingular n (newton_matrix fac (mat_gb kl ku J))
  | UB _ => False | Diverge => False end.
Proof.
  intros Hn Hl Hu HL. unfold decomr_band.
  destruct (proj1 (wp_ok _ _) (@asm_real_band_spec Rnum n kl ku E J fac Hn Hl Hu)) as (A & EA & HA). rewrite EA. cbn [bind].
  apply (factorise_real n (mat_gb kl ku)); [exact HL|]. intros i j [Hi Hj]. unfold mat_gb, newton_matrix.
  destruct (Z.leb_spec (j - ku) i), (Z.leb_spec i (j + kl)); cbn [andb];
    try (destruct (Z.eqb_spec i j); [lia|ring]).
  rewrite HA by (unfold in_band; lia). destruct (i =? j); cbn; ring.
Qed.
Lemma decomc_full_lemma n trf trs E J alpha beta : 1 <= n -> lapack_complex n (mat_ge n) trf trs ->
  match @decomc_full Rnum trf n E J alpha beta with
  | Ok f => cnonsingular n (newton_matrix alpha (mat_ge n J)) (diag_matrix beta) /\
      forall Z2 Zr Zi : Z -> R, exists Xr Xi, @solvecomplex Rnum trs n f Z2 Zr Zi = Ok (Xr, Xi) /\
        csolution n (newton_matrix alpha (mat_ge n J)) (diag_matrix beta) Xr Xi Zr Zi
  | Throw _ => ~ cnonsingular n (newton_matrix alpha (mat_ge n J)) (diag_matrix beta)
  | UB _ => False | Diverge => False end.
Proof.
  intros Hn HL. unfold decomc_full.
  destruct (proj1 (wp_ok _ _) (@asm_complex_full_spec Rnum n E J alpha beta Hn)) as (A & EA & HA). rewrite EA. cbn [bind].
  apply (factorise_complex n (mat_ge n)); [exact Hn|exact HL|]. intros i j Hij. unfold mat_ge, newton_matrix, diag_matrix, re_part, im_part.
  destruct (HA i j Hij) as [-> ->].
  destruct (i =? j); cbn; rewrite ?Rlit_0; split; try ring; reflexivity.
Qed.
Lemma decomc_band_lemma n kl ku trf trs E J alpha beta : 1 <= n -> 0 <= kl -> 0 <= ku -> lapack_complex n (mat_gb kl ku) trf trs ->
  match @decomc_band Rnum trf n kl ku E J alpha beta with
  | Ok f => cnonsingular n (newton_matrix alpha (mat_gb kl ku J)) (diag_matrix beta) /\
      forall Z2 Zr Zi : Z -> R, exists Xr Xi, @solvecomplex Rnum trs n f Z2 Zr Zi = Ok (Xr, Xi) /\
        csolution n (newton_matrix alpha (mat_gb kl ku J)) (diag_matrix beta) Xr Xi Zr Zi
  | Throw _ => ~ cnonsingular n (newton_matrix alpha (mat_gb kl ku J)) (diag_matrix beta)
  | UB _ => False | Diverge => False end.
Proof.
  intros Hn Hl Hu HL. unfold decomc_band.
  destruct (proj1 (wp_ok _ _) (@asm_complex_band_spec Rnum n kl ku E J alpha beta Hn Hl Hu)) as (A & EA & HA). rewrite EA. cbn [bind].
  apply (factorise_complex n (mat_gb kl ku)); [exact Hn|exact HL|]. intros i j [Hi Hj].
  unfold mat_gb, newton_matrix, diag_matrix, re_part, im_part.
  destruct (Z.leb_spec (j - ku) i), (Z.leb_spec i (j + kl)); cbn [andb];
    try (destruct (Z.eqb_spec i j); [lia|split; ring]).
  destruct (HA i j) as [-> ->]; [unfold in_band; lia|].
  destruct (i =? j); cbn; rewrite ?Rlit_0; split; try ring; reflexivity.
Qed.

(* ---- accesses in terms of LAPACK's addresses ------------------------------ *)
Lemma fa_access (K : num) n (x : Z -> K) v i j : 1 <= n -> in_full n i j ->
  fa_get n x i j = Ok (x (lapack_ge n i j)) /\ fa_set n x i j v = Ok (upd x (lapack_ge n i j) v).
Proof.
  intros Hn Hij. destruct (fa_layout n Hn i j Hij) as (E & B & _). unfold fa_get, fa_set, brd, bwr.
  rewrite rd_ok, wr_ok by lia. rewrite E. auto.
Qed.
Lemma fb_access (K : num) n kl ku (x : Z -> K) v i j : 1 <= n -> 0 <= kl -> 0 <= ku -> in_band n kl ku i j ->
  fb_get n kl ku x i j = Ok (x (lapack_gb kl ku i j)) /\ fb_set n kl ku x i j v = Ok (upd x (lapack_gb kl ku i j) v).
Proof.
  intros Hn Hl Hu Hij. destruct (fb_layout n kl ku Hn Hl Hu i j Hij) as (E & B & _). unfold fb_get, fb_set, brd, bwr.
  rewrite rd_ok, wr_ok by lia. rewrite E. auto.
Qed.
Lemma fc_access (K : num) n (x : Z -> K) re im i j : 1 <= n -> in_full n i j ->
  fc_set n x i j re im = Ok (upd (upd x (2 * lapack_ge n i j) re) (2 * lapack_ge n i j + 1) im).
Proof.
  intros Hn Hij. destruct (fc_layout n Hn i j Hij) as (E1 & E2 & B1 & B2 & _). unfold fc_set, bwr.
  unfold fc_re, fc_im in *. rewrite wr_ok by lia. cbn [bind]. rewrite wr_ok by lia. rewrite E1. reflexivity.
Qed.
Lemma fbc_access (K : num) n kl ku (x : Z -> K) re im i j : 1 <= n -> 0 <= kl -> 0 <= ku -> in_band n kl ku i j ->
  fbc_set n kl ku x i j re im = Ok (upd (upd x (2 * lapack_gb kl ku i j) re) (2 * lapack_gb kl ku i j + 1) im).
Proof.
  intros Hn Hl Hu Hij. destruct (fbc_layout n kl ku Hn Hl Hu i j Hij) as (E1 & E2 & B1 & B2 & _). unfold fbc_set, bwr.
  unfold fbc_re, fbc_im in *. rewrite wr_ok by lia. cbn [bind]. rewrite wr_ok by lia. rewrite E1. reflexivity.
Qed.
