(* Proofs about the BZ example of ExModel.v, with its own number of points, nd = 100. *)
From Coq Require Import Reals Lra.
From Verif Require Import Base Spec HessModel LayoutModel LayoutProofs CMacros ExModel ExSpec ExGrid ExOreg.
Open Scope Z_scope.

Section Rhs.
Variables (nd : Z) (e0 e1 e2 : R).
Hypothesis Hnd : 3 <= nd.
Definition bz_lap (o : Z) (e : R) (y : Z -> R) (i : Z) : R :=
  if i =? 0 then (2 * e * (y (o + 1)%Z - y o))%R else if i =? nd - 1 then (2 * e * (y (o + nd - 2)%Z - y (o + nd - 1)%Z))%R
  else (e * (y (o + i - 1)%Z - 2 * y (o + i)%Z + y (o + i + 1)%Z))%R.
Lemma bz_line_run o (e : R) (r : Z -> out R) (f : Z -> R) y res : 0 <= o <= 2 * nd -> (forall i, 0 <= i < nd -> r i = Ok (f i)) ->
  wp (bz_line (K := Rnum) nd o e r y res) (fun res' => forall k, res' k = if inb o (o + nd - 1) k then (bz_lap o e y (k - o)%Z + f (k - o)%Z)%R else res k).
Proof.
  intros Ho Hr. unfold bz_line. cbv zeta. apply wp_rd; [lia|]. apply wp_rd; [lia|]. rewrite Hr by lia. apply wp_okb. apply wp_wr; [lia|]. apply wp_bind.
  set (P := fun (m : Z) (res' : Z -> R) => forall k, res' k = if inb o (o + m - 1) k then (bz_lap o e y (k - o)%Z + f (k - o)%Z)%R else res k).
  match goal with |- wp (forM _ _ ?b ?s) _ => assert (HL : wp (forM 1 (nd - 2) b s) (P (nd - 2 + 1))) end.
  { apply forM_ind; [lia| |].
    - intros k. unfold upd, inb. destruct (Z.eqb_spec k o), (Z.leb_spec o k), (Z.leb_spec k (o + 1 - 1)); try lia; cbn; try reflexivity.
      subst. rewrite Z.sub_diag. unfold bz_lap. cbn. rewrite Rlit_0. reflexivity.
    - intros m res' Hm HP. apply wp_rd; [lia|]. apply wp_rd; [lia|]. apply wp_rd; [lia|]. rewrite Hr by lia. apply wp_okb. rewrite wr_ok by lia. cbn [wp].
      intros k. unfold upd. rewrite HP. unfold inb. destruct (Z.eqb_spec k (o + m)), (Z.leb_spec o k), (Z.leb_spec k (o + m - 1)), (Z.leb_spec k (o + (m + 1) - 1)); try lia; cbn; try reflexivity.
      subst. replace (o + m - o) with m by lia. unfold bz_lap. destruct (Z.eqb_spec m 0); [lia|]. destruct (Z.eqb_spec m (nd - 1)); [lia|]. cbn. rewrite Rlit_0. reflexivity. }
  refine (wp_mono _ _ _ HL _). intros res' HP. apply wp_rd; [lia|]. apply wp_rd; [lia|]. rewrite Hr by lia. apply wp_okb. rewrite wr_ok by lia. cbn [wp].
  intros k. unfold upd. rewrite HP. unfold inb. destruct (Z.eqb_spec k (o + nd - 1)), (Z.leb_spec o k), (Z.leb_spec k (o + (nd - 2 + 1) - 1)), (Z.leb_spec k (o + nd - 1)); try lia; cbn; try reflexivity.
  subst. replace (o + nd - 1 - o) with (nd - 1) by lia. unfold bz_lap. rewrite Z.eqb_refl. destruct (Z.eqb_spec (nd - 1) 0); [lia|]. cbn. rewrite Rlit_0. reflexivity.
Qed.
Definition bz_F (y : Z -> R) (k : Z) : R :=
  if k <? nd then (bz_lap 0 e0 y k + r1 (y k) (y (nd + k)%Z))%R
  else if k <? 2 * nd then (bz_lap nd e1 y (k - nd)%Z + r2 (y (k - nd)%Z) (y k) (y (nd + k)%Z))%R
  else (bz_lap (2 * nd)%Z e2 y (k - 2 * nd)%Z + r3 (y (k - 2 * nd)%Z) (y k))%R.
Lemma bz_at_ok (y : Z -> R) i f : 0 <= i < nd -> bz_at (K := Rnum) nd y i f = Ok (f (y i) (y (nd + i)) (y (2 * nd + i))).
Proof. intros H. unfold bz_at. rewrite !rd_ok by lia. reflexivity. Qed.
Lemma bz_computes : computes (3 * nd) (bz_rhs (K := Rnum) nd e0 e1 e2) bz_F.
Proof.
  intros y res. unfold bz_rhs. apply wp_bind.
  eapply wp_mono; [apply (bz_line_run 0 e0 _ (fun i => bz_f1 (K := Rnum) (y i) (y (nd + i)) (y (2 * nd + i))) y res); [lia|intros; apply bz_at_ok; lia]|].
  cbv beta. intros a Ha. apply wp_bind.
  eapply wp_mono; [apply (bz_line_run nd e1 _ (fun i => bz_f2 (K := Rnum) (y i) (y (nd + i)) (y (2 * nd + i))) y a); [lia|intros; apply bz_at_ok; lia]|].
  cbv beta. intros b Hb.
  eapply wp_mono; [apply (bz_line_run (2 * nd) e2 _ (fun i => bz_f3 (K := Rnum) (y i) (y (nd + i)) (y (2 * nd + i))) y b); [lia|intros; apply bz_at_ok; lia]|].
  cbv beta. intros c Hc k Hk. rewrite Hc, Hb, Ha. unfold bz_F, inb.
  destruct (Z.ltb_spec k nd), (Z.ltb_spec k (2 * nd)), (Z.leb_spec (2 * nd) k), (Z.leb_spec nd k), (Z.leb_spec k (2 * nd + nd - 1)), (Z.leb_spec k (nd + nd - 1)), (Z.leb_spec 0 k), (Z.leb_spec k (0 + nd - 1)); try lia; cbn [andb].
  - rewrite Z.sub_0_r. f_equal. unfold bz_f1, r1. cbn. rewrite L_a, L_b, Rlit_0. reflexivity.
  - f_equal. replace (nd + (k - nd)) with k by lia. replace (2 * nd + (k - nd)) with (nd + k) by lia.
    unfold bz_f2, r2, oreg_u7. cbn. rewrite L_a, Rlit_0. field.
  - f_equal. replace (2 * nd + (k - 2 * nd)) with k by lia. unfold bz_f3, r3. cbn. rewrite L_c. reflexivity.
Qed.
End Rhs.

Section Jac.
Variables (e0 e1 e2 : R).
Notation nd := 100.
Definition slot := 1411.    (* the place of (202,202) in band storage *)
Lemma slot_eq : slot = lapack_gb 2 2 202 202. Proof. reflexivity. Qed.
Lemma off_eq i j : fb_off 2 2 i j = 6 * j + i - 3. Proof. unfold fb_off, fb_l1, fb_cc, fb_klku, fb_ldab. lia. Qed.
Lemma bset J i j v : 0 <= 6 * j + i - 3 <= 2099 -> fb_set (K := Rnum) (3 * nd) 2 2 J i j v = Ok (upd J (6 * j + i - 3) v).
Proof. intros H. unfold fb_set, bwr. rewrite off_eq. change (fb_size (3 * nd) 2 2 - 1) with 2099. apply wr_ok. lia. Qed.
Lemma bget J i j : 0 <= 6 * j + i - 3 <= 2099 -> fb_get (K := Rnum) (3 * nd) 2 2 J i j = Ok (J (6 * j + i - 3)).
Proof. intros H. unfold fb_get, brd. rewrite off_eq. change (fb_size (3 * nd) 2 2 - 1) with 2099. apply rd_ok. lia. Qed.
Ltac bs := rewrite bset by lia; cbn [bind].
Lemma bz_lin_run o (e : R) J : (o = 0 \/ o = 100 \/ o = 200) ->
  wp (bz_lin (K := Rnum) nd o e J) (fun J' => o = 200 -> J' slot = (- 2 * e)%R).
Proof.
  intros Ho. unfold bz_lin. cbv zeta. bs. bs. apply wp_bind.
  set (P := fun (k : Z) (J : Z -> R) => o = 200 -> 2 < k -> J slot = (-2 * e)%R).
  match goal with |- wp (forM _ _ ?b ?s) _ => assert (HL : wp (forM 2 (nd - 1) b s) (P (nd - 1 + 1))) end.
  { apply forM_ind; [lia|intros _ H; lia|]. intros k J' Hk HP. bs. bs. rewrite bset by lia. cbn [wp]. intros E Hk'.
    unfold slot. rewrite upd_other by lia. rewrite upd_other by lia. destruct (Z.eq_dec k 2) as [->|].
    - replace (6 * (o + 2) + (o + 2) - 3) with 1411 by lia. rewrite upd_same. cbn. rewrite Rlit_0. ring.
    - rewrite upd_other by lia. apply HP; lia. }
  refine (wp_mono _ _ _ HL _). intros J' HP. bs. rewrite bset by lia. cbn [wp]. intros E. unfold slot. rewrite !upd_other by lia. apply HP; lia.
Qed.
Lemma fa3_get (J : Z -> R) i j : 1 <= i <= 3 -> 1 <= j <= 3 -> fa_get (K := Rnum) 3 J i j = Ok (J ((j - 1) * 3 + i - 1)).
Proof. intros. unfold fa_get, brd, fa_off. change (fa_size 3 - 1) with 8. apply rd_ok. lia. Qed.
Lemma bz_inner (J3 J : Z -> R) i : 1 <= i <= nd ->
  wp (forM 1 3 (fun j1 J => forM 1 3 (fun i1 J =>
      d <- fa_get (K := Rnum) 3 J3 i1 j1 ;; x <- fb_get (3 * nd) 2 2 J (i + (i1 - 1) * nd) (i + (j1 - 1) * nd) ;;
      fb_set (3 * nd) 2 2 J (i + (i1 - 1) * nd) (i + (j1 - 1) * nd) (x + d)%num) J) J)
     (fun J' => J' slot = if i =? 2 then (J slot + J3 8%Z)%R else J slot).
Proof.
  intros Hi.
  set (P := fun (j1 : Z) (J' : Z -> R) => J' slot = if (i =? 2) && (3 <? j1) then (J slot + J3 8%Z)%R else J slot).
  match goal with |- wp (forM _ _ ?b ?s) _ => assert (HL : wp (forM 1 3 b s) (P (3 + 1))) end.
  { apply forM_ind; [lia| |].
    - unfold P. rewrite andb_false_r. reflexivity.
    - intros j1 J1 Hj HP.
      set (Q := fun (i1 : Z) (J' : Z -> R) => J' slot = if (i =? 2) && (3 <? j1 + 1) && (3 <? i1) then (J slot + J3 8%Z)%R else J slot).
      match goal with |- wp (forM _ _ ?b ?s) _ => assert (HL : wp (forM 1 3 b s) (Q (3 + 1))) end.
      { apply forM_ind; [lia| |].
        - unfold Q. unfold P in HP. rewrite HP. replace (3 <? j1) with false by (symmetry; apply Z.ltb_ge; lia). rewrite !andb_false_r. reflexivity.
        - intros i1 J2 Hi1 HQ. rewrite fa3_get by lia. cbn [bind]. rewrite bget by lia. cbn [bind]. rewrite bset by lia. cbn [wp].
          unfold Q in *. unfold upd, slot in *. destruct (Z.eqb_spec 1411 (6 * (i + (j1 - 1) * 100) + (i + (i1 - 1) * 100) - 3)) as [E|E].
          + assert (i = 2 /\ j1 = 3 /\ i1 = 3) as (-> & -> & ->).
            { assert (C1 : j1 = 1 \/ j1 = 2 \/ j1 = 3) by lia. assert (C2 : i1 = 1 \/ i1 = 2 \/ i1 = 3) by lia.
              destruct C1 as [-> | [-> | ->]], C2 as [-> | [-> | ->]]; lia. }
            cbn [Z.eqb Pos.eqb andb] in *. simpl in HQ. simpl. rewrite HQ. reflexivity.
          + rewrite HQ. assert (N : ~ (i = 2 /\ j1 = 3 /\ i1 = 3)). { intros (-> & -> & ->). apply E. reflexivity. }
            clear E. destruct (Z.eqb_spec i 2), (Z.ltb_spec 3 (j1 + 1)), (Z.ltb_spec 3 i1), (Z.ltb_spec 3 (i1 + 1)); cbn; try reflexivity; lia. }
      refine (wp_mono _ _ _ HL _). intros J' HQ. unfold P. unfold Q in HQ. rewrite HQ. change (3 <? 3 + 1) with true. rewrite andb_true_r. reflexivity. }
  refine (wp_mono _ _ _ HL _). intros J' HP. unfold P in HP. rewrite HP. rewrite andb_true_r. reflexivity.
Qed.
Lemma bz_jac_run (y J0 : Z -> R) : wp (bz_jac (K := Rnum) nd e0 e1 y J0) (fun J => J slot = (-2 * e1 - 161/1000)%R).
Proof.
  unfold bz_jac. apply wp_bind. eapply wp_mono; [apply bz_lin_run; auto|]. intros Ja _. cbv beta.
  apply wp_bind. eapply wp_mono; [apply bz_lin_run; auto|]. intros Jb _. cbv beta.
  apply wp_bind. eapply wp_mono; [apply (bz_lin_run 200); auto|]. cbv beta. intros Jc Hc. specialize (Hc eq_refl).
  set (P := fun (k : Z) (J : Z -> R) => J slot = if 2 <? k then (-2 * e1 - 161/1000)%R else (-2 * e1)%R).
  match goal with |- wp (forM _ _ ?b ?s) _ => assert (HL : wp (forM 1 nd b s) (P (nd + 1))) end.
  { apply forM_ind; [lia|exact Hc|]. intros i J Hi HP. apply wp_rd; [lia|]. apply wp_rd; [lia|]. apply wp_rd; [lia|]. apply wp_bind.
    eapply wp_mono; [apply jac_radau_run|]. cbv beta. intros J3 (_ & _ & _ & _ & _ & _ & _ & _ & H8).
    eapply wp_mono; [apply bz_inner; lia|]. cbv beta. intros J' E. unfold P in *. rewrite E, HP, H8.
    destruct (Z.eqb_spec i 2), (Z.ltb_spec 2 i), (Z.ltb_spec 2 (i + 1)); try lia; lra. }
  refine (wp_mono _ _ _ HL _). intros J HP. exact HP.
Qed.
Lemma bz_wrong y J0 : e1 <> e2 -> wrong_at (lapack_gb 2 2) (bz_F nd e0 e1 e2) (bz_jac (K := Rnum) nd e0 e1) 202 202 y J0.
Proof.
  intros He. unfold wrong_at. eapply wp_mono; [apply bz_jac_run|]. cbv beta. intros J HJ HP. rewrite <- slot_eq, HJ in HP. apply He.
  assert (HD : partial (bz_F nd e0 e1 e2) y 201 201 (-2 * e2 - 161/1000)).
  { unfold partial. apply (dpl_ext (fun x => e2 * (y 200%Z + y 202%Z) + (-2 * e2 - 161/1000) * x + 161/1000 * y 1%Z)%R).
    { intros z. unfold bz_F, bz_lap, r3. cbn. unfold upd. cbn. ring. }
    eapply dpl_val; [|apply (derivable_pt_lim_plus (fun x => e2 * (y 200%Z + y 202%Z) + (-2 * e2 - 161/1000) * x)%R (fun _ => 161/1000 * y 1%Z)%R)].
    2:{ apply (derivable_pt_lim_plus (fun x => e2 * (y 200%Z + y 202%Z))%R (fun x => (-2 * e2 - 161/1000) * x)%R); [apply derivable_pt_lim_const|].
        apply (derivable_pt_lim_scal id _ (y 201)). apply derivable_pt_lim_id. }
    2: apply derivable_pt_lim_const. ring. }
  pose proof (uniqueness_limite _ _ _ _ HP HD). lra.
Qed.
End Jac.
