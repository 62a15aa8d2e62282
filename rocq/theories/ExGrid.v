(* Proofs about the one-dimensional examples of ExModel.v. *)
From Coq Require Import Reals Lra.
From Verif Require Import Base Spec HessModel LayoutModel LayoutProofs ExModel ExSpec.
Open Scope Z_scope.

(* ---- derivatives ---------------------------------------------------------- *)
Lemma dpl_ext f h x d : (forall z, f z = h z) -> derivable_pt_lim f x d -> derivable_pt_lim h x d.
Proof. intros E H e He. destruct (H e He) as [de Hd]. exists de. intros k Hk Hk'. rewrite <- !E. auto. Qed.
Lemma dpl_val f x d d' : d = d' -> derivable_pt_lim f x d -> derivable_pt_lim f x d'.
Proof. intros <-. auto. Qed.
Definition dl (l j : Z) : R := if l =? j then 1%R else 0%R.
Lemma dpl_coord (y : Z -> R) l j : derivable_pt_lim (fun x => upd y j x l) (y j) (dl l j).
Proof.
  unfold upd, dl. destruct (l =? j); [apply (derivable_pt_lim_id (y j))|apply (derivable_pt_lim_const (y l) (y j))].
Qed.
Lemma dpl_lin (y : Z -> R) c l j : derivable_pt_lim (fun x => c * upd y j x l)%R (y j) (c * dl l j)%R.
Proof. apply (derivable_pt_lim_scal (fun x => upd y j x l) c (y j) (dl l j)), dpl_coord. Qed.
Lemma dpl_fun (y : Z -> R) (h : R -> R) d i j : derivable_pt_lim h (y i) d ->
  derivable_pt_lim (fun x => h (upd y j x i)) (y j) (d * dl i j)%R.
Proof.
  intros H. unfold upd, dl. destruct (Z.eqb_spec i j) as [->|].
  - apply (dpl_val h (y j) d); [lra|exact H].
  - apply (dpl_val (fun _ => h (y i)) (y j) 0); [lra|apply (derivable_pt_lim_const (h (y i)))].
Qed.

Section Grid.
Variables (n : Z) (eh2 : R).
Hypothesis Hn : 3 <= n.
Variables g dg : Z -> R -> R.
Hypothesis Hg : forall i u, derivable_pt_lim (g i) u (dg i u).

Definition ca (i : Z) : R := if i =? 0 then 0%R else if i =? n - 1 then (2 * eh2)%R else eh2.
Definition cc (i : Z) : R := if i =? 0 then (2 * eh2)%R else if i =? n - 1 then 0%R else eh2.
Definition grid_F (y : Z -> R) (i : Z) : R :=
  (ca i * y (i - 1)%Z + (-2 * eh2) * y i + cc i * y (i + 1)%Z + g i (y i))%R.
Definition grid_D (y : Z -> R) (i j : Z) : R :=
  (ca i * dl (i - 1) j + (-2 * eh2) * dl i j + cc i * dl (i + 1) j + dg i (y i) * dl i j)%R.

Lemma grid_partial y i j : partial grid_F y i j (grid_D y i j).
Proof.
  unfold partial, grid_F, grid_D.
  apply (derivable_pt_lim_plus (fun x => ca i * upd y j x (i - 1)%Z + (-2 * eh2) * upd y j x i + cc i * upd y j x (i + 1)%Z)%R (fun x => g i (upd y j x i))).
  2: apply dpl_fun, Hg.
  apply (derivable_pt_lim_plus (fun x => ca i * upd y j x (i - 1)%Z + (-2 * eh2) * upd y j x i)%R (fun x => cc i * upd y j x (i + 1)%Z)%R).
  2: apply dpl_lin.
  apply (derivable_pt_lim_plus (fun x => ca i * upd y j x (i - 1)%Z)%R (fun x => (-2 * eh2) * upd y j x i)%R); apply dpl_lin.
Qed.

Lemma grid_F0 y : grid_F y 0 = (2 * eh2 * (y 1%Z - y 0%Z) + g 0%Z (y 0%Z))%R.
Proof. unfold grid_F, ca, cc. change (0 + 1) with 1. simpl. ring. Qed.
Lemma grid_FN y : grid_F y (n - 1) = (2 * eh2 * (y (n - 2)%Z - y (n - 1)%Z) + g (n - 1)%Z (y (n - 1)%Z))%R.
Proof.
  unfold grid_F, ca, cc. rewrite Z.eqb_refl. destruct (Z.eqb_spec (n - 1) 0); [lia|].
  replace (n - 1 - 1) with (n - 2) by lia. ring.
Qed.
Lemma grid_Fi y i : 1 <= i <= n - 2 -> grid_F y i = (eh2 * (y (i - 1)%Z - 2 * y i + y (i + 1)%Z) + g i (y i))%R.
Proof.
  intros Hi. unfold grid_F, ca, cc. destruct (Z.eqb_spec i 0); [lia|]. destruct (Z.eqb_spec i (n - 1)); [lia|]. ring.
Qed.

Lemma grid_computes : computes n (grid_rhs n eh2 g) grid_F.
Proof.
  intros y res. unfold grid_rhs.
  apply wp_rd; [lia|]. apply wp_rd; [lia|]. apply wp_wr; [lia|]. apply wp_bind.
  set (P := fun (k : Z) (r : Z -> R) => forall i, 0 <= i < k -> r i = grid_F y i).
  match goal with |- wp (forM _ _ ?b ?s) _ => assert (HL : wp (forM 1 (n - 2) b s) (P (n - 2 + 1))) end.
  { apply forM_ind; [lia| |].
    - intros i Hi. assert (i = 0) by lia. subst. rewrite upd_same, grid_F0. cbn. rewrite Rlit_0. reflexivity.
    - intros i r Hi HP. apply wp_rd; [lia|]. apply wp_rd; [lia|]. apply wp_rd; [lia|]. rewrite wr_ok by lia. cbn [wp].
      intros k Hk. destruct (Z.eq_dec k i) as [->|].
      + rewrite upd_same, grid_Fi by lia. cbn. rewrite Rlit_0. reflexivity.
      + rewrite upd_other by auto. apply HP. lia. }
  refine (wp_mono _ _ _ HL _). intros r HP. apply wp_rd; [lia|]. apply wp_rd; [lia|]. rewrite wr_ok by lia. cbn [wp].
  intros i Hi. destruct (Z.eq_dec i (n - 1)) as [->|].
  - rewrite upd_same, grid_FN. cbn. rewrite Rlit_0. reflexivity.
  - rewrite upd_other by auto. apply HP. lia.
Qed.

(* the element of row i, column j that the code stores before the last statement *)
Definition grid_row (y : Z -> R) (i j : Z) : R :=
  if i =? j then (-2 * eh2 + dg (i - 1)%Z (y i))%R else if i =? 1 then (2 * eh2)%R else eh2.
Lemma gb_upd J v i j i' j' : in_band n 1 1 i j -> in_band n 1 1 i' j' ->
  upd J (lapack_gb 1 1 i j) v (lapack_gb 1 1 i' j') = (if (i' =? i) && (j' =? j) then v else J (lapack_gb 1 1 i' j') : R).
Proof.
  intros H H'. destruct (fb_layout n 1 1 ltac:(lia) ltac:(lia) ltac:(lia) i j H) as (E & _ & Hinj).
  destruct (fb_layout n 1 1 ltac:(lia) ltac:(lia) ltac:(lia) i' j' H') as (E' & _ & _).
  unfold upd. destruct (Z.eqb_spec (lapack_gb 1 1 i' j') (lapack_gb 1 1 i j)) as [e|ne].
  - rewrite <- E, <- E' in e. destruct (Hinj i' j' H' e). subst. rewrite !Z.eqb_refl. reflexivity.
  - destruct (Z.eqb_spec i' i), (Z.eqb_spec j' j); subst; simpl; congruence.
Qed.
Lemma wp_set {B} J v i j (k : (Z -> R) -> out B) Q : in_band n 1 1 i j ->
  wp (k (upd J (lapack_gb 1 1 i j) v)) Q -> wp (bind (fb_set (K := Rnum) n 1 1 J i j v) k) Q.
Proof.
  intros H. destruct (fb_layout n 1 1 ltac:(lia) ltac:(lia) ltac:(lia) i j H) as (E & Hb & _).
  unfold fb_set, bwr. rewrite wr_ok by lia. rewrite E. auto.
Qed.
Lemma set_ok J v i j : in_band n 1 1 i j -> fb_set (K := Rnum) n 1 1 J i j v = Ok (upd J (lapack_gb 1 1 i j) v).
Proof.
  intros H. destruct (fb_layout n 1 1 ltac:(lia) ltac:(lia) ltac:(lia) i j H) as (E & Hb & _).
  unfold fb_set, bwr. rewrite wr_ok by lia. rewrite E. auto.
Qed.
Ltac band := unfold in_band; lia.

Lemma grid_jac_run li lj y J0 : in_band n 1 1 li lj ->
  wp (grid_jac (K := Rnum) n eh2 dg li lj y J0) (fun J => forall i j, in_band n 1 1 i j ->
    J (lapack_gb 1 1 i j) = if (i =? li) && (j =? lj) then (2 * eh2)%R
      else if (i =? n) && (j =? n - 1) then J0 (lapack_gb 1 1 n (n - 1)) else grid_row y i j).
Proof.
  intros Hl. unfold grid_jac. apply wp_rd; [lia|]. cbv zeta. apply wp_set; [band|]. apply wp_set; [band|]. apply wp_bind.
  set (P := fun (k : Z) (J : Z -> R) => forall i j, in_band n 1 1 i j ->
     J (lapack_gb 1 1 i j) = if i <? k then grid_row y i j else J0 (lapack_gb 1 1 i j)).
  match goal with |- wp (forM _ _ ?b ?s) _ => assert (HL : wp (forM 2 (n - 1) b s) (P (n - 1 + 1))) end.
  { apply forM_ind; [lia| |].
    - intros i j H. rewrite !gb_upd by (exact H || band). cbn. rewrite !Rlit_0. unfold grid_row.
      unfold in_band in H. destruct (Z.eqb_spec i 1), (Z.eqb_spec j 1), (Z.eqb_spec j 2), (Z.eqb_spec i j), (Z.ltb_spec i 2); cbn; try lia; try reflexivity; subst; try discriminate; simpl Z.sub; try ring.
    - intros k J Hk HP. apply wp_rd; [lia|]. apply wp_set; [band|]. apply wp_set; [band|]. rewrite set_ok by band. cbn [wp].
      intros i j H. rewrite !gb_upd by (exact H || band). rewrite (HP i j H). cbn. rewrite !Rlit_0. unfold grid_row. unfold in_band in H.
      destruct (Z.eqb_spec i k) as [->|].
      + destruct (Z.ltb_spec k (k + 1)); [|lia].
        destruct (Z.eqb_spec j (k + 1)), (Z.eqb_spec j (k - 1)), (Z.eqb_spec j k), (Z.eqb_spec k j), (Z.eqb_spec k 1); cbn; try lia; try ring.
      + cbn. destruct (Z.ltb_spec i k), (Z.ltb_spec i (k + 1)); try lia; reflexivity. }
  refine (wp_mono _ _ _ HL _). intros J HP. apply wp_rd; [lia|]. apply wp_set; [band|]. rewrite set_ok by exact Hl. cbn [wp].
  intros i j H. rewrite !gb_upd by (exact H || exact Hl || band). rewrite (HP i j H). cbn. rewrite !Rlit_0.
  destruct ((i =? li) && (j =? lj)); [reflexivity|]. unfold in_band in H. unfold grid_row.
  destruct (Z.eqb_spec i n) as [->|].
  - destruct (Z.eqb_spec j n) as [->|]; cbn.
    + rewrite Z.eqb_refl. destruct (Z.eqb_spec n (n - 1)); [lia|]. ring.
    + destruct (Z.eqb_spec j (n - 1)) as [->|]; [|lia]. destruct (Z.ltb_spec n (n - 1 + 1)); [lia|reflexivity].
  - cbn. destruct (Z.ltb_spec i (n - 1 + 1)); [reflexivity|lia].
Qed.

(* the true derivative, by place *)
Lemma grid_D_at y i j : 1 <= i <= n -> 1 <= j <= n ->
  grid_D y (i - 1) (j - 1) =
    if i =? j then (-2 * eh2 + dg (i - 1)%Z (y (i - 1)%Z))%R
    else if j =? i - 1 then (if i =? n then 2 * eh2 else eh2)%R
    else if j =? i + 1 then (if i =? 1 then 2 * eh2 else eh2)%R else 0%R.
Proof.
  intros Hi Hj. unfold grid_D, ca, cc, dl.
  destruct (Z.eqb_spec (i - 1 - 1) (j - 1)), (Z.eqb_spec (i - 1) (j - 1)), (Z.eqb_spec (i - 1 + 1) (j - 1)), (Z.eqb_spec i j), (Z.eqb_spec j (i - 1)), (Z.eqb_spec j (i + 1)),
    (Z.eqb_spec (i - 1) 0), (Z.eqb_spec (i - 1) (n - 1)), (Z.eqb_spec i n), (Z.eqb_spec i 1); try lia; ring.
Qed.
Lemma grid_unique y i j d : partial grid_F y i j d -> d = grid_D y i j.
Proof. intros H. exact (uniqueness_limite _ _ _ _ H (grid_partial y i j)). Qed.

Lemma grid_jac_right li lj : in_band n 1 1 li lj ->
  jacobian_on (fun i j => in_band n 1 1 i j /\ (i, j) <> (li, lj) /\ (i, j) <> (n, n - 1)) (lapack_gb 1 1) grid_F (grid_jac (K := Rnum) n eh2 dg li lj).
Proof.
  intros Hl y J0. eapply wp_mono; [apply grid_jac_run; exact Hl|]. intros J HJ i j (H & N1 & N2).
  rewrite (HJ i j H). cbv beta.
  destruct (Z.eqb_spec i li), (Z.eqb_spec j lj); cbn [andb]; try (exfalso; congruence);
  (destruct (Z.eqb_spec i n), (Z.eqb_spec j (n - 1)); cbn [andb]; try (exfalso; congruence);
   (apply (dpl_val _ _ (grid_D y (i - 1) (j - 1))); [|apply grid_partial];
    unfold in_band in H; rewrite grid_D_at by lia; unfold grid_row;
    destruct (Z.eqb_spec i j), (Z.eqb_spec j (i - 1)), (Z.eqb_spec j (i + 1)), (Z.eqb_spec i n), (Z.eqb_spec i 1); try lia; reflexivity)).
Qed.
Lemma grid_banded : banded n 1 1 grid_F.
Proof.
  intros y i j [Hi Hj] H. apply (dpl_val _ _ (grid_D y (i - 1) (j - 1))); [|apply grid_partial].
  rewrite grid_D_at by lia. unfold in_band in H.
  destruct (Z.eqb_spec i j), (Z.eqb_spec j (i - 1)), (Z.eqb_spec j (i + 1)); try lia; reflexivity.
Qed.
Lemma grid_jac_wrong y J0 : eh2 <> 0%R -> wrong_at (lapack_gb 1 1) grid_F (grid_jac (K := Rnum) n eh2 dg (n - 1) n) (n - 1) n y J0.
Proof.
  intros He. unfold wrong_at. eapply wp_mono; [apply grid_jac_run; band|]. intros J HJ HP.
  rewrite (HJ (n - 1) n ltac:(band)) in HP. apply grid_unique in HP. rewrite grid_D_at in HP by lia. rewrite !Z.eqb_refl in HP. cbn in HP.
  destruct (Z.eqb_spec (n - 1) n), (Z.eqb_spec n (n - 1 - 1)), (Z.eqb_spec n (n - 1 + 1)), (Z.eqb_spec (n - 1) 1); try lia. apply He. lra.
Qed.
Lemma grid_jac_left li lj y J0 : in_band n 1 1 li lj -> (li, lj) <> (n, n - 1) ->
  wp (grid_jac (K := Rnum) n eh2 dg li lj y J0) (fun J => J (lapack_gb 1 1 n (n - 1)) = J0 (lapack_gb 1 1 n (n - 1))).
Proof.
  intros Hl N. eapply wp_mono; [apply grid_jac_run; exact Hl|]. intros J HJ. rewrite (HJ n (n - 1) ltac:(band)). rewrite !Z.eqb_refl. cbn.
  destruct (Z.eqb_spec n li), (Z.eqb_spec (n - 1) lj); cbn; subst; try reflexivity. congruence.
Qed.
Lemma grid_left_wrong li lj y J0 : in_band n 1 1 li lj -> (li, lj) <> (n, n - 1) -> J0 (lapack_gb 1 1 n (n - 1)) <> (2 * eh2)%R ->
  wrong_at (lapack_gb 1 1) grid_F (grid_jac (K := Rnum) n eh2 dg li lj) n (n - 1) y J0.
Proof.
  intros Hl N HJ0. unfold wrong_at. eapply wp_mono; [apply grid_jac_left; assumption|]. intros J -> HP.
  apply grid_unique in HP. rewrite grid_D_at in HP by lia. rewrite !Z.eqb_refl in HP. destruct (Z.eqb_spec n (n - 1)); [lia|]. auto.
Qed.
Lemma grid_jac_wrong_nn y J0 : (4 * eh2)%R <> dg (n - 1) (y (n - 1)) -> wrong_at (lapack_gb 1 1) grid_F (grid_jac (K := Rnum) n eh2 dg n n) n n y J0.
Proof.
  intros He. unfold wrong_at. eapply wp_mono; [apply grid_jac_run; band|]. intros J HJ HP.
  rewrite (HJ n n ltac:(band)) in HP. apply grid_unique in HP. rewrite grid_D_at in HP by lia. rewrite !Z.eqb_refl in HP. cbn in HP.
  apply He. lra.
Qed.
End Grid.

(* any function the right-hand side computes is grid_F on the components *)
Lemma computes_ext n rhs F F' y i j d : computes n rhs F -> computes n rhs F' -> 0 <= i < n -> partial F y i j d -> partial F' y i j d.
Proof.
  intros H H' Hi. apply dpl_ext. intros x. specialize (H (upd y j x) (fun _ => 0%R)). specialize (H' (upd y j x) (fun _ => 0%R)).
  destruct (rhs (upd y j x) (fun _ => 0%R)); try contradiction. cbn in H, H'. rewrite <- (H i Hi). apply H', Hi.
Qed.
Lemma wrong_ext n rhs F F' at_ jac i j y J0 : computes n rhs F -> computes n rhs F' -> 0 <= i - 1 < n -> wrong_at at_ F jac i j y J0 -> wrong_at at_ F' jac i j y J0.
Proof. intros H H' Hi HW. unfold wrong_at in *. eapply wp_mono; [exact HW|]. intros J HJ HP. apply HJ. exact (computes_ext n rhs F' F y _ _ _ H' H Hi HP). Qed.
Lemma on_ext n rhs F F' (ok : Z -> Z -> Prop) at_ jac : computes n rhs F -> computes n rhs F' -> (forall i j, ok i j -> 0 <= i - 1 < n) -> jacobian_on ok at_ F jac -> jacobian_on ok at_ F' jac.
Proof. intros H H' Hi HW y J0. eapply wp_mono; [apply HW|]. intros J HJ i j Ho. exact (computes_ext n rhs F F' y _ _ _ H H' (Hi i j Ho) (HJ i j Ho)). Qed.
Lemma banded_ext n kl ku rhs F F' : computes n rhs F -> computes n rhs F' -> banded n kl ku F -> banded n kl ku F'.
Proof. intros H H' HW y i j Hf Hb. refine (computes_ext n rhs F F' y _ _ _ H H' _ (HW y i j Hf Hb)). destruct Hf; lia. Qed.

(* the reactions *)
Lemma kpp_der (u : R) : derivable_pt_lim (kpp_f (K := Rnum)) u (kpp_df u).
Proof.
  apply (dpl_ext (fun u => u * u * (1 - u))%R). { intros z. unfold kpp_f. cbn. rewrite Rlit_0. reflexivity. }
  apply (dpl_val _ _ ((1 * u + u * 1) * (1 - u) + (u * u) * (0 - 1))%R). { unfold kpp_df. cbn. rewrite !Rlit_0. ring. }
  apply (derivable_pt_lim_mult (fun u => u * u)%R (fun u => 1 - u)%R).
  - apply (derivable_pt_lim_mult id id); apply derivable_pt_lim_id.
  - apply (derivable_pt_lim_minus (fun _ => 1%R) id); [apply derivable_pt_lim_const|apply derivable_pt_lim_id].
Qed.
Lemma rodas_der (k u : R) : derivable_pt_lim (rodas_f (K := Rnum) k) u (rodas_df (K := Rnum) k u).
Proof.
  apply (dpl_ext (fun u => k * kpp_f (K := Rnum) u)%R). { intros z. unfold kpp_f, rodas_f. cbn. ring. }
  apply (dpl_val _ _ (k * kpp_df (K := Rnum) u)%R). { unfold kpp_df, rodas_df. cbn. ring. }
  apply (derivable_pt_lim_scal (kpp_f (K := Rnum)) k u (kpp_df (K := Rnum) u)), kpp_der.
Qed.
