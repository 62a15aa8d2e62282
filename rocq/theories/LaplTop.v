(* The heat equation with Lapl1d. *)
From Coq Require Import ZArith Bool List Reals Lra Lia Sorting.Sorted.
From Verif Require Import Base FieldLU HessModel Spec HessPathProofs SdirkModel SdirkSpec SdirkTop LaplModel LaplSpec LaplProofs.
Open Scope Z_scope.
Import ListNotations.
Local Notation length := Datatypes.length.

(* ---- sequences of assignments ---- *)
Lemma srt_nil {K : num} : srt (K := K) [].
Proof. constructor. Qed.
Section Any.
Context {K : num}.
Variables (n : Z) (l : list (Z * Z * K)) (P : premat K).
Hypothesis Hn : 1 <= n.
Hypothesis HB : forall x, In x l -> 1 <= fst (fst x) <= n /\ 1 <= snd (fst x) <= n.
Hypothesis HP : pm_lig P <= n.
Hypothesis HR : exists x, In x l /\ fst (fst x) = n.
Notation M := (pm_M (assign l (pm_clear P))).
Lemma clear_lk i j : lk M (i, j) = assigned l i j.
Proof. rewrite assign_lk. cbn. now destruct (assigned l i j). Qed.
Lemma clear_srt : srt M.
Proof. apply assign_srt. constructor. Qed.
Lemma clear_lig : pm_lig (assign l (pm_clear P)) = n.
Proof.
  rewrite assign_lig. cbn [pm_clear pm_lig]. destruct (fold_max l (pm_lig P)) as (A & B & C). destruct HR as (x & Hx & Ex).
  specialize (B x Hx). destruct C as [C|(y & Hy & C)]; [lia|]. apply HB in Hy. lia.
Qed.
Lemma assigned_in i j v : assigned l i j = Some v -> In (i, j, v) l.
Proof.
  clear. induction l as [|[[i' j'] w] t IH]; cbn [assigned]; [discriminate|]. destruct (assigned t i j) eqn:E.
  - intros [= ->]. right. now apply IH.
  - destruct ((i =? i') && (j =? j')) eqn:E2; [|discriminate]. apply andb_true_iff in E2. rewrite !Z.eqb_eq in E2. destruct E2; subst. intros [= ->]. now left.
Qed.
Lemma in_assigned i j v : In (i, j, v) l -> exists w, assigned l i j = Some w.
Proof.
  clear. induction l as [|[[i' j'] w] t IH]; cbn [assigned]; [intros []|]. intros [[= -> -> ->]|H].
  - rewrite !Z.eqb_refl. cbn. destruct (assigned t i j); eexists; reflexivity.
  - destruct (IH H) as (u & ->). now exists u.
Qed.
Lemma clear_in e : In e M <-> assigned l (row e) (col e) = Some (snd e).
Proof. rewrite <- clear_lk, <- lk_in by apply clear_srt. destruct e as [[i j] v]. reflexivity. Qed.
Lemma clear_bounds e : In e M -> 1 <= row e <= n /\ 1 <= col e <= n.
Proof. intros H. apply clear_in, assigned_in, HB in H. exact H. Qed.
Lemma cc_ext {T} nn nnz (a : Z -> T) ri cp A B : (forall i j, A i j = B i j) -> compressed_columns nn nnz a ri cp A -> compressed_columns nn nnz a ri cp B.
Proof. intros E (H1 & H2 & H3 & H4 & H5 & H6). repeat split; try assumption; try (now apply (H4 j)); rewrite <- E; now apply H6. Qed.
Lemma columns_ok a0 ri0 cp0 : (forall j, 1 <= j <= n -> exists x, In x l /\ snd (fst x) = j) ->
  exists A, slu_arrays (assign l (pm_clear P)) a0 ri0 cp0 = Ok A /\ u_n A = n /\ compressed_columns n (u_nnz A) (u_a A) (u_rowind A) (u_colptr A) (assigned l).
Proof.
  intros HE. destruct (slu_arrays_ok (0, 0, n0) n (assign l (pm_clear P)) a0 ri0 cp0 Hn clear_srt clear_lig clear_bounds) as (A & E1 & E2 & E3 & E4).
  - intros j Hj. destruct (HE j Hj) as ([[i j'] v] & Hx & Ej). cbn in Ej. subst j'. destruct (in_assigned i j v Hx) as (w & Ew).
    exists (i, j, w). split; [now apply clear_in|reflexivity].
  - exists A. split; [exact E1|]. split; [exact E2|]. rewrite E3. eapply cc_ext; [|exact E4]. intros i j. apply clear_lk.
Qed.
Lemma rows_ok ia0 ja0 a0 : (exists x, In x l /\ snd (fst x) = 1) -> (exists x, In x l /\ snd (fst x) = n) ->
  exists A, csr_init (assign l (pm_clear P)) ia0 ja0 a0 = Ok A /\ c_order A = n /\ compressed_rows n (c_nzero A) (c_ia A) (c_ja A) (c_a A) (transposed (assigned l)).
Proof.
  assert (X : forall j, (exists x, In x l /\ snd (fst x) = j) -> exists e, In e M /\ col e = j).
  { intros j ([[i j'] v] & Hx & Ej). cbn in Ej. subst j'. destruct (in_assigned i j v Hx) as (w & Ew).
    exists (i, j, w). split; [now apply clear_in|reflexivity]. }
  intros H1 H2. destruct (csr_init_ok (0, 0, n0) n (assign l (pm_clear P)) ia0 ja0 a0 Hn clear_srt clear_lig clear_bounds (X 1 H1) (X n H2)) as (A & E1 & E2 & E3 & E4).
  exists A. split; [exact E1|]. split; [exact E2|]. rewrite E3. destruct E4 as (G1 & G2 & G3 & G4 & G5).
  repeat split; try assumption; try (now apply (G4 i)); unfold transposed in *; rewrite <- clear_lk; now apply G5.
Qed.
End Any.

Open Scope R_scope.
(* ---- the matrix of BuildMatt1d.hpp ---- *)
Section Heat.
Variables (n : Z) (al : R).
Hypothesis Hn : (2 <= n)%Z.
Hypothesis Ha : 0 <= al.
Let g : R := al * (IZR n - 1) * (IZR n - 1).
Let e1 : R := 2 * g + 1.
Let e2 : R := - g.
Let e3 : R := - (2 * g).
Definition heat : sparse R := fun i j =>
  if (i =? 1)%Z then if (j =? 1)%Z then Some e1 else if (j =? 2)%Z then Some e3 else None
  else if (i =? n)%Z then if (j =? n)%Z then Some e1 else if (j =? n - 1)%Z then Some e3 else None
  else if ((1 <? i) && (i <? n))%Z%bool then if (j =? i)%Z then Some e1 else if ((j =? i - 1) || (j =? i + 1))%Z%bool then Some e2 else None
  else None.
Lemma g_pos : 0 <= g.
Proof. unfold g. assert (2 <= IZR n) by now apply IZR_le. repeat apply Rmult_le_pos; lra. Qed.
Definition inner (i : Z) : sparse R := fun r c => if ((1 <? r) && (r <? i))%Z%bool then if (c =? r)%Z then Some e1 else if ((c =? r - 1) || (c =? r + 1))%Z%bool then Some e2 else None else None.
Definition holds (A : sparse R) (P : premat Rnum) : Prop := srt (pm_M P) /\ (pm_lig P <= n)%Z /\ forall r c, lk (K := Rnum) (pm_M P) (r, c) = A r c.
Definition put (i j : Z) (v : R) (A : sparse R) : sparse R := fun r c => if ((r =? i) && (c =? j))%Z%bool then Some v else A r c.
Lemma holds_at i j v A P : (i <= n)%Z -> holds A P -> holds (put i j v A) (pm_at (K := Rnum) i j v P).
Proof.
  intros Hi (H1 & H2 & H3). split; [cbn; now apply set_srt|]. split; [cbn; lia|]. intros r c. cbn [pm_at pm_M]. rewrite lk_set. unfold keyb, put. cbn [fst snd].
  rewrite H3. reflexivity.
Qed.
Lemma holds_ext A B P : (forall r c, A r c = B r c) -> holds A P -> holds B P.
Proof. intros E (H1 & H2 & H3). split; [exact H1|]. split; [exact H2|]. intros r c. now rewrite H3, E. Qed.
Ltac zb := repeat match goal with
  | |- context [(?a =? ?b)%Z] => destruct (Z.eqb_spec a b); cbn [andb orb]
  | |- context [(?a <? ?b)%Z] => destruct (Z.ltb_spec a b); cbn [andb orb] end; try reflexivity; try (exfalso; lia); try (subst; f_equal; lia).
Lemma build_ok (P : premat Rnum) : (pm_lig P <= n)%Z -> holds heat (build_mat (K := Rnum) n (IZR n) al P) /\ pm_lig (build_mat (K := Rnum) n (IZR n) al P) = n.
Proof.
  intros HL. unfold build_mat. cbn [nlit nadd nsub nmul ndiv nopp Rnum]. rewrite !Rlit_0.
  assert (G : al / (1 / (IZR n - 1) * (1 / (IZR n - 1))) = g).
  { unfold g. assert (2 <= IZR n) by now apply IZR_le. field. lra. }
  rewrite !G. fold e1 e2 e3. fold g.
  match goal with |- context [for_ 2 (n - 1) ?f ?s] => assert (X : holds (inner (n - 1 + 1)) (for_ 2 (n - 1) f s)) end.
  { apply (for_ind (fun i P => holds (inner i) P)); [lia| |].
    - split; [constructor|]. split; [exact HL|]. intros r c. cbn. unfold inner. zb.
    - intros i Q Hi HQ. eapply holds_ext; [|apply holds_at; [lia|apply holds_at; [lia|apply holds_at; [lia|exact HQ]]]].
      intros r c. unfold put, inner. zb. }
  replace (n - 1 + 1)%Z with n in X by lia.
  match goal with |- context [for_ 2 (n - 1) ?f ?s] => set (Q := for_ 2 (n - 1) f s) in * end. clearbody Q.
  split.
  - eapply holds_ext; [|apply holds_at; [lia|apply holds_at; [lia|apply holds_at; [lia|apply holds_at; [lia|exact X]]]]].
    intros r c. unfold put, inner, heat. zb.
  - destruct X as (_ & X & _). cbn. lia.
Qed.
(* the matrix is I - al*laplace *)
Lemma rsum_pt lo hi k c (x : Z -> R) : rsum lo hi (fun j => (if (j =? k)%Z then c else 0) * x j) = if ((lo <=? k) && (k <=? hi))%Z%bool then c * x k else 0.
Proof.
  destruct (Z.leb_spec lo k), (Z.leb_spec k hi); cbn [andb].
  - rewrite (rsum_split k) by lia. rewrite (rsum_hi lo k) by lia. rewrite Z.eqb_refl. rewrite !rsum_zero; [ring| |].
    all: intros i Hi; destruct (Z.eqb_spec i k); [lia|ring].
  - apply rsum_zero. intros i Hi. destruct (Z.eqb_spec i k); [lia|ring].
  - apply rsum_zero. intros i Hi. destruct (Z.eqb_spec i k); [lia|ring].
  - apply rsum_zero. intros i Hi. destruct (Z.eqb_spec i k); [lia|ring].
Qed.
Lemma product_heat x i : (0 <= i < n)%Z -> product n heat x i = x i - al * laplace n x i.
Proof.
  intros Hi. unfold product.
  rewrite (rsum_ext _ _ _ (fun j => (if (j =? i)%Z then e1 else 0) * x j + ((if (j =? i - 1)%Z then (if (i =? n - 1)%Z then e3 else e2) else 0) * x j
     + (if (j =? i + 1)%Z then (if (i =? 0)%Z then e3 else e2) else 0) * x j))).
  2:{ intros j Hj. unfold elt, heat. zb; ring. }
  rewrite !rsum_add, !rsum_pt. unfold laplace, mirror.
  replace (IZR (n - 1)) with (IZR n - 1) by (rewrite minus_IZR; ring). assert (2 <= IZR n) by now apply IZR_le.
  assert (Q : forall y, al * (y / (1 / (IZR n - 1)) ^ 2) = g * y) by (intros y; unfold g; field; lra).
  rewrite Q. unfold e1, e2, e3.
  destruct (Z.eq_dec i 0) as [->|H0]; [|destruct (Z.eq_dec i (n - 1)) as [->|H1]].
  - cbn. replace (- (-1))%Z with 1%Z by lia. zb; destruct (Z.leb_spec 1 (n - 1)); try lia; destruct (Z.leb_spec 0 (n - 1)); try lia; destruct (Z.leb_spec n 1); try lia; ring.
  - replace (n - 1 + 1)%Z with n by lia. replace (2 * (n - 1) - n)%Z with (n - 1 - 1)%Z by lia. zb; repeat match goal with |- context [(?a <=? ?b)%Z] => destruct (Z.leb_spec a b); cbn [andb]; try lia end; ring.
  - zb; repeat match goal with |- context [(?a <=? ?b)%Z] => destruct (Z.leb_spec a b); cbn [andb]; try lia end; ring.
Qed.
(* an index where |x| is largest *)
Lemma argmax (x : Z -> R) : forall m, (0 <= m)%Z -> exists k, (0 <= k <= m)%Z /\ forall i, (0 <= i <= m)%Z -> Rabs (x i) <= Rabs (x k).
Proof.
  intros m Hm. pattern m. apply natlike_ind; [| |exact Hm].
  - exists 0%Z. split; [lia|]. intros i Hi. replace i with 0%Z by lia. lra.
  - intros p Hp (k & Hk & H). destruct (Rle_dec (Rabs (x k)) (Rabs (x (Z.succ p)))) as [G|G].
    + exists (Z.succ p). split; [lia|]. intros i Hi. destruct (Z.eq_dec i (Z.succ p)) as [->|]; [lra|]. specialize (H i ltac:(lia)). lra.
    + exists k. split; [lia|]. intros i Hi. destruct (Z.eq_dec i (Z.succ p)) as [->|]; [lra|]. apply H. lia.
Qed.
Lemma mirror_bound x i m : (-1 <= i <= n)%Z -> (forall j, (0 <= j < n)%Z -> Rabs (x j) <= m) -> Rabs (mirror n x i) <= m.
Proof. intros Hi H. unfold mirror. destruct (Z.ltb_spec i 0); [apply H; lia|]. destruct (Z.leb_spec n i); apply H; lia. Qed.
Lemma abs_between a m : Rabs a <= m -> - m <= a <= m.
Proof. unfold Rabs. destruct (Rcase_abs a); lra. Qed.
Lemma heat_regular : regular n heat.
Proof.
  intros x H. destruct (argmax x (n - 1) ltac:(lia)) as (k & Hk & Hmax).
  assert (Hm : forall j, (0 <= j < n)%Z -> Rabs (x j) <= Rabs (x k)) by (intros; apply Hmax; lia).
  assert (Z0 : Rabs (x k) = 0).
  { specialize (H k ltac:(lia)). rewrite product_heat in H by lia. unfold laplace in H.
    replace (IZR (n - 1)) with (IZR n - 1) in H by (rewrite minus_IZR; ring). assert (2 <= IZR n) by now apply IZR_le.
    assert (Q : forall y, al * (y / (1 / (IZR n - 1)) ^ 2) = g * y) by (intros y; unfold g; field; lra). rewrite Q in H.
    pose proof (mirror_bound x (k - 1) _ ltac:(lia) Hm) as B1. pose proof (mirror_bound x (k + 1) _ ltac:(lia) Hm) as B2.
    pose proof g_pos as Gp. pose proof (Rabs_pos (x k)) as Xp. apply abs_between in B1, B2. unfold Rabs in *.
    set (a := mirror n x (k - 1)) in *. set (b := mirror n x (k + 1)) in *. destruct (Rcase_abs (x k)); nra. }
  intros i Hi. specialize (Hm i Hi). rewrite Z0 in Hm. pose proof (Rabs_pos (x i)). destruct (Req_dec (x i) 0) as [E|E]; [exact E|]. apply Rabs_pos_lt in E. lra.
Qed.
End Heat.

(* SuperLU's contract: given a regular matrix of n rows and columns in compressed columns, dgssv
   returns factors, and dgstrs with these factors returns the solutions *)
Definition superlu {Fa : Type} (n : Z) (dgssv : slu Rnum -> option Fa) (dgstrs : Fa -> vec Rnum -> option (vec Rnum)) : Prop :=
  forall (A : slu Rnum) (M : sparse R), u_n A = n -> compressed_columns n (u_nnz A) (u_a A) (u_rowind A) (u_colptr A) M -> regular n M ->
  exists f, dgssv A = Some f /\ forall b, exists x, dgstrs f b = Some x /\ forall i, (0 <= i < n)%Z -> product n M x i = b i.
(* Lapl1d::apply as the operator SDIRKL calls *)
Definition lapl_op {Fa : Type} (dgstrs : Fa -> vec Rnum -> option (vec Rnum)) (o : Z * Fa) (n : Z) (w : vec Rnum) : vec Rnum :=
  match lapl_apply (K := Rnum) dgstrs o n w (fun _ => 0) with Ok x => x | _ => w end.

Lemma product_ext n A x y i : veq n x y -> product n A x i = product n A y i.
Proof. intros E. unfold product. apply rsum_ext. intros j Hj. rewrite (E j) by lia. reflexivity. Qed.
Lemma product_sub n A x y i : product n A (fun j => x j - y j) i = product n A x i - product n A y i.
Proof. unfold product. rewrite <- rsum_sub. apply rsum_ext. intros j Hj. ring. Qed.
Lemma regular_unique n A x y : regular n A -> (forall i, (0 <= i < n)%Z -> product n A x i = product n A y i) -> veq n x y.
Proof.
  intros HR H i Hi. assert (Q : x i - y i = 0); [|lra]. apply (HR (fun j => x j - y j)); [|exact Hi]. intros k Hk. rewrite product_sub, H by exact Hk. ring.
Qed.
Lemma copy_ok n (B sol : vec Rnum) : (0 <= n)%Z -> exists B', forM 0 (n - 1) (fun i B => v <- rd 0 (n - 1) sol i ;; wr 0 (n - 1) B i v) B = Ok B' /\ veq n B' sol.
Proof.
  intros Hn. assert (W : wp (forM 0 (n - 1) (fun i B => v <- rd 0 (n - 1) sol i ;; wr 0 (n - 1) B i v) B) (fun B' => forall j, (0 <= j < n - 1 + 1)%Z -> B' j = sol j)).
  { apply (forM_ind (fun i (B' : vec Rnum) => forall j, (0 <= j < i)%Z -> B' j = sol j)); [lia|intros; lia|].
    intros i B' Hi H. rewrite rd_ok by lia. cbn [bind]. rewrite wr_ok by lia. cbn [wp]. intros j Hj. destruct (Z.eq_dec j i) as [->|]; [apply upd_same|].
    rewrite upd_other by assumption. apply H. lia. }
  apply wp_ok in W. destruct W as (B' & E & H). exists B'. split; [exact E|]. intros j Hj. apply H. lia.
Qed.
Section Lapl.
Variables (n : Z) (al : R).
Hypothesis Hn : (2 <= n)%Z.
Hypothesis Ha : 0 <= al.
Context {Fa : Type}.
Variables (dgssv : slu Rnum -> option Fa) (dgstrs : Fa -> vec Rnum -> option (vec Rnum)).
(* the failures of the library become exceptions *)
Lemma lapl_fails (P : premat Rnum) a0 ri0 cp0 : (pm_lig P <= n)%Z ->
  exists A,
    match dgssv A with
    | None => exists s, lapl_init (K := Rnum) dgssv n (IZR n) al P a0 ri0 cp0 = Throw s
    | Some f => exists P', lapl_init (K := Rnum) dgssv n (IZR n) al P a0 ri0 cp0 = Ok ((n, f), P') /\
        forall RHS X, exists B, veq n B RHS /\ match dgstrs f B with
          | None => exists s, lapl_apply (K := Rnum) dgstrs (n, f) n RHS X = Throw s | Some x => lapl_apply (K := Rnum) dgstrs (n, f) n RHS X = Ok x end
    end.
Proof.
  intros HL. destruct (build_ok n al Hn P HL) as ((H1 & H2 & H3) & H4).
  set (Q := build_mat (K := Rnum) n (IZR n) al P) in *.
  assert (HB : forall e, In e (pm_M Q) -> (1 <= row e <= n /\ 1 <= col e <= n)%Z).
  { intros [[i j] v] He. apply (lk_in (pm_M Q) H1) in He. rewrite H3 in He. unfold row, col. cbn [fst snd]. unfold heat in He.
    repeat match type of He with context [(?a =? ?b)%Z] => destruct (Z.eqb_spec a b); cbn [andb orb] in He | context [(?a <? ?b)%Z] => destruct (Z.ltb_spec a b); cbn [andb orb] in He end; try discriminate; lia. }
  assert (HE : forall j, (1 <= j <= n)%Z -> exists e, In e (pm_M Q) /\ col e = j).
  { intros j Hj. assert (X : exists v, heat n al j j = Some v).
    { unfold heat. repeat match goal with |- context [(?a =? ?b)%Z] => destruct (Z.eqb_spec a b); cbn [andb orb] | |- context [(?a <? ?b)%Z] => destruct (Z.ltb_spec a b); cbn [andb orb] end; try lia; eexists; reflexivity. }
    destruct X as (v & X). exists (j, j, v). split; [|reflexivity]. apply (lk_in (pm_M Q) H1). rewrite H3. exact X. }
  destruct (slu_arrays_ok (K := Rnum) (0%Z, 0%Z, 0) n Q a0 ri0 cp0 ltac:(lia) H1 H4 HB HE) as (A & E1 & E2 & E3 & E4).
  exists A. unfold lapl_init. fold Q. unfold slu_init. rewrite E1. cbn [bind]. destruct (dgssv A) as [f|]; cbn [bind].
  - rewrite E2. exists (pm_clear Q). split; [reflexivity|]. intros RHS X. unfold lapl_apply, slu_solve. cbn [fst snd]. destruct (copy_ok n X RHS ltac:(lia)) as (B & B1 & B2). rewrite B1. cbn [bind].
    exists B. split; [intros i Hi; now apply B2|]. destruct (dgstrs f B); [reflexivity|eexists; reflexivity].
  - eexists. reflexivity.
Qed.
Hypothesis HC : superlu n dgssv dgstrs.
Lemma lapl_ok (P : premat Rnum) a0 ri0 cp0 : (pm_lig P <= n)%Z ->
  exists o P', lapl_init (K := Rnum) dgssv n (IZR n) al P a0 ri0 cp0 = Ok (o, P') /\ (pm_lig P' = n)%Z /\
    inverts n al (laplace n) (lapl_op dgstrs o n) /\
    forall RHS X, exists x, lapl_apply (K := Rnum) dgstrs o n RHS X = Ok x /\ veq n x (lapl_op dgstrs o n RHS).
Proof.
  intros HL. destruct (build_ok n al Hn P HL) as ((H1 & H2 & H3) & H4).
  set (Q := build_mat (K := Rnum) n (IZR n) al P) in *.
  assert (HB : forall e, In e (pm_M Q) -> (1 <= row e <= n /\ 1 <= col e <= n)%Z).
  { intros [[i j] v] He. apply (lk_in (pm_M Q) H1) in He. rewrite H3 in He. unfold row, col. cbn [fst snd]. unfold heat in He.
    repeat match type of He with context [(?a =? ?b)%Z] => destruct (Z.eqb_spec a b); cbn [andb orb] in He | context [(?a <? ?b)%Z] => destruct (Z.ltb_spec a b); cbn [andb orb] in He end; try discriminate; lia. }
  assert (HE : forall j, (1 <= j <= n)%Z -> exists e, In e (pm_M Q) /\ col e = j).
  { intros j Hj. assert (X : exists v, heat n al j j = Some v).
    { unfold heat. repeat match goal with |- context [(?a =? ?b)%Z] => destruct (Z.eqb_spec a b); cbn [andb orb] | |- context [(?a <? ?b)%Z] => destruct (Z.ltb_spec a b); cbn [andb orb] end; try lia; eexists; reflexivity. }
    destruct X as (v & X). exists (j, j, v). split; [|reflexivity]. apply (lk_in (pm_M Q) H1). rewrite H3. exact X. }
  destruct (slu_arrays_ok (K := Rnum) (0%Z, 0%Z, 0) n Q a0 ri0 cp0 ltac:(lia) H1 H4 HB HE) as (A & E1 & E2 & E3 & E4).
  assert (E5 : compressed_columns n (u_nnz A) (u_a A) (u_rowind A) (u_colptr A) (heat n al)).
  { rewrite E3. eapply cc_ext; [|exact E4]. exact H3. }
  destruct (HC A (heat n al) E2 E5 (heat_regular n al Hn Ha)) as (f & F1 & F2).
  exists (n, f), (pm_clear Q). unfold lapl_init. fold Q. unfold slu_init. rewrite E1. cbn [bind]. rewrite F1. cbn [bind]. rewrite E2.
  split; [reflexivity|]. split; [exact H4|].
  assert (SV : forall RHS X, exists x, lapl_apply (K := Rnum) dgstrs (n, f) n RHS X = Ok x /\ forall i, (0 <= i < n)%Z -> product n (heat n al) x i = RHS i).
  { intros RHS X. unfold lapl_apply, slu_solve. cbn [fst snd]. destruct (copy_ok n X RHS ltac:(lia)) as (B & B1 & B2). rewrite B1. cbn [bind].
    destruct (F2 B) as (x & X1 & X2). rewrite X1. exists x. split; [reflexivity|]. intros i Hi. rewrite X2 by exact Hi. now apply B2. }
  assert (OP : forall w i, (0 <= i < n)%Z -> product n (heat n al) (lapl_op dgstrs (n, f) n w) i = w i).
  { intros w i Hi. unfold lapl_op. destruct (SV w (fun _ => 0)) as (x & X1 & X2). rewrite X1. now apply X2. }
  split.
  - split.
    + intros w i Hi. rewrite <- product_heat by assumption. now apply OP.
    + intros w x E. apply (regular_unique n (heat n al)); [now apply heat_regular|]. intros i Hi. rewrite OP by exact Hi. rewrite product_heat by assumption. now apply E.
  - intros RHS X. destruct (SV RHS X) as (x & X1 & X2). exists x. split; [exact X1|]. apply (regular_unique n (heat n al)); [now apply heat_regular|].
    intros i Hi. rewrite X2, OP by exact Hi. reflexivity.
Qed.
End Lapl.
Lemma laplace_linear n : (2 <= n)%Z -> linear_op n (laplace n).
Proof.
  intros Hn. split.
  - intros x y E i Hi. unfold laplace, mirror. rewrite (E i Hi).
    assert (X : forall k, (-1 <= k <= n)%Z -> (if (k <? 0)%Z then x (- k)%Z else if (n <=? k)%Z then x (2 * (n - 1) - k)%Z else x k) = (if (k <? 0)%Z then y (- k)%Z else if (n <=? k)%Z then y (2 * (n - 1) - k)%Z else y k)).
    { intros k Hk. destruct (Z.ltb_spec k 0); [apply E; lia|]. destruct (Z.leb_spec n k); apply E; lia. }
    rewrite (X (i - 1)%Z), (X (i + 1)%Z) by lia. reflexivity.
  - intros a b x y i Hi. unfold laplace, mirror. assert (IZR (n - 1) <> 0) by (apply not_0_IZR; lia).
    destruct (i - 1 <? 0)%Z, (n <=? i - 1)%Z, (i + 1 <? 0)%Z, (n <=? i + 1)%Z; field; assumption.
Qed.
(* SDIRKL with Lapl1d *)
Lemma heat_linear_runs {Fa : Type} (RK : method Rnum) n dt b (dgssv : slu Rnum -> option Fa) dgstrs : (2 <= n)%Z -> 0 <= dt * m_A RK 0%Z 0%Z ->
  fits (m_s RK) (m_A RK) (m_S RK) (m_D RK) b -> superlu n dgssv dgstrs ->
  forall k dloc Zused aloc zc0 (m : smem (K := Rnum)) a0 ri0 cp0,
  wp (bind (lapl_init (K := Rnum) dgssv n (IZR n) (dt * m_A RK 0%Z 0%Z) pm_new a0 ri0 cp0) (fun oP =>
      bind (construct RK n dloc Zused aloc zc0) (fun o => run_linear RK n false (lapl_op dgstrs (fst oP) n) k (o, m))))
     (fun x => rk_steps n (m_s RK) (m_A RK) b dt (laplace n) k (io m) (io (snd x))).
Proof.
  intros Hn Ha Hf HC k dloc Zused aloc zc0 m a0 ri0 cp0.
  destruct (lapl_ok n _ Hn Ha dgssv dgstrs HC pm_new a0 ri0 cp0 ltac:(cbn; lia)) as (o & P' & E & _ & Hi & _). rewrite E. cbn [bind fst].
  apply linear_runs; try assumption; [lia|now apply laplace_linear].
Qed.
Lemma heat_affine_runs {Fa : Type} (RK : method Rnum) n dt b (dgssv : slu Rnum -> option Fa) dgstrs : (2 <= n)%Z -> 0 <= dt * m_A RK 0%Z 0%Z ->
  fits (m_s RK) (m_A RK) (m_S RK) (m_D RK) b -> superlu n dgssv dgstrs ->
  forall phi k dloc Zused aloc zc0 (m : smem (K := Rnum)) a0 ri0 cp0,
  wp (bind (lapl_init (K := Rnum) dgssv n (IZR n) (dt * m_A RK 0%Z 0%Z) pm_new a0 ri0 cp0) (fun oP =>
      bind (construct RK n dloc Zused aloc zc0) (fun o => run_affine RK n dt true (lapl_op dgstrs (fst oP) n) phi k (o, m))))
     (fun x => rk_steps n (m_s RK) (m_A RK) b dt (fun u p => laplace n u p + phi p) k (io m) (io (snd x))).
Proof.
  intros Hn Ha Hf HC phi k dloc Zused aloc zc0 m a0 ri0 cp0.
  destruct (lapl_ok n _ Hn Ha dgssv dgstrs HC pm_new a0 ri0 cp0 ltac:(cbn; lia)) as (o & P' & E & _ & Hi & _). rewrite E. cbn [bind fst].
  apply affine_runs; try assumption; [lia|now apply laplace_linear].
Qed.

(* a solver that fulfils the contract for n = 2 *)
Fixpoint seek (k : nat) (p i : Z) (ri : Z -> Z) (a : Z -> R) : R :=
  match k with O => 0 | S k' => if (ri p =? i)%Z then a p else seek k' (p + 1)%Z i ri a end.
Definition dense (A : slu Rnum) (i j : Z) : R := seek (Z.to_nat (u_colptr A (j + 1) - u_colptr A j)%Z) (u_colptr A j) i (u_rowind A) (u_a A).
Definition cramer (f : R * R * R * R) (b : vec Rnum) : option (vec Rnum) :=
  let '(p, q, r, s) := f in
  Some (fun i => if (i =? 0)%Z then (s * b 0%Z - q * b 1%Z) / (p * s - q * r) else (p * b 1%Z - r * b 0%Z) / (p * s - q * r)).
Lemma seek_spec ri a i k : forall p, (exists q, (p <= q < p + Z.of_nat k)%Z /\ ri q = i /\ seek k p i ri a = a q) \/
  (seek k p i ri a = 0 /\ forall q, (p <= q < p + Z.of_nat k)%Z -> ri q <> i).
Proof.
  induction k as [|k IH]; intros p; cbn [seek]; [right; split; [reflexivity|intros; lia]|].
  destruct (Z.eqb_spec (ri p) i) as [E|E]; [left; exists p; split; [lia|now split]|].
  destruct (IH (p + 1)%Z) as [(q & H1 & H2)|(H1 & H2)].
  - left. exists q. split; [lia|exact H2].
  - right. split; [exact H1|]. intros q Hq. destruct (Z.eq_dec q p) as [->|]; [exact E|apply H2; lia].
Qed.
Lemma dense_elt n A M i j : compressed_columns n (u_nnz A) (u_a A) (u_rowind A) (u_colptr A) M -> (0 <= j < n)%Z -> dense A i j = elt M (i + 1) (j + 1).
Proof.
  intros (_ & _ & H3 & _ & _ & H6) Hj. specialize (H3 j Hj). unfold dense, elt.
  destruct (seek_spec (u_rowind A) (u_a A) i (Z.to_nat (u_colptr A (j + 1) - u_colptr A j)%Z) (u_colptr A j)) as [(q & Q1 & Q2 & Q3)|(Q1 & Q2)]; rewrite Z2Nat.id in * by lia.
  - rewrite Q3. assert (E : M (i + 1)%Z (j + 1)%Z = Some (u_a A q)); [|now rewrite E]. apply (H6 j Hj). exists q. split; [lia|]. now split.
  - rewrite Q1. destruct (M (i + 1)%Z (j + 1)%Z) as [v|] eqn:E; [|reflexivity]. apply (H6 j Hj) in E. destruct E as (k & K1 & K2 & _). exfalso. apply (Q2 k); [lia|exact K2].
Qed.
Lemma superlu_2 : superlu 2 (fun A => Some (dense A 0 0, dense A 0 1, dense A 1 0, dense A 1 1)) cramer.
Proof.
  intros A M _ HC HR. eexists. split; [reflexivity|]. intros b. eexists. split; [reflexivity|].
  rewrite !(dense_elt 2 A M) by (assumption || lia). cbn [Z.add Pos.add].
  set (p := elt M 1 1). set (q := elt M 1 2). set (r := elt M 2 1). set (s := elt M 2 2).
  assert (PR : forall x i, (i = 0 \/ i = 1)%Z -> product 2 M x i = if (i =? 0)%Z then p * x 0%Z + q * x 1%Z else r * x 0%Z + s * x 1%Z).
  { intros x i [-> | ->]; unfold product; rewrite (rsum_lo 0 (2 - 1)), (rsum_lo (0 + 1) (2 - 1)), rsum_empty by lia; cbn; unfold p, q, r, s; ring. }
  assert (D : p * s - q * r <> 0).
  { intros D.
    assert (Z1 : s = 0 /\ - r = 0).
    { pose proof (HR (fun i => if (i =? 0)%Z then s else - r)) as X. split; [apply (X ltac:(intros i Hi; rewrite PR by lia; cbn; destruct (i =? 0)%Z; lra) 0%Z)|apply (X ltac:(intros i Hi; rewrite PR by lia; cbn; destruct (i =? 0)%Z; lra) 1%Z)]; lia. }
    assert (Z2 : - q = 0 /\ p = 0).
    { pose proof (HR (fun i => if (i =? 0)%Z then - q else p)) as X. split; [apply (X ltac:(intros i Hi; rewrite PR by lia; cbn; destruct (i =? 0)%Z; lra) 0%Z)|apply (X ltac:(intros i Hi; rewrite PR by lia; cbn; destruct (i =? 0)%Z; lra) 1%Z)]; lia. }
    assert (Z3 : 1 = 0); [|lra]. apply (HR (fun _ => 1) ltac:(intros i Hi; rewrite PR by lia; destruct (i =? 0)%Z; lra) 0%Z). lia. }
  intros i Hi. assert (i = 0 \/ i = 1)%Z as [-> | ->] by lia; rewrite PR by lia; cbn; field; exact D.
Qed.

(* ---- what goes wrong ---- *)
Definition identity (n : Z) : sparse R := fun i j => if ((i =? j) && (1 <=? i) && (i <=? n))%Z%bool then Some 1 else None.
Lemma identity_columns n (a : Z -> R) (ri cp : Z -> Z) : (1 <= n)%Z -> (forall j, (0 <= j <= n)%Z -> cp j = j) -> (forall k, (0 <= k < n)%Z -> ri k = k /\ a k = 1) ->
  compressed_columns n n a ri cp (identity n).
Proof.
  intros Hn H1 H2. split; [apply H1; lia|]. split; [apply H1; lia|]. split; [intros j Hj; rewrite !H1 by lia; lia|]. split; [|split].
  - intros j k Hj Hk. rewrite !H1 in Hk by lia. rewrite (proj1 (H2 k ltac:(lia))). lia.
  - intros j k Hj Hk Hk1. rewrite H1 in Hk, Hk1 by lia. lia.
  - intros j Hj i v. rewrite !H1 by lia. unfold identity. split.
    + destruct (Z.eqb_spec (i + 1) (j + 1)); cbn [andb]; [|discriminate]. destruct (_ && _)%bool; [|discriminate]. intros [= <-]. exists j. split; [lia|].
      destruct (H2 j Hj) as [-> ->]. split; [lia|reflexivity].
    + intros (k & Hk & E1 & E2). assert (k = j) by lia. subst k. destruct (H2 j Hj) as [G1 G2]. rewrite E1 in G1. rewrite E2 in G2. subst.
      repeat match goal with |- context [(?a =? ?b)%Z] => destruct (Z.eqb_spec a b); [|lia] | |- context [(?a <=? ?b)%Z] => destruct (Z.leb_spec a b); [|lia] end. cbn. now rewrite G2.
Qed.
Definition ones (l : list (Z * Z)) : list (Z * Z * R) := map (fun p => (p, 1)) l.
Lemma eval_1 {K : num} (v : K) a0 ri0 cp0 : slu_arrays (assign [(1, 1, v); (2, 3, v); (3, 3, v)]%Z pm_new) a0 ri0 cp0 =
  Ok (mkSLU 3 3 (upd (upd (upd a0 0 v) 1 v) 2 v) (upd (upd (upd ri0 0 0) 1 1) 2 2) (upd (upd (upd (upd cp0 3 3) 0 0) 1 1) 2 2))%Z.
Proof. reflexivity. Qed.
Lemma eval_2 {K : num} (v : K) a0 ri0 cp0 : exists s, slu_arrays (assign [(1, 1, v); (1, 2, v); (1, 3, v)]%Z pm_new) a0 ri0 cp0 = UB s.
Proof. eexists. reflexivity. Qed.
Lemma eval_3 {K : num} (v : K) ia0 ja0 a0 : csr_init (assign [(1, 1, v); (1, 2, v); (2, 2, v)]%Z pm_new) ia0 ja0 a0 =
  Ok (mkCSR 2 3 (upd (upd (upd ia0 0 1) 1 2) 2 4) (upd (upd (upd ja0 0 1) 1 1) 2 2) (upd (upd (upd a0 0 v) 1 v) 2 v))%Z.
Proof. reflexivity. Qed.
Lemma eval_4 {K : num} (v : K) ia0 ja0 a0 : exists s, csr_init (assign [(1, 1, v); (1, 3, v)]%Z pm_new) ia0 ja0 a0 = UB s.
Proof. eexists. reflexivity. Qed.
Lemma eval_5 {K : num} (v : K) ia0 ja0 a0 : csr_init (assign [(1, 1, v); (2, 1, v)]%Z pm_new) ia0 ja0 a0 =
  Ok (mkCSR 2 2 (upd (upd ia0 0 1) 1 3) (upd (upd ja0 0 1) 1 2) (upd (upd a0 0 v) 1 v))%Z.
Proof. reflexivity. Qed.
(* a matrix with an empty column is delivered as another matrix *)
Lemma empty_column : ~ regular 3 (assigned (ones [(1, 1); (2, 3); (3, 3)]%Z)) /\
  forall a0 ri0 cp0, exists A, slu_arrays (K := Rnum) (assign (K := Rnum) (ones [(1, 1); (2, 3); (3, 3)]%Z) pm_new) a0 ri0 cp0 = Ok A /\ u_n A = 3%Z /\
    compressed_columns 3 (u_nnz A) (u_a A) (u_rowind A) (u_colptr A) (identity 3) /\ regular 3 (identity 3).
Proof.
  split.
  - intros H. assert (Q : (fun i => if (i =? 1)%Z then 1 else 0) 1%Z = 0); [|cbn in Q; lra]. apply (H (fun i => if (i =? 1)%Z then 1 else 0)); [|lia].
    intros i Hi. unfold product. assert (i = 0 \/ i = 1 \/ i = 2)%Z as [-> |[-> | ->]] by lia;
    rewrite (rsum_lo 0 (3 - 1)), (rsum_lo (0 + 1) (3 - 1)), (rsum_lo (0 + 1 + 1) (3 - 1)), rsum_empty by lia; cbn; ring.
  - intros a0 ri0 cp0. eexists. split; [apply (eval_1 (K := Rnum) 1)|]. split; [reflexivity|]. cbn [u_nnz u_a u_rowind u_colptr]. split.
    + apply identity_columns; [lia| |].
      * intros j Hj. assert (j = 0 \/ j = 1 \/ j = 2 \/ j = 3)%Z as [-> |[-> |[-> | ->]]] by lia; reflexivity.
      * intros k Hk. assert (k = 0 \/ k = 1 \/ k = 2)%Z as [-> |[-> | ->]] by lia; split; reflexivity.
    + intros x H i Hi. specialize (H i Hi). unfold product in H. assert (i = 0 \/ i = 1 \/ i = 2)%Z as [-> |[-> | ->]] by lia;
      rewrite (rsum_lo 0 (3 - 1)), (rsum_lo (0 + 1) (3 - 1)), (rsum_lo (0 + 1 + 1) (3 - 1)), rsum_empty in H by lia; cbn in H; lra.
Qed.
Lemma empty_column_keys x : In x (ones [(1, 1); (2, 3); (3, 3)]%Z) -> (1 <= fst (fst x) <= 3 /\ 1 <= snd (fst x) <= 3)%Z.
Proof. cbn. intros [<-|[<-|[<-|[]]]]; cbn; lia. Qed.
(* more columns than rows: written past the end *)
Lemma wide_matrix a0 ri0 cp0 : exists s, slu_arrays (K := Rnum) (assign (K := Rnum) (ones [(1, 1); (1, 2); (1, 3)]%Z) pm_new) a0 ri0 cp0 = UB s.
Proof. exact (eval_2 (K := Rnum) 1 a0 ri0 cp0). Qed.
(* compressed rows of the transposed matrix, and writing past the end *)
Lemma rows_transposed ia0 ja0 a0 : let l := ones [(1, 1); (1, 2); (2, 2)]%Z in
  exists A, csr_init (K := Rnum) (assign (K := Rnum) l pm_new) ia0 ja0 a0 = Ok A /\ c_order A = 2%Z /\
    ~ compressed_rows 2 (c_nzero A) (c_ia A) (c_ja A) (c_a A) (assigned l).
Proof.
  cbv zeta. eexists. split; [apply (eval_3 (K := Rnum) 1)|]. split; [reflexivity|]. cbn [c_nzero c_ia c_ja c_a]. intros (_ & _ & _ & _ & H).
  destruct (H 1%Z ltac:(lia) 2%Z 1) as [X _]. destruct (X eq_refl) as (k & Hk & E & _). cbn in Hk. assert (k = 1)%Z by lia. subst k. discriminate E.
Qed.
Lemma rows_refuted ia0 ja0 a0 : exists (l : list (Z * Z * R)) A,
  csr_init (K := Rnum) (assign (K := Rnum) l pm_new) ia0 ja0 a0 = Ok A /\ c_order A = 2%Z /\ regular 2 (assigned l) /\
  ~ compressed_rows 2 (c_nzero A) (c_ia A) (c_ja A) (c_a A) (assigned l).
Proof.
  destruct (rows_transposed ia0 ja0 a0) as (A & E1 & E2 & E3). exists (ones [(1, 1); (1, 2); (2, 2)]%Z), A. repeat split; try assumption.
  intros x H. assert (P : forall i, (0 <= i < 2)%Z -> product 2 (assigned (ones [(1, 1); (1, 2); (2, 2)]%Z)) x i = if (i =? 0)%Z then x 0%Z + x 1%Z else x 1%Z).
  { intros i Hi. unfold product. assert (i = 0 \/ i = 1)%Z as [-> | ->] by lia; rewrite (rsum_lo 0 (2 - 1)), (rsum_lo (0 + 1) (2 - 1)), rsum_empty by lia; cbn; ring. }
  assert (X1 : x 1%Z = 0) by (rewrite <- (H 1%Z ltac:(lia)); symmetry; apply (P 1%Z ltac:(lia))).
  assert (X0 : x 0%Z + x 1%Z = 0) by (rewrite <- (H 0%Z ltac:(lia)); symmetry; apply (P 0%Z ltac:(lia))).
  intros i Hi. assert (i = 0 \/ i = 1)%Z as [-> | ->] by lia; lra.
Qed.
Lemma rows_overflow ia0 ja0 a0 : exists s, csr_init (K := Rnum) (assign (K := Rnum) (ones [(1, 1); (1, 3)]%Z) pm_new) ia0 ja0 a0 = UB s.
Proof. exact (eval_4 (K := Rnum) 1 ia0 ja0 a0). Qed.
(* the last row pointers are not set when the last columns are empty *)
Lemma rows_unset ja0 a0 : exists A ia0, csr_init (K := Rnum) (assign (K := Rnum) (ones [(1, 1); (2, 1)]%Z) pm_new) ia0 ja0 a0 = Ok A /\ c_ia A 2%Z = ia0 2%Z /\
  forall T : sparse R, ~ compressed_rows 2 (c_nzero A) (c_ia A) (c_ja A) (c_a A) T.
Proof.
  eexists. exists (fun _ => 0%Z). split; [apply (eval_5 (K := Rnum) 1)|]. split; [reflexivity|]. intros T (_ & H & _). discriminate H.
Qed.
(* a second, smaller problem *)
Lemma smaller_init {Fa : Type} (dgssv : slu Rnum -> option Fa) dgstrs al a0 ri0 cp0 a1 ri1 cp1 o1 P1 o2 P2 RHS X :
  lapl_init (K := Rnum) dgssv 3 3 al pm_new a0 ri0 cp0 = Ok (o1, P1) -> lapl_init (K := Rnum) dgssv 2 2 al P1 a1 ri1 cp1 = Ok (o2, P2) ->
  exists s, lapl_apply (K := Rnum) dgstrs o2 2 RHS X = UB s.
Proof.
  intros H1 H2. assert (L : (pm_lig P1 = 3)%Z).
  { unfold lapl_init in H1. destruct (slu_init _ _ _ _ _) in H1; try discriminate. cbn [bind] in H1. injection H1 as _ <-.
    destruct (build_ok 3 al ltac:(lia) pm_new ltac:(cbn; lia)) as [_ E]. exact E. }
  unfold lapl_init in H2. unfold slu_init in H2. destruct (slu_arrays _ _ _ _) as [A| | |] eqn:EA in H2; try discriminate. cbn [bind] in H2.
  destruct (dgssv A); [|discriminate]. cbn [bind] in H2. injection H2 as <- _.
  assert (N : u_n A = 3%Z).
  { unfold slu_arrays in EA. destruct (wr _ _ _ _ _) in EA; try discriminate. cbn [bind] in EA. destruct (slu_elems _ _ _ _) as [[[[[? ?] ?] ?] ?]| | |] in EA; try discriminate.
    cbn [bind] in EA. injection EA as <-. cbn [u_n]. unfold build_mat. cbn. lia. }
  unfold lapl_apply, slu_solve. cbn [fst]. rewrite N. eexists. cbv -[upd IZR]. reflexivity.
Qed.
Lemma smaller_init_case al a0 ri0 cp0 a1 ri1 cp1 : exists o1 P1 o2 P2,
  lapl_init (K := Rnum) (fun A => Some A) 3 3 al pm_new a0 ri0 cp0 = Ok (o1, P1) /\ lapl_init (K := Rnum) (fun A => Some A) 2 2 al P1 a1 ri1 cp1 = Ok (o2, P2).
Proof. do 4 eexists. split; reflexivity. Qed.
Lemma euler_fits w : fits (m_s (EulerImp (K := Rnum) w)) (m_A (EulerImp (K := Rnum) w)) (m_S (EulerImp (K := Rnum) w)) (m_D (EulerImp (K := Rnum) w)) (fun _ => 1) /\ 0 <= 1 / 10 * m_A (EulerImp (K := Rnum) w) 0%Z 0%Z.
Proof.
  assert (A0 : m_A (EulerImp (K := Rnum) w) 0%Z 0%Z = 1) by (cbn; apply Rlit_0).
  assert (S0 : m_S (EulerImp (K := Rnum) w) 0%Z = 1) by (cbn; apply Rlit_0). assert (D0 : m_D (EulerImp (K := Rnum) w) 0%Z = 1) by (cbn; apply Rlit_0).
  split; [|rewrite A0; lra]. cbn [m_s EulerImp]. split; [lia|]. split; [rewrite A0; lra|].
  split; [intros i Hi; replace i with 0%Z by lia; reflexivity|].
  split; intros i Hi; replace i with 0%Z by lia; rewrite rsum_lo, rsum_empty by lia; rewrite ?A0, ?S0, ?D0; ring.
Qed.
