(* Gaussian elimination over the reals: a solver that fulfils SuperLU's contract for every number of rows.  Not a model of
   code: it shows that the hypothesis of C77, C101 and C102 can be met. *)
From Coq Require Import Reals Lra Lia ZArith.
From Verif Require Import Base FieldLU HessModel Spec HessPathProofs LaplModel LaplSpec LaplTop.
Open Scope R_scope.

Fixpoint pivot (k : nat) (f : Z -> R) : Z :=
  match k with O => 0%Z | S k => if Req_EM_T (f (Z.of_nat k)) 0 then pivot k f else Z.of_nat k end.
Definition swap (r c i : Z) : Z := if (i =? r)%Z then c else if (i =? c)%Z then r else i.
Fixpoint gauss (k : nat) (A : Z -> Z -> R) (b : Z -> R) : Z -> R :=
  match k with
  | O => fun _ => 0
  | S k' =>
    let c := Z.of_nat k' in
    let r := pivot k (fun i => A i c) in
    let A1 i j := A (swap r c i) j in
    let b1 i := b (swap r c i) in
    let q i := A1 i c / A1 c c in
    let x := gauss k' (fun i j => A1 i j - q i * A1 c j) (fun i => b1 i - q i * b1 c) in
    fun j => if (j =? c)%Z then (b1 c - rsum 0 (c - 1) (fun j => A1 c j * x j)) / A1 c c else x j
  end.
Definition mv (k : nat) (A : Z -> Z -> R) (x : Z -> R) (i : Z) : R := rsum 0 (Z.of_nat k - 1) (fun j => A i j * x j).
Definition trivial_kernel (k : nat) (A : Z -> Z -> R) : Prop := forall x, (forall i, (0 <= i < Z.of_nat k)%Z -> mv k A x i = 0) -> forall i, (0 <= i < Z.of_nat k)%Z -> x i = 0.
Lemma pivot_spec k f : (1 <= k)%nat -> (0 <= pivot k f < Z.of_nat k)%Z /\ (f (pivot k f) = 0 -> forall i, (0 <= i < Z.of_nat k)%Z -> f i = 0).
Proof.
  induction k as [|k IH]; [lia|]. intros _. cbn [pivot]. destruct (Req_EM_T (f (Z.of_nat k)) 0) as [E|E].
  - destruct k as [|k]; [split; [cbn; lia|intros _ i Hi; replace i with 0%Z by lia; exact E]|]. destruct (IH ltac:(lia)) as [H1 H2]. split; [lia|].
    intros H i Hi. destruct (Z.eq_dec i (Z.of_nat (S k))) as [->|]; [exact E|]. apply H2; [exact H|lia].
  - split; [lia|]. intros H. contradiction.
Qed.
Lemma swap_swap r c i : swap r c (swap r c i) = i.
Proof. unfold swap. destruct (Z.eqb_spec i r), (Z.eqb_spec i c); repeat match goal with |- context [(?a =? ?b)%Z] => destruct (Z.eqb_spec a b) end; lia. Qed.
Lemma swap_range r c i m : (0 <= r < m)%Z -> (0 <= c < m)%Z -> (0 <= i < m)%Z -> (0 <= swap r c i < m)%Z.
Proof. unfold swap. intros. repeat match goal with |- context [(?a =? ?b)%Z] => destruct (Z.eqb_spec a b) end; lia. Qed.
(* one elimination: x solves the reduced system, y is x completed *)
Lemma complete k A b x i : let c := Z.of_nat k in A c c <> 0 -> (0 <= i <= c)%Z ->
  ((i < c)%Z -> mv k (fun i j => A i j - A i c / A c c * A c j) x i = b i - A i c / A c c * b c) ->
  mv (S k) A (fun j => if (j =? c)%Z then (b c - rsum 0 (c - 1) (fun j => A c j * x j)) / A c c else x j) i = b i.
Proof.
  cbv zeta. set (c := Z.of_nat k). intros Hp Hi H. unfold mv. replace (Z.of_nat (S k) - 1)%Z with c by (unfold c; lia).
  rewrite rsum_hi by (unfold c; lia). rewrite Z.eqb_refl. rewrite (rsum_ext 0 (c - 1) _ (fun j => A i j * x j)) by (intros j Hj; destruct (Z.eqb_spec j c); [lia|reflexivity]).
  set (s := rsum 0 (c - 1) (fun j => A c j * x j)). destruct (Z.eq_dec i c) as [->|Hn]; [fold s; field; exact Hp|].
  specialize (H ltac:(lia)). unfold mv in H. fold c in H.
  rewrite (rsum_ext 0 (c - 1) _ (fun j => A i j * x j - A i c / A c c * (A c j * x j))) in H by (intros; ring). rewrite rsum_sub, rsum_scal in H. fold s in H.
  set (t := rsum 0 (c - 1) (fun j => A i j * x j)) in *. replace t with (b i - A i c / A c c * b c + A i c / A c c * s) by lra. field. exact Hp.
Qed.
Lemma gauss_ok k : forall A, trivial_kernel k A -> forall b i, (0 <= i < Z.of_nat k)%Z -> mv k A (gauss k A b) i = b i.
Proof.
  induction k as [|k IH]; intros A HK b i Hi; [lia|]. cbn [gauss]. set (c := Z.of_nat k). set (r := pivot (S k) (fun i => A i c)).
  destruct (pivot_spec (S k) (fun i => A i c) ltac:(lia)) as [R1 R2]. fold r in R1, R2. set (A1 := fun i j => A (swap r c i) j). set (b1 := fun i => b (swap r c i)).
  assert (Hc : A1 c c <> 0).
  { intros E. assert (E2 : A r c = 0). { unfold A1, swap in E. destruct (Z.eqb_spec c r) as [<-|]; [exact E|]. rewrite Z.eqb_refl in E. exact E. }
    assert (F : (if (c =? c)%Z then 1 else 0) = 0); [|rewrite Z.eqb_refl in F; lra].
    apply (HK (fun j => if (j =? c)%Z then 1 else 0)); [|unfold c; lia]. intros l Hl. unfold mv. rewrite (rsum_hi 0) by lia. replace (Z.of_nat (S k) - 1)%Z with c by (unfold c; lia).
    rewrite Z.eqb_refl, (R2 E2 l Hl), rsum_zero; [ring|]. intros j Hj. destruct (Z.eqb_spec j c); [lia|ring]. }
  assert (HK1 : trivial_kernel (S k) A1).
  { intros x Hx. apply HK. intros l Hl. rewrite <- (Hx (swap r c l)) by (apply swap_range; unfold c; lia). unfold mv, A1. rewrite swap_swap. reflexivity. }
  assert (HK2 : trivial_kernel k (fun i j => A1 i j - A1 i c / A1 c c * A1 c j)).
  { intros x Hx l Hl. pose proof (HK1 (fun j => if (j =? c)%Z then ((fun _ => 0) c - rsum 0 (c - 1) (fun j => A1 c j * x j)) / A1 c c else x j)) as X.
    specialize (X ltac:(intros m Hm; apply (complete k A1 (fun _ => 0) x m Hc ltac:(unfold c in *; lia)); intros Hm2; fold c; rewrite Hx by (unfold c in *; lia); ring) l ltac:(lia)).
    cbv beta in X. destruct (Z.eqb_spec l c); [unfold c in *; lia|exact X]. }
  pose proof (IH _ HK2 (fun i => b1 i - A1 i c / A1 c c * b1 c)) as HX. set (x := gauss k _ _) in *.
  assert (HS : forall m, (0 <= m <= c)%Z -> mv (S k) A1 (fun j => if (j =? c)%Z then (b1 c - rsum 0 (c - 1) (fun j => A1 c j * x j)) / A1 c c else x j) m = b1 m).
  { intros m Hm. apply (complete k A1 b1 x m Hc Hm). intros Hm2. apply HX. unfold c in *; lia. }
  assert (Hs : (0 <= swap r c i <= c)%Z) by (pose proof (swap_range r c i (Z.of_nat (S k)) R1 ltac:(unfold c; lia) Hi); unfold c in *; lia).
  specialize (HS (swap r c i) Hs). assert (Eb : b1 (swap r c i) = b i) by (unfold b1; rewrite swap_swap; reflexivity). rewrite Eb in HS.
  etransitivity; [|exact HS]. unfold mv. apply rsum_ext. intros j _. apply Rmult_eq_compat_r. change (A i j = A (swap r c (swap r c i)) j). rewrite swap_swap. reflexivity.
Qed.

(* SuperLU's contract *)
Definition gssv (A : slu Rnum) : option (slu Rnum) := Some A.
Definition gstrs (A : slu Rnum) (b : vec Rnum) : option (vec Rnum) := Some (gauss (Z.to_nat (u_n A)) (dense A) b).
Lemma superlu_gauss n : (0 <= n)%Z -> superlu n gssv gstrs.
Proof.
  intros Hn A M En HC HR. exists A. split; [reflexivity|]. intros b. eexists. split; [reflexivity|]. intros i Hi. rewrite En.
  assert (EM : forall x m, mv (Z.to_nat n) (dense A) x m = product n M x m).
  { intros x m. unfold mv, product. rewrite Z2Nat.id by exact Hn. apply rsum_ext. intros j Hj. rewrite (dense_elt n A M) by (assumption || lia). reflexivity. }
  rewrite <- EM. apply gauss_ok; [|lia]. intros x Hx l Hl. apply (HR x); [|lia]. intros m Hm. rewrite <- EM. apply Hx. lia.
Qed.
