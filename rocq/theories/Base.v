(* Base definitions shared by all the models: arithmetic structures, outcomes of a
   C++ computation, counted loops, bounded arrays and finite sums.  Nothing here
   transcribes a particular function of /repo. *)
From Coq Require Export ZArith Bool List Lia String.
From Coq Require Import Reals Lra QArith Qminmax.
Export ListNotations.
Open Scope Z_scope.

(* ------------------------------------------------------------------ *)
(** * Arithmetic

   The operations the code uses on [double].  [nlit m e] is the literal m*10^e. *)
Record num : Type := mkNum {
  car :> Type;
  nlit : Z -> Z -> car;
  nadd : car -> car -> car;
  nsub : car -> car -> car;
  nmul : car -> car -> car;
  ndiv : car -> car -> car;
  nopp : car -> car;
  nltb : car -> car -> bool;   (* a < b *)
  nleb : car -> car -> bool;   (* a <= b *)
  neqb : car -> car -> bool;   (* a == b *)
  nsqrt : car -> car;
  npow : car -> car -> car     (* pow(a,b) *)
}.
Arguments nlit {_} _ _.
Arguments nadd {_} _ _.
Arguments nsub {_} _ _.
Arguments nmul {_} _ _.
Arguments ndiv {_} _ _.
Arguments nopp {_} _.
Arguments nltb {_} _ _.
Arguments nleb {_} _ _.
Arguments neqb {_} _ _.
Arguments nsqrt {_} _.
Arguments npow {_} _ _.

Declare Scope num_scope.
Delimit Scope num_scope with num.
Infix "+" := nadd : num_scope.
Infix "-" := nsub : num_scope.
Infix "*" := nmul : num_scope.
Infix "/" := ndiv : num_scope.
Notation "- x" := (nopp x) : num_scope.
Infix "<?" := nltb : num_scope.
Infix "<=?" := nleb : num_scope.
Infix "=?" := neqb : num_scope.

Definition n0 {K : num} : K := nlit 0 0.
Definition n1 {K : num} : K := nlit 1 0.

(* The real instance. *)
Definition Rltb (a b : R) : bool := if Rlt_dec a b then true else false.
Definition Rleb (a b : R) : bool := if Rle_dec a b then true else false.
Definition Reqb (a b : R) : bool := if Req_EM_T a b then true else false.
Definition Rlit (m e : Z) : R := (IZR m * powerRZ 10 e)%R.
Definition Rnum : num :=
  mkNum R Rlit Rplus Rminus Rmult Rdiv Ropp Rltb Rleb Reqb sqrt Rpower.
Canonical Rnum.

(* A rational instance, used only to run the model on examples.  [nsqrt] and [npow]
   return their first argument: the examples run with it do not use them. *)
Definition Qlit (m e : Z) : Q :=
  if (0 <=? e)%Z then Qred (inject_Z (m * 10 ^ e)) else Qred (Qmake m (Z.to_pos (10 ^ (- e)))).
Definition Qltb (a b : Q) : bool := negb (Qle_bool b a).
Definition QNum : num :=
  mkNum Q Qlit (fun a b => Qred (a + b)) (fun a b => Qred (a - b))
        (fun a b => Qred (a * b)) (fun a b => Qred (a / b)) (fun a => Qred (- a))
        Qltb Qle_bool Qeq_bool (fun a => a) (fun a _ => a).

Lemma Rltb_spec a b : reflect (a < b)%R (Rltb a b).
Proof. unfold Rltb; destruct (Rlt_dec a b); constructor; assumption. Qed.
Lemma Rleb_spec a b : reflect (a <= b)%R (Rleb a b).
Proof. unfold Rleb; destruct (Rle_dec a b); constructor; assumption. Qed.
Lemma Reqb_spec a b : reflect (a = b)%R (Reqb a b).
Proof. unfold Reqb; destruct (Req_EM_T a b); constructor; assumption. Qed.
Lemma Rlit_0 m : Rlit m 0 = IZR m.
Proof. unfold Rlit; simpl; ring. Qed.

(* ------------------------------------------------------------------ *)
(** * Outcomes *)
Inductive out (A : Type) : Type :=
| Ok (a : A)          (* normal completion *)
| Throw (msg : string)(* throw OdesException *)
| UB (msg : string)   (* undefined behaviour *)
| Diverge.            (* the fuel given to an unbounded loop ran out *)
Arguments Ok {A} a.
Arguments Throw {A} msg.
Arguments UB {A} msg.
Arguments Diverge {A}.

Definition bind {A B} (m : out A) (f : A -> out B) : out B :=
  match m with
  | Ok a => f a
  | Throw s => Throw s
  | UB s => UB s
  | Diverge => Diverge
  end.
Notation "x <- e ;; k" := (bind e (fun x => k))
  (at level 61, e at next level, right associativity).
Notation "' p <- e ;; k" := (bind e (fun p => k))
  (at level 61, p pattern, e at next level, right associativity).

(* [wp m Q]: m completes normally with a value satisfying Q (in particular no UB). *)
Definition wp {A} (m : out A) (Q : A -> Prop) : Prop :=
  match m with Ok a => Q a | _ => False end.
Lemma wp_bind {A B} (m : out A) (f : A -> out B) Q :
  wp m (fun a => wp (f a) Q) -> wp (bind m f) Q.
Proof. destruct m; simpl; auto. Qed.
Lemma bind_assoc {A B C} (m : out A) (f : A -> out B) (g : B -> out C) :
  bind (bind m f) g = bind m (fun a => bind (f a) g).
Proof. destruct m; reflexivity. Qed.
Lemma wp_mono {A} (m : out A) (P Q : A -> Prop) :
  wp m P -> (forall a, P a -> Q a) -> wp m Q.
Proof. destruct m; simpl; auto. Qed.
Lemma wp_ok {A} (m : out A) Q : wp m Q <-> exists a, m = Ok a /\ Q a.
Proof.
  split.
  - destruct m; simpl; intro H; try contradiction. eauto.
  - intros [a [-> H]]; exact H.
Qed.

(* ------------------------------------------------------------------ *)
(** * Counted loops: for(i=lo;i<=hi;i++) *)
Fixpoint iterM {St} (k : nat) (i : Z) (f : Z -> St -> out St) (s : St) : out St :=
  match k with
  | O => Ok s
  | S k' => bind (f i s) (iterM k' (i + 1) f)
  end.
Definition forM {St} (lo hi : Z) (f : Z -> St -> out St) (s : St) : out St :=
  iterM (Z.to_nat (hi - lo + 1)) lo f s.
Fixpoint iter {St} (k : nat) (i : Z) (f : Z -> St -> St) (s : St) : St :=
  match k with
  | O => s
  | S k' => iter k' (i + 1) f (f i s)
  end.
Definition for_ {St} (lo hi : Z) (f : Z -> St -> St) (s : St) : St :=
  iter (Z.to_nat (hi - lo + 1)) lo f s.

Lemma iterM_ind {St} (P : Z -> St -> Prop) k : forall i (f : Z -> St -> out St) s,
  P i s ->
  (forall j t, i <= j < i + Z.of_nat k -> P j t -> wp (f j t) (P (j + 1))) ->
  wp (iterM k i f s) (P (i + Z.of_nat k)).
Proof.
  induction k as [|k IH]; intros i f s H0 Hs.
  - simpl. rewrite Z.add_0_r. exact H0.
  - cbn [iterM]. apply wp_bind.
    eapply wp_mono. { apply Hs; [lia|exact H0]. }
    intros t Ht. replace (i + Z.of_nat (S k)) with (i + 1 + Z.of_nat k) by lia.
    apply IH; [exact Ht|]. intros j u Hj. apply Hs; lia.
Qed.
Lemma forM_ind {St} (P : Z -> St -> Prop) lo hi (f : Z -> St -> out St) s :
  lo <= hi + 1 -> P lo s ->
  (forall j t, lo <= j <= hi -> P j t -> wp (f j t) (P (j + 1))) ->
  wp (forM lo hi f s) (P (hi + 1)).
Proof.
  intros Hl H0 Hs. unfold forM.
  replace (P (hi + 1)) with (P (lo + Z.of_nat (Z.to_nat (hi - lo + 1)))).
  2:{ f_equal. lia. }
  apply iterM_ind; [exact H0|]. intros j t Hj. apply Hs; lia.
Qed.
Lemma forM_empty {St} lo hi (f : Z -> St -> out St) s : hi < lo -> forM lo hi f s = Ok s.
Proof. intros H. unfold forM. replace (Z.to_nat (hi - lo + 1)) with O by lia. reflexivity. Qed.
Lemma iter_ind {St} (P : Z -> St -> Prop) k : forall i (f : Z -> St -> St) s,
  P i s ->
  (forall j t, i <= j < i + Z.of_nat k -> P j t -> P (j + 1) (f j t)) ->
  P (i + Z.of_nat k) (iter k i f s).
Proof.
  induction k as [|k IH]; intros i f s H0 Hs.
  - simpl. rewrite Z.add_0_r. exact H0.
  - cbn [iter]. replace (i + Z.of_nat (S k)) with (i + 1 + Z.of_nat k) by lia.
    apply IH; [apply Hs; [lia|exact H0]|]. intros j u Hj. apply Hs; lia.
Qed.
Lemma for_ind {St} (P : Z -> St -> Prop) lo hi (f : Z -> St -> St) s :
  lo <= hi + 1 -> P lo s ->
  (forall j t, lo <= j <= hi -> P j t -> P (j + 1) (f j t)) ->
  P (hi + 1) (for_ lo hi f s).
Proof.
  intros Hl H0 Hs. unfold for_.
  replace (P (hi + 1)) with (P (lo + Z.of_nat (Z.to_nat (hi - lo + 1)))).
  2:{ f_equal. lia. }
  apply iter_ind; [exact H0|]. intros j t Hj. apply Hs; lia.
Qed.
Lemma for_empty {St} lo hi (f : Z -> St -> St) s : hi < lo -> for_ lo hi f s = s.
Proof. intros H. unfold for_. replace (Z.to_nat (hi - lo + 1)) with O by lia. reflexivity. Qed.

(* for(i=lo;i<=hi;i++) as a list of indices *)
Definition zrange (lo hi : Z) : list Z :=
  map (fun k => lo + Z.of_nat k) (seq 0 (Z.to_nat (hi - lo + 1))).
Lemma zrange_In lo hi i : In i (zrange lo hi) <-> lo <= i <= hi.
Proof.
  unfold zrange. rewrite in_map_iff. split.
  - intros [k [<- Hk]]. apply in_seq in Hk. lia.
  - intros H. exists (Z.to_nat (i - lo)). split; [lia|]. apply in_seq. lia.
Qed.

(* ------------------------------------------------------------------ *)
(** * Arrays: a function together with the bounds of the legal accesses *)
Definition upd {A} (v : Z -> A) (i : Z) (x : A) : Z -> A :=
  fun k => if k =? i then x else v k.
Definition upd2 {A} (v : Z -> Z -> A) (i j : Z) (x : A) : Z -> Z -> A :=
  fun k l => if (k =? i) && (l =? j) then x else v k l.
Definition inb (lo hi i : Z) : bool := (lo <=? i) && (i <=? hi).
Definition rd {A} (lo hi : Z) (v : Z -> A) (i : Z) : out A :=
  if inb lo hi i then Ok (v i) else UB "read out of bounds".
Definition wr {A} (lo hi : Z) (v : Z -> A) (i : Z) (x : A) : out (Z -> A) :=
  if inb lo hi i then Ok (upd v i x) else UB "write out of bounds".
(* 1-based square matrices of order n *)
Definition rd2 {A} (n : Z) (v : Z -> Z -> A) (i j : Z) : out A :=
  if inb 1 n i && inb 1 n j then Ok (v i j) else UB "read out of bounds".
Definition wr2 {A} (n : Z) (v : Z -> Z -> A) (i j : Z) (x : A) : out (Z -> Z -> A) :=
  if inb 1 n i && inb 1 n j then Ok (upd2 v i j x) else UB "write out of bounds".

Lemma inb_true lo hi i : lo <= i <= hi -> inb lo hi i = true.
Proof. unfold inb. intros. apply andb_true_intro. split; apply Z.leb_le; lia. Qed.
Lemma inb_iff lo hi i : inb lo hi i = true <-> lo <= i <= hi.
Proof. unfold inb. rewrite andb_true_iff, !Z.leb_le. tauto. Qed.
Lemma inb_false lo hi i : inb lo hi i = false <-> ~ (lo <= i <= hi).
Proof. rewrite <- inb_iff. destruct (inb lo hi i); split; intuition congruence. Qed.
Lemma rd_ok {A} lo hi (v : Z -> A) i : lo <= i <= hi -> rd lo hi v i = Ok (v i).
Proof. intros; unfold rd; rewrite inb_true; auto. Qed.
Lemma wr_ok {A} lo hi (v : Z -> A) i x : lo <= i <= hi -> wr lo hi v i x = Ok (upd v i x).
Proof. intros; unfold wr; rewrite inb_true; auto. Qed.
Lemma rd2_ok {A} n (v : Z -> Z -> A) i j : 1 <= i <= n -> 1 <= j <= n -> rd2 n v i j = Ok (v i j).
Proof. intros; unfold rd2; rewrite !inb_true; auto. Qed.
Lemma wr2_ok {A} n (v : Z -> Z -> A) i j x :
  1 <= i <= n -> 1 <= j <= n -> wr2 n v i j x = Ok (upd2 v i j x).
Proof. intros; unfold wr2; rewrite !inb_true; auto. Qed.
Lemma upd_same {A} (v : Z -> A) i x : upd v i x i = x.
Proof. unfold upd. rewrite Z.eqb_refl. reflexivity. Qed.
Lemma upd_other {A} (v : Z -> A) i x k : k <> i -> upd v i x k = v k.
Proof. unfold upd. destruct (Z.eqb_spec k i); congruence. Qed.
Lemma upd2_same {A} (v : Z -> Z -> A) i j x : upd2 v i j x i j = x.
Proof. unfold upd2. rewrite !Z.eqb_refl. reflexivity. Qed.
Lemma upd2_other {A} (v : Z -> Z -> A) i j x k l :
  k <> i \/ l <> j -> upd2 v i j x k l = v k l.
Proof. unfold upd2. destruct (Z.eqb_spec k i), (Z.eqb_spec l j); simpl; intuition congruence. Qed.

(* stepping rules *)
Lemma wp_assoc {A B C} (e : out A) (f : A -> out B) (g : B -> out C) Q :
  wp (bind e (fun a => bind (f a) g)) Q -> wp (bind (bind e f) g) Q.
Proof. rewrite bind_assoc. auto. Qed.
Lemma wp_rd {A B} lo hi (v : Z -> A) i (f : A -> out B) Q :
  lo <= i <= hi -> wp (f (v i)) Q -> wp (bind (rd lo hi v i) f) Q.
Proof. intros H. rewrite rd_ok by exact H. auto. Qed.
Lemma wp_wr {A B} lo hi (v : Z -> A) i x (f : (Z -> A) -> out B) Q :
  lo <= i <= hi -> wp (f (upd v i x)) Q -> wp (bind (wr lo hi v i x) f) Q.
Proof. intros H. rewrite wr_ok by exact H. auto. Qed.
Lemma wp_rd2 {A B} n (v : Z -> Z -> A) i j (f : A -> out B) Q :
  1 <= i <= n -> 1 <= j <= n -> wp (f (v i j)) Q -> wp (bind (rd2 n v i j) f) Q.
Proof. intros H1 H2. rewrite rd2_ok by assumption. auto. Qed.
Lemma wp_wr2 {A B} n (v : Z -> Z -> A) i j x (f : (Z -> Z -> A) -> out B) Q :
  1 <= i <= n -> 1 <= j <= n -> wp (f (upd2 v i j x)) Q -> wp (bind (wr2 n v i j x) f) Q.
Proof. intros H1 H2. rewrite wr2_ok by assumption. auto. Qed.
Lemma wp_okb {A B} (a : A) (f : A -> out B) Q : wp (f a) Q -> wp (bind (Ok a) f) Q.
Proof. auto. Qed.
