(* Algebra of the Radau5 step: the linear system solved by slvrad, the tolerances, the
   bound on the number of Newton iterations *)
From Coq Require Import Reals Lra Lia.
From Verif Require Import Base HessModel VecFun CMacros JacModel RadauModel RodasProofs.
From Verif Require Import FieldLU Spec HessPathProofs.
Open Scope R_scope.

(* ---- slvrad ------------------------------------------------------------------------------------- *)
Lemma rsum3 f : rsum 1 3 f = f 1%Z + f 2%Z + f 3%Z.
Proof. rewrite !rsum_lo by lia. rewrite rsum_empty by lia. cbn. ring. Qed.
(* the block matrix of the transformed system *)
Definition Lambda_of (c : rdc Rnum) : Z -> Z -> R := fun k l =>
  three (three (U1 c) 0 0 l)
        (three 0 (ALPH c) (- BETA c) l)
        (three 0 (BETA c) (ALPH c) l) k.
Lemma diag_sum n b x i : (1 <= i <= n)%Z ->
  rsum 1 n (fun j => newton_matrix b (fun _ _ => 0) i j * x j) = b * x i.
Proof.
  intros Hi. rewrite newton_sum by exact Hi. unfold matvec. rewrite rsum_zero; [ring|]. intros; ring.
Qed.
Lemma slvrad_block La (c : rdc Rnum) (solvereal : La -> vec Rnum -> vec Rnum -> out (vec Rnum))
    (solvecomplex : La -> vec Rnum -> vec Rnum -> vec Rnum -> out (vec Rnum * vec Rnum))
    n la Jv J h (F1 F2 F3 Z1 Z2 Z3 X1 X2 X3 : vec Rnum) :
  h <> 0 ->
  (forall b X, solvereal la b Jv = Ok X -> solution n (newton_matrix (U1 c / h) J) X b) ->
  (forall b1 b2 X Y, solvecomplex la b1 b2 Jv = Ok (X, Y) ->
     csolution n (newton_matrix (ALPH c / h) J) (newton_matrix (BETA c / h) (fun _ _ => 0)) X Y b1 b2) ->
  slvrad solvereal solvecomplex c la Jv h F1 F2 F3 Z1 Z2 Z3 = Ok (X1, X2, X3) ->
  block_solution n h (Lambda_of c) J (three X1 X2 X3)
    (fun k i => three Z1 Z2 Z3 k i - rsum 1 3 (fun l => Lambda_of c k l / h * three F1 F2 F3 l i)).
Proof.
  intros Hh HR HC E. unfold slvrad in E.
  match type of E with (X1 <- solvereal la ?b Jv ;; _) = _ => set (r1 := b) in E end.
  destruct (solvereal la r1 Jv) as [Y1| | |] eqn:E1; try discriminate. cbn [bind] in E.
  match type of E with ('(_, _) <- solvecomplex la ?b ?b2 Jv ;; _) = _ => set (r2 := b) in E; set (r3 := b2) in E end.
  destruct (solvecomplex la r2 r3 Jv) as [[Y2 Y3]| | |] eqn:E2; try discriminate. cbn [bind] in E.
  injection E as <- <- <-. apply HR in E1. apply HC in E2.
  intros k i Hk Hi. specialize (E1 i Hi). destruct (E2 i Hi) as [E3 E4]. clear E2.
  rewrite newton_sum in E1 by exact Hi.
  rewrite rsum_sub in E3. rewrite newton_sum, diag_sum in E3 by exact Hi.
  rewrite rsum_add in E4. rewrite diag_sum, newton_sum in E4 by exact Hi.
  rewrite !rsum3. unfold r1, r2, r3 in *. clear r1 r2 r3. cbn in E1, E3, E4.
  set (u := U1 c : R) in *. set (a := ALPH c : R) in *. set (b := BETA c : R) in *.
  unfold Lambda_of. fold u a b.
  assert (Hc : (k = 1 \/ k = 2 \/ k = 3)%Z) by lia.
  assert (Z0 : 0 / h = 0) by (field; exact Hh). assert (Zb : - b / h = - (b / h)) by (field; exact Hh).
  destruct Hc as [->|[->| ->]]; unfold three; cbn -[matvec rsum u a b Rdiv]; rewrite ?Z0, ?Zb.
  - clear - E1. lra.
  - clear - E3. lra.
  - clear - E4. lra.
Qed.

