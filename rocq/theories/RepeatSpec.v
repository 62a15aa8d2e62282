(* What "the result of a call does not depend on earlier calls of the object" means (C91). *)
From Coq Require Import ZArith List.
From Verif Require Import Base Spec JacModel JacProofs.
Open Scope Z_scope.

(* two executions end in the same way, with results related by R *)
Definition both {A B : Type} (R : A -> B -> Prop) (a : out A) (b : out B) : Prop :=
  match a, b with
  | Ok x, Ok y => R x y
  | Throw s, Throw t => s = t
  | UB s, UB t => s = t
  | Diverge, Diverge => True
  | _, _ => False
  end.

Section Spec.
Context {K : num}.
Variable n : Z.
Variable sh : shape.
(* the same n components *)
Definition vagree (v v' : Z -> K) : Prop := forall i, 1 <= i <= n -> v i = v' i.
(* the same Jacobian, in the layout sh *)
Definition jagree (J J' : Z -> K) : Prop := forall i j, in_shape n sh i j -> J (sh_off n sh i j) = J' (sh_off n sh i j).

(* the user's functions read n components and write n components (n columns) *)
Definition reads_n {Sg : Type} (F : Sg -> K -> (Z -> K) -> Sg * (Z -> K)) : Prop :=
  forall s t y y', vagree y y' -> fst (F s t y) = fst (F s t y') /\ vagree (snd (F s t y)) (snd (F s t y')).
Definition writes_jac {Sg : Type} (J : Sg -> K -> (Z -> K) -> (Z -> K) -> (Z -> K) -> Sg * (Z -> K)) : Prop :=
  forall s t y y' fy fy' A A', vagree y y' -> vagree fy fy' ->
    fst (J s t y fy A) = fst (J s t y' fy' A') /\ jagree (snd (J s t y fy A)) (snd (J s t y' fy' A')).

(* The linear algebra does not use what its arrays held before the Jacobian was computed.
   Rep la J la' J': the two states of the arrays hold the same matrix. *)
Section Algebra.
Variable La : Type.
Variable decomr : La -> K -> (Z -> K) -> out (La * (Z -> K)).
Variable decomc : La -> K -> K -> (Z -> K) -> out La.
Variable solvereal : La -> (Z -> K) -> (Z -> K) -> out (Z -> K).
Variable solvecomplex : La -> (Z -> K) -> (Z -> K) -> (Z -> K) -> out ((Z -> K) * (Z -> K)).
Variable set_calhes : La -> La.
Variable Rep : La -> (Z -> K) -> La -> (Z -> K) -> Prop.
Definition starts_anew : Prop := forall la la' J J', jagree J J' -> Rep (set_calhes la) J (set_calhes la') J'.
Definition real_anew : Prop := forall la la' J J' a, Rep la J la' J' ->
  both (fun p p' => Rep (fst p) (snd p) (fst p') (snd p') /\
    forall r r', vagree r r' -> both vagree (solvereal (fst p) r (snd p)) (solvereal (fst p') r' (snd p')))
    (decomr la a J) (decomr la' a J').
Definition complex_anew : Prop := forall la la' J J' a al be, Rep la J la' J' ->
  both (fun p p' => both (fun l l' => Rep l (snd p) l' (snd p') /\
     (forall r r', vagree r r' -> both vagree (solvereal l r (snd p)) (solvereal l' r' (snd p'))) /\
     (forall r r' s s', vagree r r' -> vagree s s' ->
        both (fun q q' => vagree (fst q) (fst q') /\ vagree (snd q) (snd q')) (solvecomplex l r s (snd p)) (solvecomplex l' r' s' (snd p'))))
    (decomc (fst p) al be (snd p)) (decomc (fst p') al be (snd p')))
  (decomr la a J) (decomr la' a J').
End Algebra.
End Spec.

(* A LAPACK factorisation and solution of a matrix of which the entries P are stored at the
   offsets off, with right-hand sides of length len, reads nothing else *)
Definition lapack_local {K : num} (len : Z) (same : (Z -> K) -> (Z -> K) -> Prop)
  (trf : (Z -> K) -> (Z -> K) * (Z -> Z) * Z) (trs : (Z -> K) -> (Z -> Z) -> (Z -> K) -> (Z -> K) * Z) : Prop :=
  forall A A', same A A' -> snd (trf A) = snd (trf A') /\
    forall b b', (forall k, 0 <= k < len -> b k = b' k) ->
      let r := trs (fst (fst (trf A))) (snd (fst (trf A))) b in
      let r' := trs (fst (fst (trf A'))) (snd (fst (trf A'))) b' in
      snd r = snd r' /\ forall k, 0 <= k < len -> fst r k = fst r' k.
(* the same real matrix; the same complex matrix, real and imaginary parts interleaved *)
Definition same_entries {K : num} (P : Z -> Z -> Prop) (off : Z -> Z -> Z) (A A' : Z -> K) : Prop :=
  forall i j, P i j -> A (off i j) = A' (off i j).
Definition same_centries {K : num} (P : Z -> Z -> Prop) (off : Z -> Z -> Z) (A A' : Z -> K) : Prop :=
  forall i j, P i j -> A (2 * off i j) = A' (2 * off i j) /\ A (2 * off i j + 1) = A' (2 * off i j + 1).
