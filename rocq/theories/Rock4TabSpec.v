(* Specification used by the properties of the coefficient tables of the ROCK4 methods. *)
From Coq Require Import Reals.
From Verif Require Import Base HessModel Rock4Model.
Open Scope R_scope.

(* the decimal number m*10^e *)
Definition dec (p : Z * Z) : R := Rlit (fst p) (snd p).
(* t holds the numbers of the list, in order, each with a relative error of at most 2^-53, as the
   conversion of a literal to double may produce *)
Definition as_stored (t : Z -> R) (l : list (Z * Z)) : Prop :=
  forall k, (0 <= k < Z.of_nat (List.length l))%Z -> Rabs (t k - dec (nth (Z.to_nat k) l (0, 0)%Z)) <= Rabs (dec (nth (Z.to_nat k) l (0, 0)%Z)) / 2 ^ 53.
Definition exactly (t : Z -> R) (l : list (Z * Z)) : Prop :=
  forall k, (0 <= k < Z.of_nat (List.length l))%Z -> t k = dec (nth (Z.to_nat k) l (0, 0)%Z).

(* y is the sum of eigenvectors of f; the list gives (eigenvalue, eigenvector) *)
Definition eigen (f : vec Rnum -> vec Rnum) (p : R * vec Rnum) : Prop := forall i, f (snd p) i = fst p * snd p i.
Fixpoint comb (l : list (R * vec Rnum)) (c : R -> R) : vec Rnum :=
  match l with
  | nil => fun _ => 0
  | p :: t => fun i => c (fst p) * snd p i + comb t c i
  end.
(* the real stability interval of the method of degree d, which has d+4 stages *)
Definition interval (d : Z) (z : R) : Prop := - (353 / 1000 * (IZR (d + 4)) ^ 2 - 3) <= z <= 0.
(* u' results from u by multiplying the component along each eigenvector by a factor of modulus <= 1 *)
Definition damped (l : list (R * vec Rnum)) (u' : vec Rnum) : Prop :=
  exists r : R -> R, (forall p, In p l -> Rabs (r (fst p)) <= 1) /\ u' = comb l r.
