(* What the compressed formats mean, and the discrete Laplace operator.  Independent of the model. *)
From Coq Require Import ZArith Bool List Reals.
From Verif Require Import Spec.
Open Scope Z_scope.
Import ListNotations.

(* a sparse matrix: the elements stored *)
Definition sparse (T : Type) := Z -> Z -> option T.
(* the elements assigned one after the other; the last one counts *)
Fixpoint assigned {T} (l : list (Z * Z * T)) (i j : Z) : option T :=
  match l with
  | [] => None
  | (i', j', v) :: t => match assigned t i j with
                        | Some w => Some w
                        | None => if (i =? i') && (j =? j') then Some v else None
                        end
  end.
(* SuperLU's compressed columns (numbered from 0) of a matrix with n rows and n columns, numbered from 1:
   the elements cp j, ..., cp (j+1) - 1 of the arrays are those of column j, in increasing rows *)
Definition compressed_columns {T} (n nnz : Z) (a : Z -> T) (ri cp : Z -> Z) (A : sparse T) : Prop :=
  cp 0 = 0 /\ cp n = nnz /\ (forall j, 0 <= j < n -> cp j <= cp (j + 1)) /\
  (forall j k, 0 <= j < n -> cp j <= k < cp (j + 1) -> 0 <= ri k < n) /\
  (forall j k, 0 <= j < n -> cp j <= k -> k + 1 < cp (j + 1) -> ri k < ri (k + 1)) /\
  (forall j, 0 <= j < n -> forall i v, A (i + 1) (j + 1) = Some v <-> exists k, cp j <= k < cp (j + 1) /\ ri k = i /\ a k = v).
(* compressed rows, everything numbered from 1 (Fortran), in C arrays *)
Definition compressed_rows {T} (n nnz : Z) (ia ja : Z -> Z) (a : Z -> T) (A : sparse T) : Prop :=
  ia 0 = 1 /\ ia n = nnz + 1 /\ (forall i, 1 <= i <= n -> ia (i - 1) <= ia i) /\
  (forall i k, 1 <= i <= n -> ia (i - 1) <= k < ia i -> 1 <= ja (k - 1) <= n) /\
  (forall i, 1 <= i <= n -> forall j v, A i j = Some v <-> exists k, ia (i - 1) <= k < ia i /\ ja (k - 1) = j /\ a (k - 1) = v).
Definition transposed {T} (A : sparse T) : sparse T := fun i j => A j i.

(* the product with a vector numbered from 0 *)
Definition elt (A : sparse R) (i j : Z) : R := match A i j with Some v => v | None => 0%R end.
Definition product (n : Z) (A : sparse R) (x : Z -> R) (i : Z) : R := rsum 0 (n - 1) (fun j => (elt A (i + 1) (j + 1) * x j)%R).
Definition regular (n : Z) (A : sparse R) : Prop :=
  forall x, (forall i, 0 <= i < n -> product n A x i = 0%R) -> forall i, 0 <= i < n -> x i = 0%R.

(* u'' on n points of [0,1], with u' = 0 at both ends: the values outside are mirrored *)
Definition mirror (n : Z) (u : Z -> R) (i : Z) : R := if i <? 0 then u (- i) else if n <=? i then u (2 * (n - 1) - i) else u i.
Definition laplace (n : Z) (u : Z -> R) (i : Z) : R :=
  ((mirror n u (i - 1) - 2 * u i + mirror n u (i + 1)) / (1 / IZR (n - 1)) ^ 2)%R.
(* differences with the neighbours, nothing across the ends: h^2 u'' with u' = 0 at the ends *)
Definition diffusion (n : Z) (x : Z -> R) (i : Z) : R :=
  ((if (i =? 0)%Z then 0 else x (i - 1)%Z - x i) + (if (i =? n - 1)%Z then 0 else x (i + 1)%Z - x i))%R.
