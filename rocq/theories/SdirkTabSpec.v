(* Specification of the steps of Sdirkl with the tables as they are printed: the row sums S are
   rounded, so they are not the sums of the rows. *)
From Coq Require Import Reals.
From Verif Require Import Base HessModel Spec SdirkSpec.
Open Scope R_scope.

(* the Runge-Kutta tableau with an explicit first stage, at u, which takes up the difference
   between S and the sums of the rows *)
Definition border_a (a : Z -> Z -> R) (S : Z -> R) (i j : Z) : R :=
  if (i =? 0)%Z then 0 else if (j =? 0)%Z then S (i - 1)%Z - cc a (i - 1) else a (i - 1)%Z (j - 1)%Z.
Definition border_b (s : Z) (a : Z -> Z -> R) (S D : Z -> R) (j : Z) : R :=
  if (j =? 0)%Z then rsum 0 (s - 1) (fun i => D i * (S i - cc a i)) else weights s a D (j - 1).
(* ---- stability ---- *)
Definition dot0 (n : Z) (l x : Z -> R) : R := rsum 0 (n - 1) (fun k => l k * x k).
(* lr + i li is a left eigenvector of A for the eigenvalue a + i b *)
Definition left_eigen_op (n : Z) (A : vec Rnum -> vec Rnum) (lr li : Z -> R) (a b : R) : Prop :=
  forall x, dot0 n lr (A x) = a * dot0 n lr x - b * dot0 n li x /\ dot0 n li (A x) = b * dot0 n lr x + a * dot0 n li x.
(* the squared modulus of the component of x along that eigenvector *)
Definition component0 (n : Z) (lr li x : Z -> R) : R := (dot0 n lr x) ^ 2 + (dot0 n li x) ^ 2.
