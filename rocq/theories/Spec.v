(* Specification vocabulary used by the property files: linear systems over the reals
   and over the complex numbers (written as pairs of real systems).  No code is
   modelled here and nothing here refers to a model. *)
From Verif Require Import FieldLU.
From Coq Require Import ZArith Reals.
Open Scope Z_scope.

(* f lo + ... + f hi *)
Definition rsum (lo hi : Z) (f : Z -> R) : R := sum R 0%R Rplus lo hi f.
(* M x = b, rows and columns 1..n *)
Definition solution (n : Z) (M : Z -> Z -> R) (x b : Z -> R) : Prop :=
  forall i, 1 <= i <= n -> rsum 1 n (fun j => M i j * x j)%R = b i.
(* (Mr + i Mi)(xr + i xi) = br + i bi *)
Definition csolution (n : Z) (Mr Mi : Z -> Z -> R) (xr xi br bi : Z -> R) : Prop :=
  forall i, 1 <= i <= n ->
    rsum 1 n (fun j => Mr i j * xr j - Mi i j * xi j)%R = br i /\
    rsum 1 n (fun j => Mi i j * xr j + Mr i j * xi j)%R = bi i.
Definition upper_hessenberg (n : Z) (M : Z -> Z -> R) : Prop :=
  forall i j, 1 <= i <= n -> 1 <= j <= n -> j + 1 < i -> M i j = 0%R.
Definition nonsingular (n : Z) (M : Z -> Z -> R) : Prop :=
  forall x, solution n M x (fun _ => 0%R) -> forall i, 1 <= i <= n -> x i = 0%R.
Definition cnonsingular (n : Z) (Mr Mi : Z -> Z -> R) : Prop :=
  forall xr xi, csolution n Mr Mi xr xi (fun _ => 0%R) (fun _ => 0%R) ->
    forall i, 1 <= i <= n -> xr i = 0%R /\ xi i = 0%R.
(* fac*I - J *)
Definition newton_matrix (fac : R) (J : Z -> Z -> R) : Z -> Z -> R :=
  fun i j => ((if (i =? j)%Z then fac else 0) - J i j)%R.
(* the vector I - t v v^T applied to y, for v = (0,..,0,1,v_{j+2},..,v_n), 1 in position j+1 *)
Definition reflector (n j : Z) (v : Z -> R) (t : R) (y : Z -> R) : Z -> R :=
  let w := fun i => if (i <=? j)%Z then 0%R else if (i =? j + 1)%Z then 1%R else v i in
  fun i => (y i - t * rsum 1 n (fun q => w q * y q) * w i)%R.
(* t and v do describe a reflection (or the identity) *)
Definition is_reflector (n j : Z) (v : Z -> R) (t : R) : Prop :=
  (t = 0 \/ t * (1 + rsum (j + 2) n (fun i => v i * v i)) = 2)%R.
(* product of the n-2 reflectors stored below the subdiagonal of A (LAPACK's
   convention for dgehrd): Q y = H_1 (H_2 (... H_k y)) and its transpose *)
Fixpoint apply_Q (n : Z) (A : Z -> Z -> R) (tau : Z -> R) (k : nat) (y : Z -> R) : Z -> R :=
  match k with
  | O => y
  | S k' => let j := Z.of_nat k in
            apply_Q n A tau k' (reflector n j (fun i => A i j) (tau (j - 1)) y)
  end.
Fixpoint apply_Qt (n : Z) (A : Z -> Z -> R) (tau : Z -> R) (k : nat) (y : Z -> R) : Z -> R :=
  match k with
  | O => y
  | S k' => let j := Z.of_nat k in
            reflector n j (fun i => A i j) (tau (j - 1)) (apply_Qt n A tau k' y)
  end.
Definition matvec (n : Z) (M : Z -> Z -> R) (x : Z -> R) : Z -> R :=
  fun i => rsum 1 n (fun j => M i j * x j)%R.
Definition hess_part (A : Z -> Z -> R) : Z -> Z -> R :=
  fun i j => if (j + 1 <? i)%Z then 0%R else A i j.
(* the documented contract of dgehrd (ilo=1, ihi=n): A and tau describe Q and H with
   J Q = Q H, H upper Hessenberg, Q a product of reflections *)
Definition reduction (n : Z) (J A : Z -> Z -> R) (tau : Z -> R) : Prop :=
  (forall j, 1 <= j <= n - 2 -> is_reflector n j (fun i => A i j) (tau (j - 1))) /\
  (forall x i, 1 <= i <= n ->
     matvec n J (apply_Q n A tau (Z.to_nat (n - 2)) x) i =
     apply_Q n A tau (Z.to_nat (n - 2)) (matvec n (hess_part A) x) i).
(* LAPACK's addresses (0-based) *)
Definition lapack_ge (lda i j : Z) : Z := (j - 1) * lda + (i - 1).
(* AB(kl+ku+1+i-j, j), leading dimension 2kl+ku+1, see dgbtrf *)
Definition lapack_gb (kl ku i j : Z) : Z := (j - 1) * (2 * kl + ku + 1) + (kl + ku + 1 + i - j - 1).
Definition in_full (n i j : Z) : Prop := 1 <= i <= n /\ 1 <= j <= n.
Definition in_band (n kl ku i j : Z) : Prop := 1 <= i <= n /\ 1 <= j <= n /\ j - ku <= i <= j + kl.

(* the matrix held in such a buffer; outside the band the entries are zero *)
Definition mat_ge (n : Z) (x : Z -> R) : Z -> Z -> R := fun i j => x (lapack_ge n i j).
Definition mat_gb (kl ku : Z) (x : Z -> R) : Z -> Z -> R :=
  fun i j => if ((j - ku <=? i) && (i <=? j + kl))%bool then x (lapack_gb kl ku i j) else 0%R.
(* complex buffers: element k has its real part at 2k, its imaginary part at 2k+1 *)
Definition re_part (x : Z -> R) : Z -> R := fun k => x (2 * k).
Definition im_part (x : Z -> R) : Z -> R := fun k => x (2 * k + 1).
(* the documented contract of a LAPACK pair xxxTRF/xxxTRS on matrices of order n held in
   the way described by [mat]: info = 0 exactly when the matrix is nonsingular, and then
   the solve succeeds and returns the solution (vectors are 0-based) *)
Definition lapack_real (n : Z) (mat : (Z -> R) -> Z -> Z -> R)
  (trf : (Z -> R) -> (Z -> R) * (Z -> Z) * Z) (trs : (Z -> R) -> (Z -> Z) -> (Z -> R) -> (Z -> R) * Z) : Prop :=
  forall A LU ip info, trf A = (LU, ip, info) ->
    (info = 0 <-> nonsingular n (mat A)) /\
    (info = 0 -> forall b, exists x, trs LU ip b = (x, 0) /\
       solution n (mat A) (fun i => x (i - 1)) (fun i => b (i - 1))).
Definition lapack_complex (n : Z) (mat : (Z -> R) -> Z -> Z -> R)
  (trf : (Z -> R) -> (Z -> R) * (Z -> Z) * Z) (trs : (Z -> R) -> (Z -> Z) -> (Z -> R) -> (Z -> R) * Z) : Prop :=
  forall A LU ip info, trf A = (LU, ip, info) ->
    (info = 0 <-> cnonsingular n (mat (re_part A)) (mat (im_part A))) /\
    (info = 0 -> forall b, exists x, trs LU ip b = (x, 0) /\
       csolution n (mat (re_part A)) (mat (im_part A))
         (fun i => re_part x (i - 1)) (fun i => im_part x (i - 1))
         (fun i => re_part b (i - 1)) (fun i => im_part b (i - 1))).

(* the 3n-dimensional system (Lambda/h (x) I - I (x) J) X = G, for vectors made of three
   blocks X 1, X 2, X 3 of n components *)
Definition block_solution (n : Z) (h : R) (Lambda : Z -> Z -> R) (J : Z -> Z -> R) (X G : Z -> Z -> R) : Prop :=
  forall k i, 1 <= k <= 3 -> 1 <= i <= n ->
    (rsum 1 3 (fun l => Lambda k l / h * X l i) - matvec n J (X k) i = G k i)%R.
Definition three {A} (a b c : A) (k : Z) : A := if k =? 1 then a else if k =? 2 then b else c.
