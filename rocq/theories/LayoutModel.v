(* Transcription of the storage classes common/include/fortranArray.hpp,
   fortranComplexArray.hpp, fortranRectangularArray.hpp,
   fortranRectangularComplexArray.hpp and of the parts of common/include/Matrices.hpp
   (lines 29-210: Matrices<full,false,...> for full and banded matrices) that build the
   Newton matrices and drive LAPACK.
   A buffer is a 0-based array of a given length; an access outside it is UB.  The DEBUG
   checks (off by default) are not modelled.  LAPACK's routines are arguments of the
   model. *)
From Verif Require Import Base HessModel.
Open Scope Z_scope.
Set Implicit Arguments.

Section Layout.
Context {K : num}.

(* x[k] for a buffer of length len *)
Definition brd (len : Z) (x : vec K) (k : Z) : out K := rd 0 (len - 1) x k.
Definition bwr (len : Z) (x : vec K) (k : Z) (v : K) : out (vec K) := wr 0 (len - 1) x k v.

(* ---- fortranArray<n> ----------------------------------------------------- *)
(* fortranArray.hpp:18 *)
Definition fa_size (n : Z) : Z := n * n.
(* fortranArray.hpp:47 and 61: *(x+(j-1)*n+i-1) *)
Definition fa_off (n i j : Z) : Z := (j - 1) * n + i - 1.
Definition fa_get (n : Z) (x : vec K) (i j : Z) : out K := brd (fa_size n) x (fa_off n i j).
Definition fa_set (n : Z) (x : vec K) (i j : Z) (v : K) : out (vec K) := bwr (fa_size n) x (fa_off n i j) v.
(* fortranArray.hpp:65-71 *)
Definition fa_equal_minus (n : Z) (x X : vec K) : out (vec K) :=
  forM 0 (n * n - 1) (fun i x => a <- brd (fa_size n) X i ;; bwr (fa_size n) x i (- a)%num) x.
(* fortranArray.hpp:74-79 *)
Definition fa_addDiag (n : Z) (x : vec K) (v : K) : out (vec K) :=
  forM 0 (n - 1) (fun i x =>
    a <- brd (fa_size n) x (i * (n + 1)) ;; bwr (fa_size n) x (i * (n + 1)) (a + v)%num) x.

(* ---- fortranComplexArray<n> ---------------------------------------------- *)
(* fortranComplexArray.hpp:23-24 *)
Definition fc_d2 (n : Z) : Z := 2 * n.
Definition fc_size (n : Z) : Z := fc_d2 n * n.
(* line 54 and line 62 *)
Definition fc_re (n i j : Z) : Z := (j - 1) * fc_d2 n + 2 * (i - 1).
Definition fc_im (n i j : Z) : Z := (j - 1) * fc_d2 n + 2 * i - 1.
(* lines 43-47 *)
Definition fc_set (n : Z) (x : vec K) (i j : Z) (re im : K) : out (vec K) :=
  let k := (j - 1) * fc_d2 n + 2 * (i - 1) in
  x <- bwr (fc_size n) x k re ;; bwr (fc_size n) x (k + 1) im.

(* ---- fortranRectangularArray<n,kl,ku> ------------------------------------ *)
(* fortranRectangularArray.hpp:20-24 *)
Definition fb_ldab (kl ku : Z) : Z := 2 * kl + ku + 1.
Definition fb_klku (kl ku : Z) : Z := kl + ku.
Definition fb_size (n kl ku : Z) : Z := fb_ldab kl ku * n.
Definition fb_l1 (kl ku : Z) : Z := fb_ldab kl ku - 1.
Definition fb_cc (kl ku : Z) : Z := fb_klku kl ku - fb_ldab kl ku.
(* lines 64 and 83: *(x+j*l1+i+cc) *)
Definition fb_off (kl ku i j : Z) : Z := j * fb_l1 kl ku + i + fb_cc kl ku.
Definition fb_get (n kl ku : Z) (x : vec K) (i j : Z) : out K := brd (fb_size n kl ku) x (fb_off kl ku i j).
Definition fb_set (n kl ku : Z) (x : vec K) (i j : Z) (v : K) : out (vec K) :=
  bwr (fb_size n kl ku) x (fb_off kl ku i j) v.
(* lines 87-92 *)
Definition fb_equal_minus (n kl ku : Z) (x X : vec K) : out (vec K) :=
  forM 0 (fb_size n kl ku - 1) (fun i x =>
    a <- brd (fb_size n kl ku) X i ;; bwr (fb_size n kl ku) x i (- a)%num) x.
(* lines 95-101 *)
Definition fb_addDiag (n kl ku : Z) (x : vec K) (v : K) : out (vec K) :=
  forM 1 n (fun i x =>
    let k := i * fb_ldab kl ku + fb_cc kl ku in
    a <- brd (fb_size n kl ku) x k ;; bwr (fb_size n kl ku) x k (a + v)%num) x.

(* ---- fortranRectangularComplexArray<n,kl,ku> ----------------------------- *)
(* fortranRectangularComplexArray.hpp:24 (the other constants are those above) *)
Definition fbc_size (n kl ku : Z) : Z := 2 * fb_ldab kl ku * n.
(* lines 80 and 97 *)
Definition fbc_re (kl ku i j : Z) : Z := 2 * (j * fb_l1 kl ku + i + fb_cc kl ku).
Definition fbc_im (kl ku i j : Z) : Z := 2 * (j * fb_l1 kl ku + i + fb_cc kl ku) + 1.
(* lines 51-64 *)
Definition fbc_set (n kl ku : Z) (x : vec K) (i j : Z) (re im : K) : out (vec K) :=
  let k := 2 * (j * fb_l1 kl ku + i + fb_cc kl ku) in
  x <- bwr (fbc_size n kl ku) x k re ;; bwr (fbc_size n kl ku) x (k + 1) im.

(* ---- Matrices.hpp: assembly ---------------------------------------------- *)
(* full, decomr lines 49-50: the buffer given to dgetrf_ *)
Definition asm_real_full (n : Z) (E1 Jac : vec K) (fac1 : K) : out (vec K) :=
  E1 <- fa_equal_minus n E1 Jac ;; fa_addDiag n E1 fac1.
(* full, decomc lines 63-72: the buffer given to zgetrf_ *)
Definition asm_complex_full (n : Z) (E2 Jac : vec K) (alpha beta : K) : out (vec K) :=
  E2 <- forM 1 n (fun j E2 => forM 1 n (fun i E2 =>
          a <- fa_get n Jac i j ;; fc_set n E2 i j (- a)%num n0) E2) E2 ;;
  forM 1 n (fun i E2 =>
    a <- brd (fc_size n) E2 (fc_re n i i) ;;
    E2 <- bwr (fc_size n) E2 (fc_re n i i) (a + alpha)%num ;;
    bwr (fc_size n) E2 (fc_im n i i) beta) E2.
(* banded, decomr lines 149-150 *)
Definition asm_real_band (n kl ku : Z) (E1 Jac : vec K) (fac1 : K) : out (vec K) :=
  E1 <- fb_equal_minus n kl ku E1 Jac ;; fb_addDiag n kl ku E1 fac1.
(* banded, decomc lines 159-168 *)
Definition asm_complex_band (n kl ku : Z) (E2 Jac : vec K) (alpha beta : K) : out (vec K) :=
  E2 <- forM 1 n (fun j E2 => forM (Z.max 1 (j - ku)) (Z.min n (j + kl)) (fun i E2 =>
          a <- fb_get n kl ku Jac i j ;; fbc_set n kl ku E2 i j (- a)%num n0) E2) E2 ;;
  forM 1 n (fun i E2 =>
    a <- brd (fbc_size n kl ku) E2 (fbc_re kl ku i i) ;;
    E2 <- bwr (fbc_size n kl ku) E2 (fbc_re kl ku i i) (a + alpha)%num ;;
    bwr (fbc_size n kl ku) E2 (fbc_im kl ku i i) beta) E2.

(* ---- Matrices.hpp: factorise and solve, LAPACK as arguments --------------- *)
(* (LU, pivots, info) from the matrix buffer; solution and ier from LU, pivots, rhs
   (0-based buffers).  The same shape serves dgetrf/dgetrs, dgbtrf/dgbtrs, zgetrf/zgetrs
   and zgbtrf/zgbtrs, whose dimension arguments are fixed by n (and kl, ku). *)
Variable trf : vec K -> vec K * ivec * Z.
Variable trs : vec K -> ivec -> vec K -> vec K * Z.

(* the members E1/ipivr (or E2R/ipivc) *)
Definition fact := (vec K * ivec)%type.
(* decomr lines 47-55 / 147-155 after assembly *)
Definition factorise (E : vec K) : out fact :=
  let '(LU, ip, info) := trf E in
  if negb (info =? 0) then Throw "decom: info" else Ok (LU, ip).
Definition decomr_full (n : Z) (E1 Jac : vec K) (fac1 : K) : out fact :=
  E <- asm_real_full n E1 Jac fac1 ;; factorise E.
Definition decomr_band (n kl ku : Z) (E1 Jac : vec K) (fac1 : K) : out fact :=
  E <- asm_real_band n kl ku E1 Jac fac1 ;; factorise E.
Definition decomc_full (n : Z) (E2 Jac : vec K) (alpha beta : K) : out fact :=
  E <- asm_complex_full n E2 Jac alpha beta ;; factorise E.
Definition decomc_band (n kl ku : Z) (E2 Jac : vec K) (alpha beta : K) : out fact :=
  E <- asm_complex_band n kl ku E2 Jac alpha beta ;; factorise E.
(* solvereal lines 82-89 / 174-183; Z is 1-based, its buffer 0-based *)
Definition solvereal (f : fact) (Z : vec K) : out (vec K) :=
  let '(LU, ip) := f in
  let '(X, ier) := trs LU ip (fun k => Z (k + 1)) in
  if negb (ier =? 0) then Throw "solvereal" else Ok (fun i => X (i - 1)).
(* solvecomplex lines 94-113 / 185-205: pack (downwards loop), zgetrs_, unpack *)
Definition pack (n : Z) (Z2N Zr Zi : vec K) : out (vec K) :=
  forM 1 n (fun q Z2N =>
    let i := n + 1 - q in
    a <- rd 1 n Zr i ;; Z2N <- wr 1 (2 * n) Z2N (2 * i - 1) a ;;
    b <- rd 1 n Zi i ;; wr 1 (2 * n) Z2N (2 * i) b) Z2N.
Definition unpack (n : Z) (Z2N : vec K) (Z : vec K * vec K) : out (vec K * vec K) :=
  forM 1 n (fun i Z => let '(Zr, Zi) := Z in
    b <- rd 1 (2 * n) Z2N (2 * i) ;; Zi <- wr 1 n Zi i b ;;
    a <- rd 1 (2 * n) Z2N (2 * i - 1) ;; Zr <- wr 1 n Zr i a ;; Ok (Zr, Zi)) Z.
Definition solvecomplex (n : Z) (f : fact) (Z2N Zr Zi : vec K) : out (vec K * vec K) :=
  let '(LU, ip) := f in
  Z2N <- pack n Z2N Zr Zi ;;
  let '(X, ier) := trs LU ip (fun k => Z2N (k + 1)) in
  if negb (ier =? 0) then Throw "solvecomplex"
  else unpack n (fun i => X (i - 1)) (Zr, Zi).

(* the constructor's check, Matrices.hpp:139-144 *)
Definition band_ctor (n nsub nsup : Z) : out unit :=
  if (nsub >=? n) && (nsup >=? n) then Throw "Matrices (banded): incorrect nsub or nsup" else Ok tt.
(* MatrixType.hpp:13 *)
Definition matrix_full (n nsub nsup : Z) : bool := (n - nsub =? 1) && (n - nsup =? 1).
End Layout.
