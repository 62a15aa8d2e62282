(* Transcription of common/include/Matrices.hpp:214-309, class
   Matrices<true,true,n,...> (full matrices, Hessenberg option).
   External: LAPACK's dgehrd_, an argument [dgehrd] of the model mapping the matrix to
   the overwritten matrix, the array tau and info.  Not modelled: the workspace query
   and its reallocation (lines 246-256). *)
From Verif Require Import Base HessModel.
Open Scope Z_scope.
Set Implicit Arguments.

Section Path.
Context {K : num}.
(* the data members of lines 221-227 used by the algorithm *)
Record hst := mkHst {
  hE1 : mat K; E2R : mat K; E2I : mat K; htau : vec K; ipr : ivec; ipi : ivec; calhes : bool }.
Variable dgehrd : mat K -> mat K * vec K * Z.

(* fortranArray::equal_minus and addDiag (fortranArray.hpp), used at lines 263-264 *)
Definition equal_minus (J : mat K) : mat K := fun i j => (- J i j)%num.
Definition add_diag (A : mat K) (f : K) : mat K :=
  fun i j => if i =? j then (A i j + f)%num else A i j.

(* decomr, lines 240-270; returns the new members and the (possibly reduced) Jacobian *)
Definition h_decomr (n : Z) (fac1 : K) (s : hst) (Jac : mat K) : out (hst * mat K) :=
  '(Jac, tau', ch) <-
    (if calhes s then
       let '(Jac', tau', info) := dgehrd Jac in
       if negb (info =? 0) then Throw "decomr: info" else Ok (Jac', tau', false)
     else Ok (Jac, htau s, false)) ;;
  '(A, ip, info) <- dech n (add_diag (equal_minus Jac) fac1) (ipr s) ;;
  if negb (info =? 0) then Throw "decomr (dech)"
  else Ok (mkHst A (E2R s) (E2I s) tau' ip (ipi s) ch, Jac).
(* solvereal, lines 271-276 *)
Definition h_solvereal (n : Z) (s : hst) (Jac : mat K) (Z : vec K) : out (vec K) :=
  let fuel := S (Z.to_nat n) in
  Cr <- householder fuel n Jac (htau s) Z true ;;
  Cr <- solh n (hE1 s) (ipr s) Cr ;;
  householder fuel n Jac (htau s) Cr false.
(* decomc, lines 277-297: only the Hessenberg part of E2R and E2I is assigned; the
   value returned by dechc is dropped *)
Definition h_decomc (n : Z) (alpha beta : K) (s : hst) (Jac : mat K) : out hst :=
  '(R1, I1) <- forM 1 (n - 1) (fun j st =>
     let '(R1, I1) := st in
     a <- rd2 n Jac (j + 1) j ;;
     R1 <- wr2 n R1 (j + 1) j (- a)%num ;;
     I1 <- wr2 n I1 (j + 1) j n0 ;; Ok (R1, I1)) (E2R s, E2I s) ;;
  '(R1, I1) <- forM 1 n (fun j st =>
     '(R1, I1) <- forM 1 j (fun i st =>
        let '(R1, I1) := st in
        I1 <- wr2 n I1 i j n0 ;;
        a <- rd2 n Jac i j ;; R1 <- wr2 n R1 i j (- a)%num ;; Ok (R1, I1)) st ;;
     d <- rd2 n R1 j j ;; R1 <- wr2 n R1 j j (d + alpha)%num ;;
     I1 <- wr2 n I1 j j beta ;; Ok (R1, I1)) (R1, I1) ;;
  '(R1, I1, ip, _) <- dechc n R1 I1 (ipi s) ;;
  Ok (mkHst (hE1 s) R1 I1 (htau s) (ipr s) ip (calhes s)).
(* solvecomplex, lines 298-306 *)
Definition h_solvecomplex (n : Z) (s : hst) (Jac : mat K) (Zr Zi : vec K) : out (vec K * vec K) :=
  let fuel := S (Z.to_nat n) in
  Cr <- householder fuel n Jac (htau s) Zr true ;;
  Ci <- householder fuel n Jac (htau s) Zi true ;;
  '(Cr, Ci) <- solhc n (E2R s) (E2I s) (ipi s) (Cr, Ci) ;;
  Zr <- householder fuel n Jac (htau s) Cr false ;;
  Zi <- householder fuel n Jac (htau s) Ci false ;;
  Ok (Zr, Zi).
End Path.
