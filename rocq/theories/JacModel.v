(* Transcription of the finite-difference Jacobian, Rodascc.hpp:161-178 and
   Radau5cc.hpp:81-98 (the same code, except that Radau5 counts the calls), for full and
   banded storage (Ibegin/Iend: Matrices.hpp:114-116 and 207-209).
   The user's right-hand side is an argument: it may carry its own state (type Sg), may
   read the abscissa and the state vector, and returns the n derivatives.  It is assumed
   not to modify the vector it is given. *)
From Verif Require Import Base HessModel LayoutModel CMacros.
Open Scope Z_scope.
Set Implicit Arguments.

(* MatrixType.hpp / Matrices.hpp: full or banded with kl sub- and ku super-diagonals *)
Inductive shape := Full | Band (kl ku : Z).

Section Jac.
Context {K : num}.
Variable Sg : Type.
Variable F : Sg -> K -> vec K -> Sg * vec K.
Variable n : Z.
Variable sh : shape.

Definition sh_set (J : vec K) (i j : Z) (v : K) : out (vec K) :=
  match sh with Full => fa_set n J i j v | Band kl ku => fb_set n kl ku J i j v end.
Definition sh_begin (j : Z) : Z := match sh with Full => 1 | Band kl ku => Z.max 1 (j - ku) end.
Definition sh_end (j : Z) : Z := match sh with Full => n | Band kl ku => Z.min n (j + kl) end.

(* the increment, Rodascc.hpp:167, Radau5cc.hpp:87 *)
Definition fd_delta (uround ysafe : K) : K := nsqrt (uround * mMAX (nlit 1 (-5)) (mABS ysafe))%num.
Definition jacobian (uround : K) (s : Sg) (t : K) (y Fy J : vec K) : out (Sg * vec K * vec K) :=
  forM 1 n (fun j st => let '(s, y, J) := st in
    ysafe <- rd 1 n y j ;;
    let delt := fd_delta uround ysafe in
    let udelt := (nlit 1 0 / delt)%num in
    y <- wr 1 n y j (ysafe + delt)%num ;;
    let '(s, R) := F s t y in
    J <- forM (sh_begin j) (sh_end j) (fun i J =>
           r <- rd 1 n R i ;; f <- rd 1 n Fy i ;; sh_set J i j ((r - f) * udelt)%num) J ;;
    y <- wr 1 n y j ysafe ;;
    Ok (s, y, J)) (s, y, J).
End Jac.
