(* The main program of Rock4-L/test/main.cpp.  The calls of Radau5 and of Rock4L are arguments: rad atol rtol y is the call
   Rad(h,t,Tinteg,y) with h = Tinteg, t = 0 after setTestPolicy, rock dt y the call MonRock(y,0,Tinteg,dt) of a new object
   (affine is false, line 40).  Throw is an OdesException, the only class of exceptions of the library.  fuel bounds the passes
   of do-while; Diverge when it is used up.  Not modelled: files and texts. *)
From Coq Require Import List.
From Verif Require Import Base HessModel ExModel TestModel.
Import ListNotations.
Open Scope Z_scope.

Section LMain.
Context {K : num}.
Variable n : Z.
(* binit.hpp:4-8 *)
Definition binit (b : vec K) : out (vec K) := forM 0 (n - 1) (fun i b => wr 0 (n - 1) b i (nlit 0 0)) b.
(* FRadau5.hpp:32-42 and 55-65: the right-hand side of a constructed object; nn: n as a double *)
Definition fradau5_rhs (nn : K) (b0 y res : vec K) : out (vec K) :=
  b <- binit b0 ;; grid_rhs n (grid_eh2 (nlit 1 0) (nlit 1 0) nn) (fun i _ => b i) y res.
(* FRadau5.hpp:47-53 *)
Definition fradau5_init (y : vec K) : out (vec K) :=
  y <- forM 0 (n / 2) (fun i y => wr 0 (n - 1) y i (nlit 9999999 (-7))) y ;;
  forM (n / 2 + 1) (n - 1) (fun i y => wr 0 (n - 1) y i (nlit 0 0)) y.
(* main.cpp:51-71; after an exception y is whatever the call left, junk *)
Variable rad : K -> K -> vec K -> out (vec K).
Fixpoint search (fuel : nat) (junk : nat -> vec K) (atol rtol : K) (y : vec K) : out (K * K * vec K) :=
  match fuel with
  | O => Diverge
  | S fuel =>
    y0 <- fradau5_init y ;;
    match rad atol rtol y0 with
    | Throw _ => search fuel junk (atol * nlit 2 0)%num (rtol * nlit 2 0)%num (junk fuel)
    | Ok y1 => Ok (atol, rtol, y1)
    | UB s => UB s
    | Diverge => Diverge
    end
  end.
(* main.cpp:90-118; k is 30 there *)
Variable rock : K -> vec K -> out (vec K).
Fixpoint rows (k : nat) (dt : K) (yR y : vec K) : out (list (K * K)) :=
  match k with
  | O => Ok []
  | S k =>
    let dt := (dt / nlit 125 (-2))%num in
    yR <- fradau5_init yR ;;
    yR <- rock dt yR ;;
    d <- l_normdiff n yR y ;;
    r <- rows k dt yR y ;;
    Ok ((dt, d) :: r)
  end.
(* main.cpp:43,47,89: 1e-8, Tinteg/2 *)
Definition l_main (fuel : nat) (junk : nat -> vec K) (Tinteg : K) (k : nat) (y yR : vec K) : out (list (K * K)) :=
  '(_, _, y) <- search fuel junk (nlit 1 (-8)) (nlit 1 (-8)) y ;;
  rows k (Tinteg / nlit 2 0)%num yR y.
End LMain.
