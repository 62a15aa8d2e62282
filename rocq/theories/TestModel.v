(* The test programs: the exact solution of SDIRKL/test/main.cpp, the operator of Rock4-L/test/F.hpp,
   the right-hand side of Rock4-NG/test/FKPPOMP.hpp, the distance of Rock4-L/test/main.cpp.
   An int converted to double is a literal.  cos, exp and atan are arguments.  The parallel loops
   are sequential here (their iterations write different elements).  Not modelled here: the main
   programs (that of SDIRKL: SdirkMainModel.v), init. *)
From Verif Require Import Base HessModel.
Open Scope Z_scope.

Section Test.
Context {K : num}.
(* <algorithm> *)
Definition std_max (a b : K) : K := if (a <? b)%num then b else a.
Definition std_min (a b : K) : K := if (b <? a)%num then b else a.
Definition std_abs (a : K) : K := if (a <? nlit 0 0)%num then (- a)%num else a.

(* ---- SDIRKL/test/main.cpp ---- *)
Section Exact.
Variables (kcos kexp katan : K -> K) (n : Z).
(* lines 16-22 *)
Definition ex_l : K := nlit 25 0.
Definition ex_pi : K := (nlit 4 0 * katan (nlit 1 0))%num.
Definition ex_h : K := (nlit 1 0 / nlit (n - 1) 0)%num.
(* lines 26-32 *)
Definition ex_cinit (x : vec K) : out (vec K) :=
  let cpi := (ex_pi * ex_l / nlit (n - 1) 0)%num in
  forM 0 (n - 1) (fun i x => wr 0 (n - 1) x i (kcos (cpi * nlit i 0)%num)) x.
(* line 46 *)
Definition ex_eigenvalue : K := (- nlit 2 0 * (nlit 1 0 - kcos (ex_pi * ex_l / nlit (n - 1) 0)) / (ex_h * ex_h))%num.
(* lines 37-45 *)
Definition ex_sol (t beta : K) (e : vec K) : out (vec K) :=
  e <- ex_cinit e ;;
  let elambda := kexp (ex_eigenvalue * t)%num in
  let lambda := ex_eigenvalue in
  let c := (elambda * (nlit 1 0 + beta / lambda) - beta / lambda)%num in
  forM 0 (n - 1) (fun i e => v <- rd 0 (n - 1) e i ;; wr 0 (n - 1) e i (v * c)%num) e.
End Exact.

(* ---- Rock4-L/test/F.hpp ---- *)
Section F.
Variable Size : Z.
(* line 26 *)
Definition f_h : K := (nlit 1 0 / (nlit Size 0 - nlit 1 0))%num.
(* lines 12-21 *)
Definition f_rho (kcos : K -> K) : K :=
  let pi := nlit 314159265359 (-11) in
  for_ 0 (Size - 1) (fun i R => std_max (std_abs (nlit 2 0 / (f_h * f_h) * (kcos (nlit i 0 * pi / nlit Size 0) - nlit 1 0))%num) R) (nlit 0 0).
Definition at2 (v : vec K) (i : Z) := rd 0 (Size - 1) v i.
(* lines 37-51 *)
Definition f_L (inp s : vec K) (a b : K) (o : vec K) : out (vec K) :=
  let h1 := (f_h * f_h)%num in let ah1 := (a / h1)%num in
  x0 <- at2 inp 0 ;; x1 <- at2 inp 1 ;; s0 <- at2 s 0 ;;
  o <- wr 0 (Size - 1) o 0 ((- nlit 2 0 * x0 + nlit 2 0 * x1) * ah1 + b * s0)%num ;;
  o <- forM 1 (Size - 2) (fun i o =>
    xm <- at2 inp (i - 1) ;; x <- at2 inp i ;; xp <- at2 inp (i + 1) ;;
    o <- wr 0 (Size - 1) o i (xm - nlit 2 0 * x + xp)%num ;;
    oi <- at2 o i ;; si <- at2 s i ;; wr 0 (Size - 1) o i (oi * ah1 + b * si)%num) o ;;
  x2 <- at2 inp (Size - 2) ;; x1 <- at2 inp (Size - 1) ;; s1 <- at2 s (Size - 1) ;;
  wr 0 (Size - 1) o (Size - 1) ((nlit 2 0 * x2 - nlit 2 0 * x1) * ah1 + b * s1)%num.
(* lines 53-67 *)
Definition f_A (inp s : vec K) (a b : K) (g o : vec K) : out (vec K) :=
  let h1 := (f_h * f_h)%num in
  x0 <- at2 inp 0 ;; x1 <- at2 inp 1 ;; g0 <- at2 g 0 ;; s0 <- at2 s 0 ;;
  o <- wr 0 (Size - 1) o 0 (a * ((- nlit 2 0 * x0 + nlit 2 0 * x1) / h1 + g0) + b * s0)%num ;;
  o <- forM 1 (Size - 2) (fun i o =>
    xm <- at2 inp (i - 1) ;; x <- at2 inp i ;; xp <- at2 inp (i + 1) ;;
    o <- wr 0 (Size - 1) o i (xm - nlit 2 0 * x + xp)%num ;;
    oi <- at2 o i ;; gi <- at2 g i ;; si <- at2 s i ;; wr 0 (Size - 1) o i (a * (oi / h1 + gi) + b * si)%num) o ;;
  x2 <- at2 inp (Size - 2) ;; x1 <- at2 inp (Size - 1) ;; g1 <- at2 g (Size - 1) ;; s1 <- at2 s (Size - 1) ;;
  wr 0 (Size - 1) o (Size - 1) (a * ((nlit 2 0 * x2 - nlit 2 0 * x1) / h1 + g1) + b * s1)%num.
(* lines 69-89 *)
Definition f_Lc (inp s : vec K) (a b c : K) (o : vec K) : out (vec K) :=
  let h1 := (f_h * f_h)%num in let ah1 := (a / h1)%num in
  x0 <- at2 inp 0 ;; x1 <- at2 inp 1 ;;
  o <- wr 0 (Size - 1) o 0 ((- nlit 2 0 * x0 + nlit 2 0 * x1) * ah1)%num ;;
  o <- forM 1 (Size - 2) (fun i o =>
    xm <- at2 inp (i - 1) ;; x <- at2 inp i ;; xp <- at2 inp (i + 1) ;;
    o <- wr 0 (Size - 1) o i (xm - nlit 2 0 * x + xp)%num ;;
    oi <- at2 o i ;; wr 0 (Size - 1) o i (oi * ah1)%num) o ;;
  x2 <- at2 inp (Size - 2) ;; x1 <- at2 inp (Size - 1) ;;
  o <- wr 0 (Size - 1) o (Size - 1) ((nlit 2 0 * x2 - nlit 2 0 * x1) * ah1)%num ;;
  forM 0 (Size - 1) (fun i o => oi <- at2 o i ;; x <- at2 inp i ;; si <- at2 s i ;; wr 0 (Size - 1) o i (oi + b * x + c * si)%num) o.
(* lines 91-105 *)
Definition f_Ac (inp s : vec K) (a b c : K) (g o : vec K) : out (vec K) :=
  let h1 := (f_h * f_h)%num in
  x0 <- at2 inp 0 ;; x1 <- at2 inp 1 ;; g0 <- at2 g 0 ;; s0 <- at2 s 0 ;;
  o <- wr 0 (Size - 1) o 0 (a * ((- nlit 2 0 * x0 + nlit 2 0 * x1) / h1 + g0) + b * x0 + c * s0)%num ;;
  o <- forM 1 (Size - 2) (fun i o =>
    xm <- at2 inp (i - 1) ;; x <- at2 inp i ;; xp <- at2 inp (i + 1) ;; gi <- at2 g i ;; si <- at2 s i ;;
    wr 0 (Size - 1) o i (a * ((xm - nlit 2 0 * x + xp) / h1 + gi) + b * x + c * si)%num) o ;;
  x2 <- at2 inp (Size - 2) ;; x1 <- at2 inp (Size - 1) ;; g1 <- at2 g (Size - 1) ;; s1 <- at2 s (Size - 1) ;;
  wr 0 (Size - 1) o (Size - 1) (a * ((nlit 2 0 * x2 - nlit 2 0 * x1) / h1 + g1) + b * x1 + c * s1)%num.
End F.

(* ---- Rock4-NG/test/FKPPOMP.hpp ---- *)
Section FKPP.
Variable Size : Z.
(* lines 14-20 *)
Definition fk_f (u : K) : K := std_min (nlit 1 0) (std_max (nlit 0 0) (nlit 5 (-1) * u * (nlit 1 0 - u))%num).
(* lines 26-27 *)
Definition fk_uh2 : K := let h := (nlit 1 0 / (nlit Size 0 - nlit 1 0))%num in (nlit 2 (-3) / (h * h))%num.
Definition fk_rho : K := (nlit 4 0 * fk_uh2 + nlit 1 0)%num.
(* lines 34-44 *)
Definition fk_rhs (x y : vec K) : out (vec K) :=
  x1 <- at2 Size x 1 ;; x0 <- at2 Size x 0 ;;
  y <- wr 0 (Size - 1) y 0 (fk_uh2 * (x1 - x0) + fk_f x0)%num ;;
  y <- forM 1 (Size - 2) (fun i y =>
    xm <- at2 Size x (i - 1) ;; xi <- at2 Size x i ;; xp <- at2 Size x (i + 1) ;;
    wr 0 (Size - 1) y i (fk_uh2 * (xm - nlit 2 0 * xi + xp) + fk_f xi)%num) y ;;
  x2 <- at2 Size x (Size - 2) ;; x1 <- at2 Size x (Size - 1) ;;
  wr 0 (Size - 1) y (Size - 1) (fk_uh2 * (x2 - x1) + fk_f x1)%num.
End FKPP.

(* Rock4-L/test/main.cpp:20-26; pow(d,2) is d*d *)
Definition l_normdiff (n : Z) (x y : vec K) : out K :=
  r <- forM 0 (n - 1) (fun i ret => xi <- rd 0 (n - 1) x i ;; yi <- rd 0 (n - 1) y i ;; Ok ((xi - yi) * (xi - yi))%num) (nlit 0 0) ;;
  Ok (nsqrt r).
End Test.
