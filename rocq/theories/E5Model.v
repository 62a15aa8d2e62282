(* Transcription of Radau5-NG/test/E5.hpp and Rodas-NG/test/E5.hpp, Hairer & Wanner's problem E5. *)
From Verif Require Import Base HessModel.
Open Scope Z_scope.

Section E5.
Context {K : num}.
(* Radau5-NG/test/E5.hpp:22-26; Rodas-NG/test/E5.hpp:42 and 53 *)
Definition e5_M : K := nlit 1 6.
Definition e5_C : K := nlit 113 1.
Definition e5_A : K := nlit 789 (-12).
Definition e5_B : K := nlit 11 6.
(* Radau5-NG/test/E5.hpp:27-31; Rodas-NG/test/E5.hpp:38-44 *)
Definition e5_MC : K := (e5_M * e5_C)%num.
(* Radau5-NG/test/E5.hpp:35-38; Rodas-NG/test/E5.hpp:48-51 *)
Definition e5_init (y : vec K) : out (vec K) :=
  y <- wr 0 3 y 0 (nlit 176 (-5)) ;; y <- wr 0 3 y 1 (nlit 0 0) ;; y <- wr 0 3 y 2 (nlit 0 0) ;; wr 0 3 y 3 (nlit 0 0).
(* Radau5-NG/test/E5.hpp:40-50; Rodas-NG/test/E5.hpp:53-64; t is not used *)
Definition e5_rhs (t : K) (y res : vec K) : out (vec K) :=
  y0 <- rd 0 3 y 0 ;; y1 <- rd 0 3 y 1 ;; y2 <- rd 0 3 y 2 ;; y3 <- rd 0 3 y 3 ;;
  res <- wr 0 3 res 0 ((- e5_A) * y0 - e5_B * y0 * y2)%num ;;
  res <- wr 0 3 res 1 (e5_A * y0 - e5_MC * y1 * y2)%num ;;
  res <- wr 0 3 res 3 (e5_B * y0 * y2 - e5_C * y3)%num ;;
  r1 <- rd 0 3 res 1 ;; r3 <- rd 0 3 res 3 ;;
  wr 0 3 res 2 (r1 - r3)%num.
End E5.
