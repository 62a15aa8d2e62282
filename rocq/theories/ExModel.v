(* The bundled example problems whose Jacobian matrix or Hamiltonian is given analytically:
   Radau5-NG/test/KPP.hpp, Oregonator.hpp, BZ.hpp, Rodas-NG/test/KPP.hpp, Oregonator.hpp,
   Rock4-L/test/FRadau5.hpp, SymplecticRK/test/Kepler2.hpp, Outer.hpp, OuterNeptune.hpp,
   OuterUranus.hpp.  Accesses to the Jacobian matrix are those of fortranArray and
   fortranRectangularArray (LayoutModel.v).  pow(x,2), pow(x,3) are products. *)
From Verif Require Import Base HessModel LayoutModel.
Open Scope Z_scope.

Section Ex.
Context {K : num}.

(* ---- one-dimensional reaction-diffusion, n points ------------------------- *)
Section Grid.
Variables (n : Z) (eh2 : K).
Variables g dg : Z -> K -> K.     (* the reaction term at a point and its derivative *)
(* Radau5-NG/test/KPP.hpp:57-66, Rodas-NG/test/KPP.hpp:62-69, Rock4-L/test/FRadau5.hpp:56-65 *)
Definition grid_rhs (y res : vec K) : out (vec K) :=
  y1 <- rd 0 (n - 1) y 1 ;; y0 <- rd 0 (n - 1) y 0 ;;
  res <- wr 0 (n - 1) res 0 (nlit 2 0 * eh2 * (y1 - y0) + g 0 y0)%num ;;
  res <- forM 1 (n - 2) (fun i res =>
    a <- rd 0 (n - 1) y (i - 1) ;; b <- rd 0 (n - 1) y i ;; c <- rd 0 (n - 1) y (i + 1) ;;
    wr 0 (n - 1) res i (eh2 * (a - nlit 2 0 * b + c) + g i b)%num) res ;;
  a <- rd 0 (n - 1) y (n - 2) ;; b <- rd 0 (n - 1) y (n - 1) ;;
  wr 0 (n - 1) res (n - 1) (nlit 2 0 * eh2 * (a - b) + g (n - 1) b)%num.
(* Radau5-NG/test/KPP.hpp:67-79, Rodas-NG/test/KPP.hpp:70-80, Rock4-L/test/FRadau5.hpp:66-77; nsub = nsup = 1;
   (li, lj): the element set by the last statement, (n-1,n) in Radau5-NG and Rock4-L, (n,n) in Rodas-NG.
   y is a fortranVector (indices from 1) *)
Definition grid_jac (li lj : Z) (y J : vec K) : out (vec K) :=
  let set := fb_set n 1 1 in
  a <- rd 1 n y 1 ;;
  J <- set J 1 1 (- nlit 2 0 * eh2 + dg 0 a)%num ;; J <- set J 1 2 (nlit 2 0 * eh2)%num ;;
  J <- forM 2 (n - 1) (fun i J =>
    a <- rd 1 n y i ;; J <- set J i i (- nlit 2 0 * eh2 + dg (i - 1) a)%num ;;
    J <- set J i (i - 1) eh2 ;; set J i (i + 1) eh2) J ;;
  a <- rd 1 n y n ;; J <- set J n n (- nlit 2 0 * eh2 + dg (n - 1) a)%num ;; set J li lj (nlit 2 0 * eh2)%num.
End Grid.
(* Radau5-NG/test/KPP.hpp:13-20 *)
Definition kpp_f (u : K) : K := (u * u * (nlit 1 0 - u))%num.
Definition kpp_df (u : K) : K := (u * (nlit 2 0 - nlit 3 0 * u))%num.
(* Rodas-NG/test/KPP.hpp:12-19 *)
Definition rodas_f (k u : K) : K := (k * u * u * (nlit 1 0 - u))%num.
Definition rodas_df (k u : K) : K := (k * u * (nlit 2 0 - nlit 3 0 * u))%num.
(* Radau5-NG/test/KPP.hpp:40-44, Rodas-NG/test/KPP.hpp:45-49, Rock4-L/test/FRadau5.hpp:34-38: eh2 for the constants
   eps, L (0.001 and 100, or 1 and 1); n: the constant as a double *)
Definition grid_eh2 (eps L n : K) : K := let h := (L / (n - nlit 1 0))%num in (eps / (h * h))%num.

(* ---- Oregonator, three components, full matrix ----------------------------- *)
Definition set3 (J : vec K) (i j : Z) (v : K) := fa_set 3 J i j v.
(* Radau5-NG/test/Oregonator.hpp:35-40; u7 = 1/77.27 (line 26) *)
Definition oreg_u7 : K := (nlit 1 0 / nlit 7727 (-2))%num.
Definition oreg_rhs (slow : K -> K) (y res : vec K) : out (vec K) :=
  y0 <- rd 0 2 y 0 ;; y1 <- rd 0 2 y 1 ;; y2 <- rd 0 2 y 2 ;;
  res <- wr 0 2 res 0 (nlit 7727 (-2) * (y1 + y0 * (nlit 1 0 - nlit 8375 (-9) * y0 - y1)))%num ;;
  res <- wr 0 2 res 1 (slow (y2 - (nlit 1 0 + y0) * y1))%num ;;
  wr 0 2 res 2 (nlit 161 (-3) * (y0 - y2))%num.
Definition oreg_rhs_radau := oreg_rhs (fun x => (x * oreg_u7)%num).
(* Rodas-NG/test/Oregonator.hpp:38-43 *)
Definition oreg_rhs_rodas := oreg_rhs (fun x => (x / nlit 7727 (-2))%num).
(* Radau5-NG/test/Oregonator.hpp:41-53 *)
Definition oreg_jac_radau (y J : vec K) : out (vec K) :=
  y1 <- rd 1 3 y 1 ;; y2 <- rd 1 3 y 2 ;;
  J <- set3 J 1 1 (- nlit 129427250 (-11) * y1 - nlit 77270 (-3) * y2 + nlit 77270 (-3))%num ;;
  J <- set3 J 1 2 (- nlit 77270 (-3) * y1 + nlit 77270 (-3))%num ;;
  J <- set3 J 1 3 (nlit 0 0) ;;
  J <- set3 J 2 1 (- oreg_u7 * y2)%num ;;
  J <- set3 J 2 2 (- oreg_u7 * (y1 + nlit 1 0))%num ;;
  J <- set3 J 2 3 oreg_u7 ;;
  J <- set3 J 3 1 (nlit 161 (-3)) ;;
  J <- set3 J 3 2 (nlit 0 0) ;;
  set3 J 3 3 (- nlit 16100 (-5))%num.
(* Rodas-NG/test/Oregonator.hpp:44-56 *)
Definition oreg_jac_rodas (y J : vec K) : out (vec K) :=
  y1 <- rd 1 3 y 1 ;; y2 <- rd 1 3 y 2 ;;
  let c := nlit 129416332341141 (-16) in
  J <- set3 J 1 1 (nlit 129427250 (-11) * y1 - nlit 77270 (-3) * y2 + nlit 77270 (-3))%num ;;
  J <- set3 J 1 2 (- nlit 77270 (-3) * y1 + nlit 77270 (-3))%num ;;
  J <- set3 J 1 3 (nlit 0 0) ;;
  J <- set3 J 2 1 (- c * y2)%num ;;
  J <- set3 J 2 2 (- c * y1 - c)%num ;;
  J <- set3 J 2 3 c ;;
  J <- set3 J 3 1 (nlit 161 (-3)) ;;
  J <- set3 J 3 2 (nlit 0 0) ;;
  set3 J 3 3 (- nlit 16100 (-5))%num.

(* ---- BZ: three such equations with diffusion, nd points; nsub = nsup = 2 ---- *)
Section Bz.
Variables (nd : Z) (e0 e1 e2 : K).   (* eps[0], eps[1], eps[2], BZ.hpp:64 *)
(* BZ.hpp:77-106, one component: offset o, coefficient e, reaction r (i: the point) *)
Definition bz_line (o : Z) (e : K) (r : Z -> out K) (y res : vec K) : out (vec K) :=
  let len := (3 * nd)%Z in
  a <- rd 0 (len - 1) y (o + 1) ;; b <- rd 0 (len - 1) y o ;; f <- r 0 ;;
  res <- wr 0 (len - 1) res o (nlit 2 0 * e * (a - b) + f)%num ;;
  res <- forM 1 (nd - 2) (fun i res =>
    a <- rd 0 (len - 1) y (o + i - 1) ;; b <- rd 0 (len - 1) y (o + i) ;; c <- rd 0 (len - 1) y (o + i + 1) ;; f <- r i ;;
    wr 0 (len - 1) res (o + i) (e * (a - nlit 2 0 * b + c) + f)%num) res ;;
  a <- rd 0 (len - 1) y (o + nd - 2) ;; b <- rd 0 (len - 1) y (o + nd - 1) ;; f <- r (nd - 1) ;;
  wr 0 (len - 1) res (o + nd - 1) (nlit 2 0 * e * (a - b) + f)%num.
Definition bz_at (y : vec K) (i : Z) (f : K -> K -> K -> K) : out K :=
  u <- rd 0 (3 * nd - 1) y i ;; v <- rd 0 (3 * nd - 1) y (nd + i) ;; w <- rd 0 (3 * nd - 1) y (2 * nd + i) ;; Ok (f u v w).
(* BZ.hpp:16-27 *)
Definition bz_f1 (u v w : K) : K := (nlit 7727 (-2) * (v + u * (nlit 1 0 - nlit 8375 (-9) * u - v)))%num.
Definition bz_f2 (u v w : K) : K := ((w - (nlit 1 0 + u) * v) * oreg_u7)%num.
Definition bz_f3 (u v w : K) : K := (nlit 161 (-3) * (u - w))%num.
Definition bz_rhs (y res : vec K) : out (vec K) :=
  res <- bz_line 0 e0 (fun i => bz_at y i bz_f1) y res ;;
  res <- bz_line nd e1 (fun i => bz_at y i bz_f2) y res ;;
  bz_line (2 * nd) e2 (fun i => bz_at y i bz_f3) y res.
(* BZ.hpp:114-141: the linear part of one component *)
Definition bz_lin (o : Z) (e : K) (J : vec K) : out (vec K) :=
  let set := fb_set (3 * nd) 2 2 in
  J <- set J (o + 1) (o + 1) (- nlit 2 0 * e)%num ;; J <- set J (o + 1) (o + 2) (nlit 2 0 * e)%num ;;
  J <- forM 2 (nd - 1) (fun i J =>
    J <- set J (o + i) (o + i) (- nlit 2 0 * e)%num ;; J <- set J (o + i) (o + i - 1) e ;; set J (o + i) (o + i + 1) e) J ;;
  J <- set J (o + nd) (o + nd) (- nlit 2 0 * e)%num ;; set J (o + nd - 1) (o + nd) (nlit 2 0 * e)%num.
(* BZ.hpp:107-154; the third block uses eps[1] (line 134); Jac3 is the matrix of Oregonator.hpp, filled by df *)
Definition bz_jac (y J : vec K) : out (vec K) :=
  J <- bz_lin 0 e0 J ;; J <- bz_lin nd e1 J ;; J <- bz_lin (2 * nd) e1 J ;;
  forM 1 nd (fun i J =>
    u <- rd 1 (3 * nd) y i ;; v <- rd 1 (3 * nd) y (i + nd) ;; w <- rd 1 (3 * nd) y (i + 2 * nd) ;;
    J3 <- oreg_jac_radau (upd (upd (upd (fun _ => n0) 1 u) 2 v) 3 w) (fun _ => n0) ;;
    forM 1 3 (fun j1 J => forM 1 3 (fun i1 J =>
      d <- fa_get 3 J3 i1 j1 ;; x <- fb_get (3 * nd) 2 2 J (i + (i1 - 1) * nd) (i + (j1 - 1) * nd) ;;
      fb_set (3 * nd) 2 2 J (i + (i1 - 1) * nd) (i + (j1 - 1) * nd) (x + d)%num) J) J) J.
End Bz.

(* ---- planetary problems ---------------------------------------------------- *)
Definition pow2 (x : K) : K := (x * x)%num.
Definition pow3 (x : K) : K := (x * x * x)%num.
(* Kepler2.hpp:10-21 *)
Definition kepler_rhs (X Y : vec K) : out (vec K) :=
  q1 <- rd 0 3 X 0 ;; q2 <- rd 0 3 X 1 ;; p1 <- rd 0 3 X 2 ;; p2 <- rd 0 3 X 3 ;;
  Y <- wr 0 3 Y 2 (q1 / nsqrt (pow3 (q1 * q1 + q2 * q2)))%num ;;
  Y <- wr 0 3 Y 3 (q2 / nsqrt (pow3 (q1 * q1 + q2 * q2)))%num ;;
  Y <- wr 0 3 Y 0 (- p1)%num ;; wr 0 3 Y 1 (- p2)%num.
(* Kepler2.hpp:21-29 *)
Definition kepler_H (X : vec K) : out K :=
  q1 <- rd 0 3 X 0 ;; q2 <- rd 0 3 X 1 ;; p1 <- rd 0 3 X 2 ;; p2 <- rd 0 3 X 3 ;;
  Ok (nlit 5 (-1) * (p1 * p1 + p2 * p2) - nlit 1 0 / nsqrt (q1 * q1 + q2 * q2))%num.

(* nb bodies (6, 5, 4 in Outer.hpp, OuterNeptune.hpp, OuterUranus.hpp), n = 6*nb; cap: the number of
   elements of the output array *)
Section Outer.
Variables (nb : Z) (m : Z -> K) (G : K).
(* Outer.hpp:13-20 (x and y are the same array X) *)
Definition diff2 (X : vec K) (k l : Z) : out K :=
  forM 0 2 (fun i r => a <- rd 0 (6 * nb - 1) X (3 * k + i) ;; b <- rd 0 (6 * nb - 1) X (3 * l + i) ;; Ok (r + pow2 (a - b))%num) (nlit 0 0).
(* Outer.hpp:47-56 *)
Definition outer_dqdt (cap : Z) (X Y : vec K) : out (vec K) :=
  forM 0 (nb - 1) (fun i Y => mi <- rd 0 (nb - 1) m i ;; forM 0 2 (fun j Y =>
    p <- rd 0 (6 * nb - 1) X (3 * nb + (3 * i + j)) ;; wr 0 (cap - 1) Y (3 * i + j) (- p / mi)%num) Y) Y.
(* Outer.hpp:70, 80: dp[3*l+s] += c*(q[3*a+s]-q[3*b+s]) *)
Definition outer_add (cap : Z) (c : K) (l a b : Z) (X Y : vec K) : out (vec K) :=
  forM 0 2 (fun s Y => d <- rd 0 (cap - 1) Y (3 * nb + (3 * l + s)) ;;
    x <- rd 0 (6 * nb - 1) X (3 * a + s) ;; y <- rd 0 (6 * nb - 1) X (3 * b + s) ;;
    wr 0 (cap - 1) Y (3 * nb + (3 * l + s)) (d + c * (x - y))%num) Y.
(* Outer.hpp:57-82; the first loop makes 3*n turns *)
Definition outer_dpdt (cap : Z) (X Y : vec K) : out (vec K) :=
  Y <- forM 0 (3 * (6 * nb) - 1) (fun i Y => wr 0 (cap - 1) Y (3 * nb + i) (nlit 0 0)) Y ;;
  Y <- forM 1 (nb - 1) (fun l Y => forM 0 (l - 1) (fun j Y =>
    ml <- rd 0 (nb - 1) m l ;; mj <- rd 0 (nb - 1) m j ;; d <- diff2 X l j ;;
    outer_add cap (G * ml * mj / pow3 (nsqrt d))%num l l j X Y) Y) Y ;;
  forM 0 (nb - 2) (fun l Y => forM (l + 1) (nb - 1) (fun j Y =>
    ml <- rd 0 (nb - 1) m l ;; mj <- rd 0 (nb - 1) m j ;; d <- diff2 X j l ;;
    outer_add cap (- G * mj * ml / pow3 (nsqrt d))%num l j l X Y) Y) Y.
(* Outer.hpp:86-97 *)
Definition outer_rhs (cap : Z) (X Y : vec K) : out (vec K) := Y <- outer_dqdt cap X Y ;; outer_dpdt cap X Y.
(* Outer.hpp:6-12: dot(p,p,i,i) *)
Definition outer_dot (X : vec K) (k : Z) : out K :=
  forM 0 2 (fun i r => a <- rd 0 (6 * nb - 1) X (3 * nb + (3 * k + i)) ;; Ok (r + a * a)%num) (nlit 0 0).
(* Outer.hpp:100-120; the inner loop is for(j=0;j<i-1;j++) *)
Definition outer_H (X : vec K) : out K :=
  ret <- forM 0 (nb - 1) (fun i r => d <- outer_dot X i ;; mi <- rd 0 (nb - 1) m i ;; Ok (r + d / mi)%num) (nlit 0 0) ;;
  let ret := (ret / nlit 2 0)%num in
  s <- forM 1 (nb - 1) (fun i s => mi <- rd 0 (nb - 1) m i ;; forM 0 (i - 2) (fun j s =>
         mj <- rd 0 (nb - 1) m j ;; d <- diff2 X i j ;; Ok (s + mi * mj / nsqrt d)%num) s) (nlit 0 0) ;;
  Ok (ret - G * s)%num.
End Outer.
(* Outer.hpp:27-46 *)
Definition outer_masses (i : Z) : K := match i with
  | 0 => nlit 95478610443 (-14) | 1 => nlit 285583733151 (-15) | 2 => nlit 437273164546 (-16) | 3 => nlit 517759138449 (-16)
  | 4 => (nlit 1 0 / (nlit 13 (-1) * nlit 1 8))%num | _ => nlit 100000597682 (-11) end.
Definition outer_G : K := nlit 295912208286 (-15).
End Ex.
