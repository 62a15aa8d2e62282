(* Model of Rock4-L/include/Rock4L.hpp and Rock4Coeffs.hpp: ROCK4 with constant steps for
   linear (du/dt = Au) and affine (du/dt = Au+b) problems.

   Simplifications: as in Rock4Model; an array is a function from indices to values.  The
   user's object has a state.  Its operators may read their input arrays while writing the
   output array (Rock4-L/test/F.hpp:43-45 does), so an output array which is also an input
   array is modelled as undefined.  ac, bc, hc are recomputed in every step and are local
   here.  sizesplit, nrej, nacc, told and pass are computed but never used. *)
From Verif Require Import Base HessModel VecFun CMacros Rock4Model.
Open Scope Z_scope.

Section Kernel.
Context {K : num}.
Variable Sg : Type.
(* the four operators, Rock4L.hpp:31-43: opL in s a b, opLc in s a b c, opA in s a b g,
   opAc in s a b c g *)
Variable opL : Sg -> vec K -> vec K -> K -> K -> Sg * vec K.
Variable opLc : Sg -> vec K -> vec K -> K -> K -> K -> Sg * vec K.
Variable opA : Sg -> vec K -> vec K -> K -> K -> vec K -> Sg * vec K.
Variable opAc : Sg -> vec K -> vec K -> K -> K -> K -> vec K -> Sg * vec K.
(* the tables of Rock4-L/include/coeffs-rock4; Rock4Coeffs.hpp:14-22: row-major *)
Variables RECF FPA FPB : Z -> K.
Definition l_recf (i : Z) : out K := rd 0 4381 RECF (i - 1).
Definition l_fpa (i j : Z) : out K := rd 0 299 FPA ((i - 1) * 6 + j - 1).
Definition l_fpb (i j : Z) : out K := rd 0 199 FPB ((i - 1) * 4 + j - 1).

(* the arrays, the user's object, the counters funccal and nsteps; the pointers are set by
   splitBigArray (lines 73-76) at the beginning of each step *)
Record lest := mkL { l_H : heap (K := K); l_f : Sg; l_funccal : Z; l_nsteps : Z }.
Definition callL (H : heap (K := K)) (f : Sg) (pin ps : Z) (a b : K) (pout : Z) : out (heap (K := K) * Sg) :=
  if (pout =? pin) || (pout =? ps) then UB "output array is an input array" else
  let '(f, v) := opL f (H pin) (H ps) a b in Ok (hset H pout v, f).
Definition callLc (H : heap (K := K)) (f : Sg) (pin ps : Z) (a b c : K) (pout : Z) : out (heap (K := K) * Sg) :=
  if (pout =? pin) || (pout =? ps) then UB "output array is an input array" else
  let '(f, v) := opLc f (H pin) (H ps) a b c in Ok (hset H pout v, f).
Definition callA (H : heap (K := K)) (f : Sg) (pin ps : Z) (a b : K) (pg pout : Z) : out (heap (K := K) * Sg) :=
  if (pout =? pin) || (pout =? ps) || (pout =? pg) then UB "output array is an input array" else
  let '(f, v) := opA f (H pin) (H ps) a b (H pg) in Ok (hset H pout v, f).
Definition callAc (H : heap (K := K)) (f : Sg) (pin ps : Z) (a b c : K) (pg pout : Z) : out (heap (K := K) * Sg) :=
  if (pout =? pin) || (pout =? ps) || (pout =? pg) then UB "output array is an input array" else
  let '(f, v) := opAc f (H pin) (H ps) a b c (H pg) in Ok (hset H pout v, f).

(* makeHornerCoeffs, lines 62-71, as a function of ac and bc; hc[0]=1 *)
Definition hc1 (b1 b2 b3 b4 : K) : K := (b1 + b2 + b3 + b4)%num.
Definition hc2 (a21 a31 a32 a41 a42 a43 b2 b3 b4 : K) : K := (a21 * b2 + a31 * b3 + a32 * b3 + a41 * b4 + a42 * b4 + a43 * b4)%num.
Definition hc3 (a21 a31 a32 a42 a43 b3 b4 : K) : K := (a21 * a32 * b3 + a21 * a42 * b4 + a31 * a43 * b4 + a32 * a43 * b4)%num.
Definition hc4 (a21 a32 a43 b4 : K) : K := (a21 * a32 * a43 * b4)%num.

(* the recurrence, lines 120-139 (linear) and 187-206 (affine); the operator applied is
   [call]; the state is (H, f, g0, g1, g2) *)
Definition l_loop (call : heap (K := K) -> Sg -> Z -> Z -> K -> K -> K -> Z -> out (heap (K := K) * Sg))
    (mr mdeg : Z) (dt : K) (y : Z) (st : heap (K := K) * Sg * Z * Z * Z) : out (heap (K := K) * Sg * Z * Z * Z) :=
  forM 2 mdeg (fun i st =>
    let '(H, f, g0, g1, g2) := st in
    '(c1, c2) <- (if i =? 2 then c1 <- l_recf (mr + 1) ;; c2 <- l_recf (mr + 2) ;; Ok (c1, c2)
                  else c1 <- l_recf (mr + 2 * (i - 2) + 1) ;; c2 <- l_recf (mr + 2 * (i - 2) + 2) ;; Ok (c1, c2)) ;;
    let temp1 := (dt * c1)%num in let temp3 := (- c2)%num in
    let temp2 := (nlit 1 0 - temp3)%num in
    '(H, f) <- call H f g1 (if i =? 2 then y else g0) temp1 temp2 temp3 g2 ;;
    (* permut3, lines 81-85 *)
    Ok (H, f, g1, g2, g0)) st.

(* kernel1, lines 109-167; the arrays are y and k1, g0, g1, g2 of splitBigArray *)
Definition kernel1 (y k1 g0 g1 g2 : Z) (mdeg mz mr : Z) (e : lest) (dt : K) : out lest :=
  c <- l_recf mr ;;
  '(H, f) <- callL (l_H e) (l_f e) y y (dt * c)%num (nlit 1 0) g1 ;;
  '(H, f, g0, g1, g2) <- l_loop callLc mr mdeg dt y (H, f, g0, g1, g2) ;;
  (* switchAdr(g1,g0); temp=g1 *)
  '(g0, g1) <-- (g1, g0) ;;
  let temp := g1 in
  x1 <- l_fpa mz 1 ;; x2 <- l_fpa mz 2 ;; x3 <- l_fpa mz 3 ;; x4 <- l_fpa mz 4 ;; x5 <- l_fpa mz 5 ;; x6 <- l_fpa mz 6 ;;
  z1 <- l_fpb mz 1 ;; z2 <- l_fpb mz 2 ;; z3 <- l_fpb mz 3 ;; z4 <- l_fpb mz 4 ;;
  let a21 := (dt * x1)%num in let a31 := (dt * x2)%num in let a32 := (dt * x3)%num in
  let a41 := (dt * x4)%num in let a42 := (dt * x5)%num in let a43 := (dt * x6)%num in
  let b1 := (dt * z1)%num in let b2 := (dt * z2)%num in let b3 := (dt * z3)%num in let b4 := (dt * z4)%num in
  '(H, f) <- callL H f g0 g0 (hc4 a21 a32 a43 b4) (hc3 a21 a31 a32 a42 a43 b3 b4) k1 ;;
  '(H, f) <- callL H f k1 g0 (nlit 1 0) (hc2 a21 a31 a32 a41 a42 a43 b2 b3 b4) temp ;;
  '(H, f) <- callL H f temp g0 (nlit 1 0) (hc1 b1 b2 b3 b4) k1 ;;
  '(H, f) <- callL H f k1 g0 (nlit 1 0) (nlit 1 0) y ;;
  Ok (mkL H f (l_funccal e + (mdeg + 1) + 4) (l_nsteps e + 1)).

(* kernel2, lines 174-240; b is the array of the constant part *)
Definition kernel2 (y b k1 g0 g1 g2 : Z) (mdeg mz mr : Z) (e : lest) (dt : K) : out lest :=
  c <- l_recf mr ;;
  '(H, f) <- callA (l_H e) (l_f e) y y (dt * c)%num (nlit 1 0) b g1 ;;
  '(H, f, g0, g1, g2) <- l_loop (fun H f pin ps u v w pout => callAc H f pin ps u v w b pout) mr mdeg dt y (H, f, g0, g1, g2) ;;
  '(g0, g1) <-- (g1, g0) ;;
  a21 <- l_fpa mz 1 ;; a31 <- l_fpa mz 2 ;; a32 <- l_fpa mz 3 ;; a41 <- l_fpa mz 4 ;; a42 <- l_fpa mz 5 ;; a43 <- l_fpa mz 6 ;;
  b1 <- l_fpb mz 1 ;; b2 <- l_fpb mz 2 ;; b3 <- l_fpb mz 3 ;; b4 <- l_fpb mz 4 ;;
  let dt2 := (dt * dt)%num in let dt3 := (dt2 * dt)%num in
  '(H, f) <- callL H f g0 b dt dt k1 ;;
  '(H, f) <- callL H f k1 k1 (hc4 a21 a32 a43 b4 * dt3)%num (hc3 a21 a31 a32 a42 a43 b3 b4 * dt2)%num g1 ;;
  '(H, f) <- callL H f g1 k1 (nlit 1 0) (hc2 a21 a31 a32 a41 a42 a43 b2 b3 b4 * dt)%num g2 ;;
  '(H, f) <- callL H f g2 k1 (nlit 1 0) (hc1 b1 b2 b3 b4) g1 ;;
  H <-- hset H y (fun i => (H g0 i + H g1 i)%num) ;;
  Ok (mkL H f (l_funccal e + (mdeg + 1) + 4) (l_nsteps e + 1)).
End Kernel.
Arguments lest {K}.
Arguments mkL {K Sg}.
Arguments l_H {K Sg}.
Arguments l_f {K Sg}.
Arguments l_funccal {K Sg}.
Arguments l_nsteps {K Sg}.
Arguments callL {K Sg}.
Arguments callLc {K Sg}.
Arguments callA {K Sg}.
Arguments callAc {K Sg}.
Arguments l_loop {K Sg}.
Arguments kernel1 {K Sg}.
Arguments kernel2 {K Sg}.

(* the driver; lines 283-323 and 332-372 differ only in the exception of line 286/335 and in
   the kernel called *)
Section Driver.
Context {K : num}.
Variable W : Type.
Variable toint : K -> out Z.
Variable kern : Z -> Z -> Z -> W -> K -> out W.
Variable tend eigmax : K.
(* std::abs *)
Definition fabs (x : K) : K := if (x <? nlit 0 0)%num then (- x)%num else x.
(* v_hist is a ghost: (t, h, degree) of the steps done *)
Record lst := mkV { v_t : K; v_h : K; v_mdego : Z; v_mp1 : Z; v_mp2 : Z; v_stages : Z; v_w : W; v_hist : list (K * K * Z) }.
Definition lv_body (st : lst) : out lst :=
  let t := v_t st in
  let h := if (fabs (tend - t) <=? nlit 101 (-2) * v_h st)%num then fabs (tend - t)%num else v_h st in
  if (h <? nlit 10 0 * r4_uround)%num then Throw "Rock4: step too small" else
  mdeg <- toint (nsqrt ((nlit 3 0 + h * eigmax) / nlit 353 (-3)) + nlit 1 0)%num ;;
  if 152 <? mdeg then Throw "Rock4: degree limited to 152." else
  let mdeg := Z.max mdeg 5 - 4 in
  '(mdeg, mp1, mp2, stages) <- (if mdeg =? v_mdego st then Ok (mdeg, v_mp1 st, v_mp2 st, v_stages st) else
      '(mdeg, mp1, mp2) <- mdegre mdeg (v_mp1 st) ;;
      Ok (mdeg, mp1, mp2, if v_stages st <? mdeg + 4 then mdeg + 4 else v_stages st)) ;;
  w <- kern mdeg mp1 mp2 (v_w st) h ;;
  let t' := (t + h)%num in
  Ok (mkV t' (if (tend <? t' + h)%num then (tend - t')%num else h) mdeg mp1 mp2 stages w ((t, h, mdeg) :: v_hist st)).
Fixpoint lv_loop (fuel : nat) (st : lst) : out lst :=
  if (v_t st <? tend)%num then
    match fuel with O => Diverge | S f => st <- lv_body st ;; lv_loop f st end
  else Ok st.
(* [wrong]: the template argument does not fit the operator called, lines 285, 334; mp1, mp2:
   what the members hold *)
Definition rock4l (wrong : bool) (fuel : nat) (w : W) (t0 h0 : K) (mp1 mp2 : Z) : out lst :=
  if wrong then Throw "Rock4::operator() called as" else
  lv_loop fuel (mkV t0 h0 0 mp1 mp2 0 w nil).
End Driver.
Arguments lst {K}.
Arguments mkV {K W}.
Arguments v_t {K W}.
Arguments v_h {K W}.
Arguments v_mdego {K W}.
Arguments v_mp1 {K W}.
Arguments v_mp2 {K W}.
Arguments v_stages {K W}.
Arguments v_w {K W}.
Arguments v_hist {K W}.
Arguments lv_body {K W}.
Arguments lv_loop {K W}.
Arguments rock4l {K W}.
(* nsteps and funccal are set to 0 by operator(), lines 287-291 *)
Definition l_init {K Sg} (e : lest (K := K) Sg) : lest Sg := mkL (l_H e) (l_f e) 0 0.
