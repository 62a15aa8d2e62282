(* Model of Rock4-NG/include/Rock4.hpp, ToolOMP.hpp and Rock4Coeffs.hpp.

   Part 1: stage-number selection (mdegre) and the coefficient tables.
   Part 2: one attempted step (kernel), with the work arrays designated by pointers.
   Part 3: the driver (operator()), over abstract step, acceptance and spectral radius.
   Part 4: the parallel loops of ToolOMP.

   Simplifications: a buffer is a function from indices to values, the elementwise loops
   of ToolOMP are whole-vector operations (part 4 relates the loops to them).  The user's
   object has a state; its operator() and rho() do not throw.  The conversion from double
   to int at line 217 is the parameter [toint].  The counters are unbounded integers.
   Logging (LOGROCK4) is left out. *)
From Verif Require Import Base HessModel VecFun CMacros.
Open Scope Z_scope.

(* a declaration with initialiser *)
Notation "x <-- v ;; k" := (bind (Ok v) (fun x => k)) (at level 61, v at next level, right associativity).
Notation "' p <-- v ;; k" := (bind (Ok v) (fun p => k)) (at level 61, p pattern, v at next level, right associativity).
Section Std.
Context {K : num}.
(* std::min, std::max: the first argument unless the second one is strictly better *)
Definition smin (a b : K) : K := if (b <? a)%num then b else a.
Definition smax (a b : K) : K := if (a <? b)%num then b else a.
End Std.

(* ---- part 1 ------------------------------------------------------------------------------ *)
(* coeffs-rock4:1295-1297 *)
Definition MS : list Z := [1;2;3;4;5;6;7;8;9;10;11;12;13;14;15;16;17;18;19;20;
  22;24;26;28;30;32;34;36;38;41;44;47;50;53;56;59;63;67;71;76;81;86;92;98;105;112;120;129;138;148].
(* Rock4Coeffs.hpp:28-31 *)
Definition ms (i : Z) : out Z := rd 0 49 (fun k => nth (Z.to_nat k) MS 0) (i - 1).
(* Rock4.hpp:39-54, the loop from index i on, n iterations left; / truncates *)
Fixpoint mdegre_loop (n : nat) (i mdeg mp1 mp2 : Z) : out (Z * Z * Z) :=
  match n with
  | O => Ok (mdeg, mp1, mp2)
  | S n =>
      m <- ms i ;;
      if mdeg =? 0 then UB "division by zero" else
      if 1 <=? Z.quot m mdeg then Ok (m, i, mp2)
      else mdegre_loop n (i + 1) mdeg mp1 (mp2 + m * 2 - 1)
  end.
Definition mdegre (mdeg mp1 : Z) : out (Z * Z * Z) := mdegre_loop 50 1 mdeg mp1 1.

Section Kernel.
Context {K : num}.
Variable Sg : Type.
Variable userF : Sg -> vec K -> Sg * vec K.
(* the tables of coeffs-rock4; Rock4Coeffs.hpp:14-27 *)
Variables RECF FPA FPB FPBE : Z -> K.
Definition recf (i : Z) : out K := rd 0 4381 RECF (i - 1).
Definition fpa (i j : Z) : out K := rd 0 299 FPA ((j - 1) * 50 + i - 1).
Definition fpb (i j : Z) : out K := rd 0 199 FPB ((j - 1) * 50 + i - 1).
Definition fpbe (i j : Z) : out K := rd 0 249 FPBE ((j - 1) * 50 + i - 1).

(* ---- part 2 ------------------------------------------------------------------------------ *)
Definition heap := Z -> vec K.
Definition hset (H : heap) (p : Z) (v : vec K) : heap := fun q => if q =? p then v else H q.
(* the state of the solver object: arrays, user's object, pointers fn k1 k2 k3 k4 temp g0,
   the caller's pointer y, funccal *)
Record est := mkEst { e_H : heap; e_f : Sg; e_fn : Z; e_k1 : Z; e_k2 : Z; e_k3 : Z; e_k4 : Z; e_temp : Z; e_g0 : Z; e_y : Z;
  e_funccal : Z }.
(* F(src,dst) *)
Definition callF (H : heap) (f : Sg) (src dst : Z) : heap * Sg :=
  let '(f, v) := userF f (H src) in (hset H dst v, f).

(* ToolOMP.hpp:41-57, apply with 3-term recurrence, degree deg *)
Definition t_apply (mr : Z) (h : K) (deg : Z) (H : heap) (f : Sg) (g1 g0 vtemp : Z) : out (heap * Sg) :=
  c1 <- recf (mr + 2 * (deg - 2) + 1) ;;
  c2 <- recf (mr + 2 * (deg - 2) + 2) ;;
  let temp1 := (h * c1)%num in let temp3 := (- c2)%num in
  let temp2 := (nlit 1 0 - temp3)%num in
  let '(H, f) := callF H f g1 vtemp in
  Ok (hset H g0 (v_lc3 temp1 (H vtemp) temp2 (H g1) temp3 (H g0)), f).
(* ToolOMP.hpp:58-73, apply for degree 2 *)
Definition t_apply2 (mr : Z) (h : K) (H : heap) (f : Sg) (g2 g1 g0 : Z) : out (heap * Sg) :=
  c1 <- recf (mr + 1) ;;
  c2 <- recf (mr + 2) ;;
  let temp1 := (h * c1)%num in let temp3 := (- c2)%num in
  let temp2 := (nlit 1 0 - temp3)%num in
  let '(H, f) := callF H f g1 g2 in
  Ok (hset H g2 (v_lc3 temp1 (H g2) temp2 (H g1) temp3 (H g0)), f).
(* ToolOMP.hpp:74-135: cl and ct *)
Definition v_x_lc1 (X : vec K) (a1 : K) (Y1 : vec K) : vec K := fun i => (X i + a1 * Y1 i)%num.
(* ToolOMP.hpp:136-156, rpp2; ABS(y[i]) has an atomic argument *)
Definition rpp2 (size : Z) (y : vec K) (a1 : K) (x1 : vec K) (a2 : K) (x2 : vec K) (a3 : K) (x3 : vec K)
    (a4 : K) (x4 : vec K) (a5 : K) (x5 : vec K) (atol rtol : K) : K :=
  for_ 0 (size - 1) (fun i ret =>
    let ab := (mABS (y i) * rtol + atol)%num in
    let d := (nlit 1 0 / ab)%num in
    let s := v_lc5 a1 x1 a2 x2 a3 x3 a4 x4 a5 x5 i in
    (ret + s * s * d * d)%num) (nlit 0 0).

(* the recurrence, lines 74-86: the state is (H, f, g1, g0) *)
Definition k_loop (mr mdeg : Z) (h : K) (k1 y : Z) (st : heap * Sg * Z * Z) : out (heap * Sg * Z * Z) :=
  forM 2 mdeg (fun i st =>
    let '(H, f, g1, g0) := st in
    '(H, f) <- (if i =? 2 then t_apply2 mr h H f g0 g1 y else t_apply mr h i H f g1 g0 k1) ;;
    Ok (H, f, g0, g1)) st.

Variable size : Z.
Variables atol rtol : K.
(* kernel, lines 59-137; mz = mp[1], mr = mp[2] *)
Definition kernel (mdeg mz mr : Z) (e : est) (dt : K) : out (est * K) :=
  let y := e_y e in
  c <- recf mr ;;
  H <-- hset (e_H e) (e_temp e) (v_x_lc1 (e_H e y) (dt * c)%num (e_H e (e_fn e))) ;;
  '(g1, g0) <-- (if mdeg <? 2 then (e_g0 e, e_temp e) else (e_temp e, e_g0 e)) ;;
  '(H, f, g1, g0) <- k_loop mr mdeg dt (e_k1 e) y (H, e_f e, g1, g0) ;;
  '(g1, g0) <-- (if 2 <=? mdeg then (g0, g1) else (g1, g0)) ;;
  let temp := g1 in
  let funccal := e_funccal e + (mdeg - 1) in
  '(H, f) <-- callF H f g0 (e_k1 e) ;;
  a1 <- fpa mz 1 ;;
  H <-- hset H temp (v_x_lc1 (H g0) (dt * a1)%num (H (e_k1 e))) ;;
  '(H, f) <-- callF H f temp (e_k2 e) ;;
  a1 <- fpa mz 2 ;; a2 <- fpa mz 3 ;;
  H <-- hset H temp (v_x_lc2 (H g0) (dt * a1)%num (H (e_k1 e)) (dt * a2)%num (H (e_k2 e))) ;;
  '(H, f) <-- callF H f temp (e_k3 e) ;;
  a1 <- fpa mz 4 ;; a2 <- fpa mz 5 ;; a3 <- fpa mz 6 ;;
  H <-- hset H temp (v_x_lc3 (H g0) (dt * a1)%num (H (e_k1 e)) (dt * a2)%num (H (e_k2 e)) (dt * a3)%num (H (e_k3 e))) ;;
  '(H, f) <-- callF H f temp (e_k4 e) ;;
  let funccal := funccal + 4 in
  b1 <- fpb mz 1 ;; b2 <- fpb mz 2 ;; b3 <- fpb mz 3 ;; b4 <- fpb mz 4 ;;
  let teta1 := (dt * b1)%num in let teta2 := (dt * b2)%num in
  let teta3 := (dt * b3)%num in let teta4 := (dt * b4)%num in
  H <-- hset H temp (v_x_lc4 (H g0) teta1 (H (e_k1 e)) teta2 (H (e_k2 e)) teta3 (H (e_k3 e)) teta4 (H (e_k4 e))) ;;
  d1 <- fpbe mz 1 ;; d2 <- fpbe mz 2 ;; d3 <- fpbe mz 3 ;; d4 <- fpbe mz 4 ;; d5 <- fpbe mz 5 ;;
  let teta1 := (dt * d1 - teta1)%num in let teta2 := (dt * d2 - teta2)%num in
  let teta3 := (dt * d3 - teta3)%num in let teta4 := (dt * d4 - teta4)%num in
  let teta5 := (dt * d5)%num in
  '(H, f) <-- callF H f temp g0 ;;
  let funccal := funccal + 1 in
  err <-- nsqrt (rpp2 size (H temp) teta1 (H (e_k1 e)) teta2 (H (e_k2 e)) teta3 (H (e_k3 e)) teta4 (H (e_k4 e)) teta5 (H g0) atol rtol / nlit size 0)%num ;;
  Ok (mkEst H f (e_fn e) (e_k1 e) (e_k2 e) (e_k3 e) (e_k4 e) temp g0 y funccal, err).
(* lines 200-201: F(y,fn); funccal=1 *)
Definition k_init (e : est) : est :=
  let '(H, f) := callF (e_H e) (e_f e) (e_y e) (e_fn e) in
  mkEst H f (e_fn e) (e_k1 e) (e_k2 e) (e_k3 e) (e_k4 e) (e_temp e) (e_g0 e) (e_y e) 1.
(* line 266: switchAdr(temp,y); switchAdr(g0,fn) *)
Definition k_accept (e : est) : est :=
  mkEst (e_H e) (e_f e) (e_g0 e) (e_k1 e) (e_k2 e) (e_k3 e) (e_k4 e) (e_y e) (e_fn e) (e_temp e) (e_funccal e).
End Kernel.
Arguments est {K}.
Arguments callF {K Sg}.
Arguments t_apply {K Sg}.
Arguments t_apply2 {K Sg}.
Arguments k_loop {K Sg}.
Arguments kernel {K Sg}.
Arguments k_init {K Sg}.
Arguments k_accept {K Sg}.
Arguments mkEst {K Sg}.
Arguments e_H {K Sg}.
Arguments e_f {K Sg}.
Arguments e_fn {K Sg}.
Arguments e_k1 {K Sg}.
Arguments e_k2 {K Sg}.
Arguments e_k3 {K Sg}.
Arguments e_k4 {K Sg}.
Arguments e_temp {K Sg}.
Arguments e_g0 {K Sg}.
Arguments e_y {K Sg}.
Arguments e_funccal {K Sg}.

(* ---- part 3 ------------------------------------------------------------------------------ *)
(* ghost: one attempted step: time, step size, spectral radius used, whether it was
   re-evaluated just before, requested degree (the value given to mdegre or found equal to
   mdego), degree of the recurrence, mp[1], mp[2], whether the step was accepted *)
Record att {K : num} := mkAtt { t_t : K; t_h : K; t_rho : K; t_new : bool; t_req : Z; t_deg : Z; t_mz : Z; t_mr : Z; t_acc : bool }.
Arguments att : clear implicits.
Arguments mkAtt {K}.

Section Driver.
Context {K : num}.
Variable W : Type.
Variable toint : K -> out Z.
Variable kern : Z -> Z -> Z -> W -> K -> out (W * K).
Variable init : W -> W.
Variable accept : W -> W.
Variable rho : W -> W * K.
Variable tend : K.
Definition r4_uround : K := nlit 1 (-16).

Record dst := mkD {
  u_t : K; u_h : K; u_hp : K; u_errp : K; u_facmax : K; u_eig : K; u_told : K; u_hlast : K;
  u_reject : bool; u_nrho : Z; u_nrejloc : Z; u_mdego : Z; u_mp1 : Z; u_mp2 : Z;
  u_nsteps : Z; u_nacc : Z; u_nrej : Z; u_stages : Z; u_w : W; u_hist : list (att K) }.

(* the body of while(t<tend), lines 206-290 *)
Definition d_body (st : dst) : out dst :=
  let t := u_t st in
  let h := if (mABS_diff tend t <=? nlit 101 (-2) * u_h st)%num then mABS_diff tend t else u_h st in
  if (h <? nlit 10 0 * r4_uround)%num then Throw "Rock4: step too small" else
  let '(w, eig) := if u_nrho st =? 0 then rho (u_w st) else (u_w st, u_eig st) in
  mdeg <- toint (nsqrt ((nlit 3 0 + h * eig) / nlit 353 (-3)) + nlit 1 0)%num ;;
  let '(h, mdeg) := if 152 <? mdeg
    then ((nlit 8 (-1) * (nlit 152 0 * nlit 152 0 * nlit 353 (-3) - nlit 3 0) / eig)%num, 152) else (h, mdeg) in
  let mdeg := Z.max mdeg 5 - 4 in
  let req := mdeg in
  '(mdeg, mp1, mp2, stages) <- (if mdeg =? u_mdego st then Ok (mdeg, u_mp1 st, u_mp2 st, u_stages st) else
      '(mdeg, mp1, mp2) <- mdegre mdeg (u_mp1 st) ;;
      Ok (mdeg, mp1, mp2, if u_stages st <? mdeg + 4 then mdeg + 4 else u_stages st)) ;;
  '(w, err) <- kern mdeg mp1 mp2 w h ;;
  let nsteps := u_nsteps st + 1 in
  let fac := nsqrt (nsqrt (nlit 1 0 / err))%num in
  let fac := if (nlit 0 0 <? u_errp st)%num && negb (u_reject st) then
      smin fac (nsqrt (nsqrt (u_errp st)) * fac * fac * (h / u_hp st))%num else fac in
  let facmax := if u_reject st then nlit 1 0 else u_facmax st in
  let fac := smin facmax (smax (nlit 1 (-1)) (nlit 8 (-1) * fac)%num) in
  let hnew := (h * fac)%num in
  let a := fun b => mkAtt t h eig (u_nrho st =? 0) req mdeg mp1 mp2 b in
  if (err <? nlit 1 0)%num then
    let t := (t + h)%num in
    let hnew := if u_reject st then
        let hnew := smin hnew h in if (tend <? t)%num then smax hnew h else hnew
      else hnew in
    let nrejloc := if u_reject st then 0 else u_nrejloc st in
    let hp := h in
    let hh := if (mABS_diff tend t <=? nlit 11 (-1) * hnew)%num then mABS_diff tend t else hnew in
    Ok (mkD t hh hp err (nlit 2 0) eig (u_told st) h false ((u_nrho st + 2) mod 10) nrejloc mdeg mp1 mp2
          nsteps (u_nacc st + 1) (u_nrej st) stages (accept w) (a true :: u_hist st))
  else
    let hh := (nlit 8 (-1) * hnew)%num in
    let hh := if nsteps =? 0 then (hh / nlit 10 0)%num else hh in
    let same := (u_told st =? t)%num in
    let nrejloc := if same then u_nrejloc st + 1 else u_nrejloc st in
    let hh := if same && (nrejloc =? 10) then nlit 1 (-5) else hh in
    Ok (mkD t hh (u_hp st) (u_errp st) facmax eig t (u_hlast st) true (if u_nrho st =? 0 then 1 else 0) nrejloc mdeg mp1 mp2
          nsteps (u_nacc st) (u_nrej st + 1) stages w (a false :: u_hist st)).
Fixpoint d_loop (fuel : nat) (st : dst) : out dst :=
  if (u_t st <? tend)%num then
    match fuel with O => Diverge | S f => st <- d_body st ;; d_loop f st end
  else Ok st.
(* operator(), lines 190-291; hlast0, mp1_0, mp2_0: what the members hold before the call *)
Definition r4_start (w : W) (t0 h0 hlast0 : K) (mp1_0 mp2_0 : Z) : dst :=
  (mkD t0 h0 h0 (- nlit 1 0)%num (nlit 5 0) (nlit 0 0) (nlit 0 0) hlast0 false 0 0 0 mp1_0 mp2_0 0 0 0 0 (init w) nil).
Definition rock4 (fuel : nat) (w : W) (t0 h0 hlast0 : K) (mp1_0 mp2_0 : Z) : out dst :=
  d_loop fuel (r4_start w t0 h0 hlast0 mp1_0 mp2_0).
End Driver.
Arguments dst {K}.
Arguments d_body {K W}.
Arguments d_loop {K W}.
Arguments r4_start {K W}.
Arguments rock4 {K W}.
Arguments mkD {K W}.
Arguments u_t {K W}.
Arguments u_h {K W}.
Arguments u_hp {K W}.
Arguments u_errp {K W}.
Arguments u_facmax {K W}.
Arguments u_eig {K W}.
Arguments u_told {K W}.
Arguments u_hlast {K W}.
Arguments u_reject {K W}.
Arguments u_nrho {K W}.
Arguments u_nrejloc {K W}.
Arguments u_mdego {K W}.
Arguments u_mp1 {K W}.
Arguments u_mp2 {K W}.
Arguments u_nsteps {K W}.
Arguments u_nacc {K W}.
Arguments u_nrej {K W}.
Arguments u_stages {K W}.
Arguments u_w {K W}.
Arguments u_hist {K W}.

(* the operations given to the driver when it runs the real kernel: rho() of the user's object
   (line 215) may change the state of that object *)
Section Inst.
Context {K : num}.
Variable Sg : Type.
Variable userrho : Sg -> Sg * (car K).
Definition r4_rho (e : est (K := K) Sg) : est (K := K) Sg * K :=
  let '(f, r) := userrho (e_f e) in
  (mkEst (e_H e) f (e_fn e) (e_k1 e) (e_k2 e) (e_k3 e) (e_k4 e) (e_temp e) (e_g0 e) (e_y e) (e_funccal e), r).
(* the arrays freed by the destructor, Rock4.hpp:152-158 *)
Definition freed (e : est (K := K) Sg) : list Z := [e_k1 e; e_k2 e; e_k3 e; e_k4 e; e_g0 e; e_fn e; e_temp e].
End Inst.
Arguments r4_rho {K Sg}.
Arguments freed {K Sg}.

(* ---- part 4 ------------------------------------------------------------------------------ *)
(* #pragma omp parallel for, ToolOMP.hpp: the iterations are distributed among threads.  An
   iteration first evaluates its right-hand side (event Load i), then stores the result
   (event Store i); a schedule is a list of such events. *)
Inductive ev := Load (i : Z) | Store (i : Z).
Section Omp.
Context {K : num}.
(* elementwise loops: iteration i stores e H i into dst[i].  The state holds the arrays and the
   values computed by the iterations and not yet stored. *)
Definition elt_step (e : (Z -> vec K) -> Z -> K) (dst : Z) (st : (Z -> vec K) * (Z -> K)) (x : ev) : (Z -> vec K) * (Z -> K) :=
  let '(H, reg) := st in
  match x with
  | Load i => (H, upd reg i (e H i))
  | Store i => (hset H dst (upd (H dst) i (reg i)), reg)
  end.
Definition elt_run (e : (Z -> vec K) -> Z -> K) (dst : Z) (l : list ev) (H : Z -> vec K) : Z -> vec K :=
  fst (fold_left (elt_step e dst) l (H, fun _ => nlit 0 0)).
(* the bodies of the loops, lines 56, 72, 83, 95, 107, 120, 134; arrays are designated by ids *)
Definition b_apply (t1 t2 t3 : K) (g0 g1 vtemp : Z) (H : Z -> vec K) (i : Z) : K := (t1 * H vtemp i + t2 * H g1 i + t3 * H g0 i)%num.
Definition b_apply2 (t1 t2 t3 : K) (g2 g1 g0 : Z) (H : Z -> vec K) (i : Z) : K := (t1 * H g2 i + t2 * H g1 i + t3 * H g0 i)%num.
Definition b_cl1 (y : Z) (a1 : K) (x1 : Z) (H : Z -> vec K) (i : Z) : K := (H y i + a1 * H x1 i)%num.
Definition b_cl2 (y : Z) (a1 : K) (x1 : Z) (a2 : K) (x2 : Z) (H : Z -> vec K) (i : Z) : K := (H y i + a1 * H x1 i + a2 * H x2 i)%num.
Definition b_cl3 (y : Z) (a1 : K) (x1 : Z) (a2 : K) (x2 : Z) (a3 : K) (x3 : Z) (H : Z -> vec K) (i : Z) : K :=
  (H y i + a1 * H x1 i + a2 * H x2 i + a3 * H x3 i)%num.
Definition b_ct (y : Z) (a1 : K) (x1 : Z) (a2 : K) (x2 : Z) (a3 : K) (x3 : Z) (a4 : K) (x4 : Z) (H : Z -> vec K) (i : Z) : K :=
  (H y i + a1 * H x1 i + a2 * H x2 i + a3 * H x3 i + a4 * H x4 i)%num.
(* rpp2, lines 141-155: ret is shared and not declared in a reduction clause, so ret+=v loads
   ret and later stores the sum.  v i is the value s*s*d*d of iteration i, which does not depend
   on the schedule. *)
Definition race_step (v : Z -> K) (st : K * (Z -> K)) (x : ev) : K * (Z -> K) :=
  let '(ret, reg) := st in
  match x with
  | Load i => (ret, upd reg i (ret + v i)%num)
  | Store i => (reg i, reg)
  end.
Definition race_run (v : Z -> K) (l : list ev) : K := fst (fold_left (race_step v) l (nlit 0 0, fun _ => nlit 0 0)).
(* the sequential schedule of for(int i=0;i<size;i++) *)
Definition seq_sched (size : Z) : list ev := flat_map (fun i => [Load i; Store i]) (zrange 0 (size - 1)).
End Omp.
