(* Transcription of Rodas-NG/include/Rodascc.hpp, class Rodascc<Fonct>.
   Part 1: one attempted step (Jacobian, stages, error).  Part 2: the driver
   operator()(h,x,xend,y).
   Arguments of the model: the user's right-hand side F (with an internal state Sg), its
   analytic Jacobian and time derivative, the linear algebra of the base class Matrices
   (modelled separately, LayoutModel.v and HessPathModel.v), the template flags.
   Simplifications: pow(v,2) is v*v; the int counters are unbounded; the members xold and
   hopt, which are only written, are left out; the logger is left out.
   Ghost data (not in the code): the list of abscissae at which F was called, and the list
   of attempted steps. *)
From Verif Require Import Base HessModel VecFun CMacros JacModel.
Open Scope Z_scope.
Set Implicit Arguments.

Section Coef.
Context {K : num}.
Record rcoef := mkRcoef {
  rC2 : K; rC3 : K; rC4 : K; rD1 : K; rD2 : K; rD3 : K; rD4 : K; rA21 : K;
  rA31 : K; rA32 : K; rA41 : K; rA42 : K; rA43 : K; rA51 : K; rA52 : K; rA53 : K;
  rA54 : K; rC21 : K; rC31 : K; rC32 : K; rC41 : K; rC42 : K; rC43 : K; rC51 : K;
  rC52 : K; rC53 : K; rC54 : K; rC61 : K; rC62 : K; rC63 : K; rC64 : K; rC65 : K;
  rGAMMA : K }.
(* rocoe, Rodascc.hpp:71-155; the dense-output coefficients D21..D35 are never used
   by the code and are left out *)
Definition rocoe (meth : Z) : out rcoef :=
  if meth =? 1 then Ok {|
     rC2 := (nlit 386 (-3))%num;
     rC3 := (nlit 21 (-2))%num;
     rC4 := (nlit 63 (-2))%num;
     rD1 := (nlit 2500000000000000 (-16))%num;
     rD2 := (- (nlit 1043000000000000 (-16)))%num;
     rD3 := (nlit 1035000000000000 (-16))%num;
     rD4 := (- (nlit 3620000000000023 (-17)))%num;
     rA21 := (nlit 1544000000000000 (-15))%num;
     rA31 := (nlit 9466785280815826 (-16))%num;
     rA32 := (nlit 2557011698983284 (-16))%num;
     rA41 := (nlit 3314825187068521 (-15))%num;
     rA42 := (nlit 2896124015972201 (-15))%num;
     rA43 := (nlit 9986419139977817 (-16))%num;
     rA51 := (nlit 1221224509226641 (-15))%num;
     rA52 := (nlit 6019134481288629 (-15))%num;
     rA53 := (nlit 1253708332932087 (-14))%num;
     rA54 := (- (nlit 6878860361058950 (-16)))%num;
     rC21 := (- (nlit 5668800000000000 (-15)))%num;
     rC31 := (- (nlit 2430093356833875 (-15)))%num;
     rC32 := (- (nlit 2063599157091915 (-16)))%num;
     rC41 := (- (nlit 1073529058151375 (-16)))%num;
     rC42 := (- (nlit 9594562251023355 (-15)))%num;
     rC43 := (- (nlit 2047028614809616 (-14)))%num;
     rC51 := (nlit 7496443313967647 (-15))%num;
     rC52 := (- (nlit 1024680431464352 (-14)))%num;
     rC53 := (- (nlit 3399990352819905 (-14)))%num;
     rC54 := (nlit 1170890893206160 (-14))%num;
     rC61 := (nlit 8083246795921522 (-15))%num;
     rC62 := (- (nlit 7981132988064893 (-15)))%num;
     rC63 := (- (nlit 3152159432874371 (-14)))%num;
     rC64 := (nlit 1631930543123136 (-14))%num;
     rC65 := (- (nlit 6058818238834054 (-15)))%num;
     rGAMMA := (nlit 2500000000000000 (-16))%num |} else
  if meth =? 2 then Ok {|
     rC2 := (nlit 3507221 (-7))%num;
     rC3 := (nlit 2557041 (-7))%num;
     rC4 := (nlit 6817790 (-7))%num;
     rD1 := (nlit 2500000000000000 (-16))%num;
     rD2 := (- (nlit 6902209999999998 (-17)))%num;
     rD3 := (- (nlit 9671999999999459 (-19)))%num;
     rD4 := (- (nlit 8797900000000025 (-17)))%num;
     rA21 := (nlit 1402888400000000 (-15))%num;
     rA31 := (nlit 6581212688557198 (-16))%num;
     rA32 := (- (nlit 1320936088384301 (-15)))%num;
     rA41 := (nlit 7131197445744498 (-15))%num;
     rA42 := (nlit 1602964143958207 (-14))%num;
     rA43 := (- (nlit 5561572550509766 (-15)))%num;
     rA51 := (nlit 2273885722420363 (-14))%num;
     rA52 := (nlit 6738147284535289 (-14))%num;
     rA53 := (- (nlit 3121877493038560 (-14)))%num;
     rA54 := (nlit 7285641833203814 (-16))%num;
     rC21 := (- (nlit 5104353600000000 (-15)))%num;
     rC31 := (- (nlit 2899967805418783 (-15)))%num;
     rC32 := (nlit 4040399359702244 (-15))%num;
     rC41 := (- (nlit 3264449927841361 (-14)))%num;
     rC42 := (- (nlit 9935311008728094 (-14)))%num;
     rC43 := (nlit 4999119122405989 (-14))%num;
     rC51 := (- (nlit 7646023087151691 (-14)))%num;
     rC52 := (- (nlit 2785942120829058 (-13)))%num;
     rC53 := (nlit 1539294840910643 (-13))%num;
     rC54 := (nlit 1097101866258358 (-14))%num;
     rC61 := (- (nlit 7629701586804983 (-14)))%num;
     rC62 := (- (nlit 2942795630511232 (-13)))%num;
     rC63 := (nlit 1620029695867566 (-13))%num;
     rC64 := (nlit 2365166903095270 (-14))%num;
     rC65 := (- (nlit 7652977706771382 (-15)))%num;
     rGAMMA := (nlit 2500000000000000 (-16))%num |} else
  if meth =? 3 then Ok {|
     rC2 := ((nlit 30 (-1) * nlit 25 (-2)))%num;
     rC3 := (nlit 21 (-2))%num;
     rC4 := (nlit 63 (-2))%num;
     rD1 := (nlit 2500000000000000 (-16))%num;
     rD2 := (- (nlit 5000000000000000 (-16)))%num;
     rD3 := (- (nlit 2350400000000000 (-17)))%num;
     rD4 := (- (nlit 3620000000000000 (-17)))%num;
     rA21 := (nlit 3000000000000000 (-15))%num;
     rA31 := (nlit 1831036793486759 (-15))%num;
     rA32 := (nlit 4955183967433795 (-16))%num;
     rA41 := (nlit 2304376582692669 (-15))%num;
     rA42 := (- (nlit 5249275245743001 (-17)))%num;
     rA43 := (- (nlit 1176798761832782 (-15)))%num;
     rA51 := (- (nlit 7170454962423024 (-15)))%num;
     rA52 := (- (nlit 4741636671481785 (-15)))%num;
     rA53 := (- (nlit 1631002631330971 (-14)))%num;
     rA54 := (- (nlit 1062004044111401 (-15)))%num;
     rC21 := (- (nlit 1200000000000000 (-14)))%num;
     rC31 := (- (nlit 8791795173947035 (-15)))%num;
     rC32 := (- (nlit 2207865586973518 (-15)))%num;
     rC41 := (nlit 1081793056857153 (-14))%num;
     rC42 := (nlit 6780270611428266 (-15))%num;
     rC43 := (nlit 1953485944642410 (-14))%num;
     rC51 := (nlit 3419095006749676 (-14))%num;
     rC52 := (nlit 1549671153725963 (-14))%num;
     rC53 := (nlit 5474760875964130 (-14))%num;
     rC54 := (nlit 1416005392148534 (-14))%num;
     rC61 := (nlit 3462605830930532 (-14))%num;
     rC62 := (nlit 1530084976114473 (-14))%num;
     rC63 := (nlit 5699955578662667 (-14))%num;
     rC64 := (nlit 1840807009793095 (-14))%num;
     rC65 := (- (nlit 5714285714285717 (-15)))%num;
     rGAMMA := (nlit 25 (-2))%num |} else
  Throw "Rodascc, meth=".
End Coef.
Arguments rcoef : clear implicits.

(* ---- part 1: one attempted step -------------------------------------------- *)
Section Step.
Context {K : num}.
Variables Sg La : Type.
Variable userF : Sg -> K -> vec K -> Sg * vec K.
(* F.Jacobian(x,Y,DY1,Jac) and F.DF_t(x,Y,FX) *)
Variable userJ : Sg -> K -> vec K -> vec K -> vec K -> Sg * vec K.
Variable userDt : Sg -> K -> vec K -> Sg * vec K.
(* Matrices::decomr (may throw, may overwrite Jac), solvereal, calhes=true *)
Variable decomr : La -> K -> vec K -> out (La * vec K).
Variable solvereal : La -> vec K -> vec K -> out (vec K).
Variable set_calhes : La -> La.
Variable n : Z.
Variable sh : shape.
(* template flags, lines 36-40 *)
Variables numjac autonms use_DF_t : bool.
Variable uround : K.
Variable C : rcoef K.
Variables atol rtol : vec K.

(* the user's object together with the ghost list of call abscissae *)
Definition fst_ := (Sg * list K)%type.
Definition callF (s : fst_) (t : K) (y : vec K) : fst_ * vec K :=
  let '(s', r) := userF (fst s) t y in ((s', t :: snd s), r).
Record world := mkW { w_f : fst_; w_la : La; w_jac : vec K }.

(* DF_X, lines 180-191; result FX *)
Definition DF_X (s : fst_) (x : K) (Y DY1 : vec K) : fst_ * vec K :=
  if use_DF_t then let '(s', r) := userDt (fst s) x Y in ((s', snd s), r)
  else
    let delt := nsqrt (uround * mMAX (nlit 1 (-5)) (mABS x))%num in
    let '(s, AK1) := callF s (x + delt)%num Y in
    let delt1 := (nlit 1 0 / delt)%num in
    (s, v_lc2 delt1 AK1 (- delt1)%num DY1).

(* lines 351-363: F, Jacobian and time derivative at the current point; gives DY1 and FX
   (FX is not set in the autonomous case: an arbitrary vector) *)
Definition r_prep (junk : vec K) (w : world) (x : K) (Y : vec K) : out (world * (vec K * vec K)) :=
  let '(s, DY1) := callF (w_f w) x Y in
  '(s, Jac) <-
    (if numjac then
       '(s, Y', Jac) <- jacobian callF n sh uround s x Y DY1 (w_jac w) ;; Ok (s, Jac)
     else let '(u, Jac) := userJ (fst s) x Y DY1 (w_jac w) in Ok ((u, snd s), Jac)) ;;
  let la := set_calhes (w_la w) in
  let '(s, FX) := if autonms then (s, junk) else DF_X s x Y DY1 in
  Ok (mkW s la Jac, (DY1, FX)).

(* slvrod, lines 193-204; result A *)
Definition slvrod (la : La) (Jac : vec K) (hd : K) (DY FX Y : vec K) (addYnew : bool) : out (vec K) :=
  let A := if autonms then DY else v_axpy hd FX DY in
  let A := if addYnew then v_add A Y else A in
  solvereal la A Jac.

(* the error norm, lines 424-430 *)
Definition r_err (Y YNEW AK6 : vec K) : K :=
  let err := for_ 1 n (fun i err =>
     let q := (atol i + rtol i * mMAX (mABS (Y i)) (mABS (YNEW i)))%num in
     let v := (AK6 i / q)%num in (err + v * v)%num) (nlit 0 0) in
  nsqrt (err / nlit n 0)%num.

(* lines 365-430: decomposition, six stages, error *)
Definition r_attempt (w : world) (aux : vec K * vec K) (x h : K) (Y : vec K) : out (world * vec K * K) :=
  let '(DY1, FX) := aux in
  let fac := (nlit 1 0 / (h * rGAMMA C))%num in
  '(la, Jac) <- decomr (w_la w) fac (w_jac w) ;;
  let s := w_f w in
  let HC c := (c / h)%num in
  let HD d := (if autonms then nlit 0 0 else h * d)%num in
  AK1 <- slvrod la Jac (HD (rD1 C)) DY1 FX (fun _ => n0) false ;;
  let YNEW := v_axpy (rA21 C) AK1 Y in
  let '(s, DY) := callF s (x + rC2 C * h)%num YNEW in
  let YNEW := v_scale (HC (rC21 C)) AK1 in
  AK2 <- slvrod la Jac (HD (rD2 C)) DY FX YNEW true ;;
  let YNEW := v_x_lc2 Y (rA31 C) AK1 (rA32 C) AK2 in
  let '(s, DY) := callF s (x + rC3 C * h)%num YNEW in
  let YNEW := v_lc2 (HC (rC31 C)) AK1 (HC (rC32 C)) AK2 in
  AK3 <- slvrod la Jac (HD (rD3 C)) DY FX YNEW true ;;
  let YNEW := v_x_lc3 Y (rA41 C) AK1 (rA42 C) AK2 (rA43 C) AK3 in
  let '(s, DY) := callF s (x + rC4 C * h)%num YNEW in
  let YNEW := v_lc3 (HC (rC41 C)) AK1 (HC (rC42 C)) AK2 (HC (rC43 C)) AK3 in
  AK4 <- slvrod la Jac (HD (rD4 C)) DY FX YNEW true ;;
  let YNEW := v_x_lc4 Y (rA51 C) AK1 (rA52 C) AK2 (rA53 C) AK3 (rA54 C) AK4 in
  let '(s, DY) := callF s (x + h)%num YNEW in
  let AK6 := v_lc4 (HC (rC52 C)) AK2 (HC (rC54 C)) AK4 (HC (rC51 C)) AK1 (HC (rC53 C)) AK3 in
  AK5 <- slvrod la Jac (nlit 0 0) DY FX AK6 true ;;
  let YNEW := v_add YNEW AK5 in
  let '(s, DY) := callF s (x + h)%num YNEW in
  let CONT := v_lc5 (HC (rC61 C)) AK1 (HC (rC62 C)) AK2 (HC (rC65 C)) AK5 (HC (rC64 C)) AK4 (HC (rC63 C)) AK3 in
  AK6 <- slvrod la Jac (nlit 0 0) DY FX CONT true ;;
  let YNEW := v_add YNEW AK6 in
  Ok (mkW s la Jac, YNEW, r_err Y YNEW AK6).
End Step.

(* ---- part 2: the driver ----------------------------------------------------- *)
Section Driver.
Context {K : num}.
(* W: everything the step computation carries; Ax: what r_prep hands to r_attempt *)
Variables W Ax : Type.
Variable prep : W -> K -> vec K -> out (W * Ax).
Variable attempt : W -> Ax -> K -> K -> vec K -> out (W * vec K * K).
(* members set by the constructor (lines 259-271) and by the setters (lines 285-295) *)
Record ropts := mkRopts { o_safe : K; o_nmax : Z; o_gust : bool; o_onestep : bool }.
Variable o : ropts.
Definition r_uround : K := nlit 1 (-16).
Definition r_fac1 : K := nlit 5 0.
Definition r_fac2 : K := (nlit 1 0 / nlit 6 0)%num.

(* ghost: one attempted step *)
Record att := mkAtt { a_x : K; a_h : K; a_acc : bool }.
Record rst := mkRst {
  s_x : K; s_h : K; s_Y : vec K; s_w : W;
  s_last : bool; s_reject : bool;
  s_naccpt : Z; s_nrejct : Z; s_njac : Z; s_nstep : Z; s_ndec : Z; s_nsol : Z; s_nfcn : Z;
  s_hacc : K; s_erracc : K; s_first : K;
  s_hist : list att }.

Section Call.
Variables xend posneg hmaxn : K.

(* lines 431-470: step-size control after an attempt with error estimate err *)
Definition r_hnew (h err : K) : K :=
  (h / mMAX r_fac2 (mMIN r_fac1 (nsqrt (nsqrt err) / o_safe o)))%num.
Definition r_hgus (h err hacc erracc : K) : K :=
  let fac := mMAX r_fac2 (mMIN r_fac1 (nsqrt (nsqrt err) / o_safe o))%num in
  let facgus := ((hacc / h) * nsqrt (nsqrt (err * err / erracc)) / o_safe o)%num in
  let facgus := mMAX r_fac2 (mMIN r_fac1 facgus) in
  (h / mMAX fac facgus)%num.
Definition r_control (st : rst) (w : W) (YNEW : vec K) (err : K) : rst :=
  let h := s_h st in
  let hnew := r_hnew h err in
  let hist := mkAtt (s_x st) h (err <=? nlit 1 0)%num :: s_hist st in
  if (err <=? nlit 1 0)%num then
    let first := if s_naccpt st =? 0 then h else s_first st in
    let naccpt := s_naccpt st + 1 in
    let hnew := if o_gust o && (1 <? naccpt) then r_hgus h err (s_hacc st) (s_erracc st) else hnew in
    let hacc := if o_gust o then h else s_hacc st in
    let erracc := if o_gust o then mMAX (nlit 1 (-2)) err else s_erracc st in
    let x := (s_x st + h)%num in
    let hnew := if (hmaxn <? mABS hnew)%num then (posneg * hmaxn)%num else hnew in
    let hnew := if s_reject st then (posneg * mMIN (mABS hnew) (mABS h))%num else hnew in
    mkRst x hnew YNEW w (s_last st) false naccpt (s_nrejct st) (s_njac st) (s_nstep st)
          (s_ndec st) (s_nsol st) (s_nfcn st) hacc erracc first hist
  else
    mkRst (s_x st) hnew (s_Y st) w false true (s_naccpt st)
          (if 1 <? s_naccpt st then s_nrejct st + 1 else s_nrejct st)
          (s_njac st) (s_nstep st) (s_ndec st) (s_nsol st) (s_nfcn st)
          (s_hacc st) (s_erracc st) (s_first st) hist.
(* the body of do ... while(reject), lines 364-471 *)
Definition r_body (aux : Ax) (st : rst) : out rst :=
  '(w, YNEW, err) <- attempt (s_w st) aux (s_x st) (s_h st) (s_Y st) ;;
  let st := mkRst (s_x st) (s_h st) (s_Y st) (s_w st) (s_last st) (s_reject st) (s_naccpt st)
                  (s_nrejct st) (s_njac st) (s_nstep st + 1) (s_ndec st + 1) (s_nsol st + 6)
                  (s_nfcn st + 5) (s_hacc st) (s_erracc st) (s_first st) (s_hist st) in
  Ok (r_control st w YNEW err).
Fixpoint r_inner (fuel : nat) (aux : Ax) (st : rst) : out rst :=
  match fuel with
  | O => Diverge
  | S f => st <- r_body aux st ;; if s_reject st then r_inner f aux st else Ok st
  end.
(* top of the while(!last) loop, lines 336-363 *)
Definition r_head (st : rst) : out (rst * Ax) :=
  let x := s_x st in let h := s_h st in
  if (nlit 1 (-1) * mABS h <=? mABS x * r_uround)%num then Throw "Rodascc():, h too small" else
  let h := if (mABS h <? nlit 10 0 * r_uround)%num then nlit 1 (-6) else h in
  let h := (mMIN (mABS h) hmaxn * posneg)%num in
  let stop := (n0 <? (x + h * nlit 10001 (-4) - xend) * posneg)%num in
  let h := if stop then (xend - x)%num else h in
  '(w, aux) <- prep (s_w st) x (s_Y st) ;;
  Ok (mkRst x h (s_Y st) w (if stop then true else s_last st) (s_reject st) (s_naccpt st)
            (s_nrejct st) (s_njac st + 1) (s_nstep st) (s_ndec st) (s_nsol st) (s_nfcn st)
            (s_hacc st) (s_erracc st) (s_first st) (s_hist st), aux).
Fixpoint r_outer (fuel : nat) (ifuel : nat) (st : rst) : out rst :=
  if s_last st then Ok st else
  match fuel with
  | O => Diverge
  | S f =>
      '(st, aux) <- r_head st ;;
      st <- r_inner ifuel aux st ;;
      if o_nmax o <? s_nstep st then Throw "Rodas(): nstep too large:" else
      if o_onestep o then Ok st else r_outer f ifuel st
  end.
End Call.

(* operator(), lines 313-476.  hacc0, erracc0, first0: the values left in the members by
   the constructor or earlier calls.  The result gives the final state, in which s_x is
   the caller's x, and the caller's array y: Y.put(y) (line 475) copies Y onto itself
   and leaves y alone, see F_put in VecModel.v and C08_put_never_writes. *)
Definition r_posneg (x xend : K) : K := mSIGN (xend - x)%num.
Definition r_hmaxn (x xend : K) : K := mMIN (mABS (xend - x)%num) (mABS_diff xend x).
Definition r_init (w : W) (h x : K) (y : vec K) (hacc0 erracc0 first0 : K) : rst :=
  mkRst x h y w false false 0 0 0 0 0 0 0 hacc0 erracc0 first0 nil.
Definition rodas (fuel ifuel : nat) (w : W) (h x xend : K) (y : vec K) (hacc0 erracc0 first0 : K) : out (rst * vec K) :=
  st <- r_outer xend (r_posneg x xend) (r_hmaxn x xend) fuel ifuel (r_init w h x y hacc0 erracc0 first0) ;;
  Ok (st, y).
End Driver.
Arguments ropts : clear implicits.
Arguments att : clear implicits.

(* setTestPolicy, lines 220-239: the two member vectors (1..n) from the caller's arrays,
   0-based, of lengths lenA and lenR *)
Definition setTestPolicy {K : num} (n : Z) (same : bool) (lenA lenR : Z) (_atol _rtol atol rtol : vec K)
  : out (vec K * vec K) :=
  if same then
    forM 1 n (fun i st => let '(atol, rtol) := st in
      a <- rd 0 (lenA - 1) _atol 0 ;; atol <- wr 1 n atol i a ;;
      r <- rd 0 (lenR - 1) _rtol 0 ;; rtol <- wr 1 n rtol i r ;; Ok (atol, rtol)) (atol, rtol)
  else
    forM 1 n (fun i st => let '(atol, rtol) := st in
      r <- rd 0 (lenR - 1) _rtol i ;; rtol <- wr 1 n rtol i r ;;
      a <- rd 0 (lenA - 1) _atol i ;; atol <- wr 1 n atol i a ;; Ok (atol, rtol)) (atol, rtol).
