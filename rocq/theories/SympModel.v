(* Model of SymplecticRK/include/SymplecticRK.hpp, Extrap.hpp, Ftest.hpp, GaussianMethod.hpp.

   Simplifications: the arrays are functions from indices to values with checked bounds; the
   right-hand side f is given the n elements of its argument and fills n elements; the number of
   its evaluations is recorded in a ghost counter.  "Double" is K; the conversions of a Double to
   double (SymplecticRK.hpp:130, Extrap.hpp:47, change_h's argument) and the accumulation of
   Ftest<double> in long double are the functions [nar] and [+] of K.  The methods print nothing. *)
From Verif Require Import Base HessModel.
Open Scope Z_scope.

Section Symp.
Context {K : num}.
Variables n s : Z.               (* Fonct::n, nsteps *)
Variable long : bool.            (* Double is long double *)
Variable nar : K -> K.
Variable f : vec K -> vec K.
(* the tables written by icoeffs, extrapcoeffs (SympTables.v) *)
Variables ta tb tq : Z -> K.

(* Ftest.hpp:25, 47: t *)
Definition thr : K := if long then nlit 1 (-310) else nlit 5 (-308).
(* Ftest.hpp:34-36, 55-57: success *)
Definition success (v vold : K) : bool := ((if long then v <? thr else v <=? thr) && (vold <=? v))%num.

(* the members of the object *)
Record obj := mkObj { ov : vec K; oY : vec K; oY1 : vec K; odelta : vec K; oe : vec K; oa : vec K;
  oiter : Z; oldh : K; oga : Z -> K; ogb : Z -> K; oq : Z -> K; otv : K; otvold : K; onev : Z }.

(* GaussianMethod.hpp:32-39, 79-87: change_h, and Extrap.hpp:28-35 *)
Definition scale (sz : Z) (t : Z -> K) (h : K) : out (Z -> K) :=
  forM 0 (sz - 1) (fun i a => x <- rd 0 (sz - 1) a i ;; wr 0 (sz - 1) a i (x * h)%num) t.
(* SymplecticRK.hpp:32-39, GaussianMethod.hpp:24-28, Extrap.hpp:19-23, Ftest.hpp:22-27: constructor;
   the arguments are the contents of the uninitialised members *)
Definition construct (v Y Y1 delta e a : vec K) (it : Z) : out obj :=
  e <- forM 0 (n - 1) (fun i e => wr 0 (n - 1) e i (nlit 0 0)) e ;;
  Ok (mkObj v Y Y1 delta e a it (nlit 1 0) ta tb tq (nlit 0 0) (nlit 1 40) 0).

(* Extrap.hpp:40-54 *)
Definition extrap (q F Y u : vec K) : out (vec K) :=
  forM 0 (s - 1) (fun i Y =>
    Y <- forM 0 (n - 1) (fun l Y => x <- rd 0 (n - 1) u l ;; wr 0 (n * s - 1) Y (s * i + l) x) Y ;;
    forM 0 (s - 1) (fun j Y =>
      b <- rd 0 (s * s - 1) q (s * i + j) ;;
      forM 0 (n - 1) (fun l Y =>
        y <- rd 0 (n * s - 1) Y (s * i + l) ;; x <- rd 0 (n * s - 1) F (s * j + l) ;;
        wr 0 (n * s - 1) Y (s * i + l) (y + nar b * x)%num) Y) Y) Y.
(* SymplecticRK.hpp:67-70 *)
Definition spread (Y u : vec K) : out (vec K) :=
  forM 0 (n - 1) (fun j Y => forM 0 (s - 1) (fun i Y => x <- rd 0 (n - 1) u j ;; wr 0 (n * s - 1) Y (i * n + j) x) Y) Y.

(* the n elements of v *)
Definition seen (v : vec K) : vec K := fun i => if inb 0 (n - 1) i then v i else nlit 0 0.
(* SymplecticRK.hpp:80-88: (v, Y1, evaluations) *)
Definition slopes (Y : vec K) (st : vec K * vec K * Z) : out (vec K * vec K * Z) :=
  forM 0 (s - 1) (fun i st => let '(v, Y1, nev) := st in
    v <- forM 0 (n - 1) (fun j v => x <- rd 0 (n * s - 1) Y (i * n + j) ;; wr 0 (n - 1) v j x) v ;;
    let r := f (seen v) in
    Y1 <- forM 0 (n - 1) (fun j Y1 => wr 0 (n * s - 1) Y1 (i * n + j) (r j)) Y1 ;;
    Ok (v, Y1, nev + 1)) st.
(* SymplecticRK.hpp:92-116: (v, Y, Test.v) *)
Definition heart (ga u Y1 : vec K) (st : vec K * vec K * K) : out (vec K * vec K * K) :=
  forM 0 (s - 1) (fun i st => let '(v, Y, tv) := st in
    v <- forM 0 (n - 1) (fun l v => x <- rd 0 (n - 1) u l ;; wr 0 (n - 1) v l x) v ;;
    v <- forM 0 (n - 1) (fun l v => forM 0 (s - 1) (fun j v =>
           x <- rd 0 (n - 1) v l ;; a <- rd 0 (s * s - 1) ga (i * s + j) ;; y <- rd 0 (n * s - 1) Y1 (j * n + l) ;;
           wr 0 (n - 1) v l (x + a * y)%num) v) v ;;
    tv <- forM 0 (n - 1) (fun l tv => x <- rd 0 (n - 1) v l ;; y <- rd 0 (n * s - 1) Y (i * n + l) ;;
            Ok (tv + (x - y) * (x - y))%num) tv ;;
    Y <- forM 0 (n - 1) (fun l Y => x <- rd 0 (n - 1) v l ;; wr 0 (n * s - 1) Y (i * n + l) x) Y ;;
    Ok (v, Y, tv)) st.
(* SymplecticRK.hpp:78-119: k = itermax - it; (success, iter, v, Y, Y1, Test.v, Test.vold, evaluations) *)
Fixpoint iterate (k : nat) (it : Z) (ga u v Y Y1 : vec K) (tv tvold : K) (nev : Z) : out (bool * Z * vec K * vec K * vec K * K * K * Z) :=
  match k with
  | O => Ok (false, it, v, Y, Y1, tv, tvold, nev)
  | S k =>
      '(v, Y1, nev) <- slopes Y (v, Y1, nev) ;;
      let tvold := tv in
      '(v, Y, tv) <- heart ga u Y1 (v, Y, nlit 0 0) ;;
      if success tv tvold then Ok (true, it, v, Y, Y1, tv, tvold, nev)
      else iterate k (it + 1) ga u v Y Y1 tv tvold nev
  end.
(* SymplecticRK.hpp:125-146 : (delta, a, e, u) *)
Definition finish (gb Y1 delta a e u : vec K) : out (vec K * vec K * vec K * vec K) :=
  delta <- forM 0 (n - 1) (fun i d => wr 0 (n - 1) d i (nlit 0 0)) delta ;;
  delta <- forM 0 (s - 1) (fun i d => b <- rd 0 (s - 1) gb i ;;
     forM 0 (n - 1) (fun j d => x <- rd 0 (n - 1) d j ;; y <- rd 0 (n * s - 1) Y1 (i * n + j) ;; wr 0 (n - 1) d j (x + nar b * y)%num) d) delta ;;
  a <- forM 0 (n - 1) (fun i a => x <- rd 0 (n - 1) u i ;; wr 0 (n - 1) a i x) a ;;
  e <- forM 0 (n - 1) (fun i e => x <- rd 0 (n - 1) e i ;; d <- rd 0 (n - 1) delta i ;; wr 0 (n - 1) e i (x + d)%num) e ;;
  u <- forM 0 (n - 1) (fun i u => x <- rd 0 (n - 1) a i ;; y <- rd 0 (n - 1) e i ;; wr 0 (n - 1) u i (x + y)%num) u ;;
  e <- forM 0 (n - 1) (fun i e => x <- rd 0 (n - 1) e i ;; y <- rd 0 (n - 1) a i ;; z <- rd 0 (n - 1) u i ;; wr 0 (n - 1) e i (x + (y - z))%num) e ;;
  Ok (delta, a, e, u).
(* SymplecticRK.hpp:53-149: step *)
Definition step (itermax : Z) (h : K) (firstStep : bool) (o : obj) (u : vec K) : out (bool * obj * vec K) :=
  let do_extrap := negb firstStep && (oldh o =? h)%num in
  '(oh, ga, gb, q) <- (if negb (oldh o =? h)%num then
      ga <- scale (s * s) ta (nar h) ;; gb <- scale s tb (nar h) ;; q <- scale (s * s) tq (nar h) ;; Ok (h, ga, gb, q)
    else Ok (oldh o, oga o, ogb o, oq o)) ;;
  Y <- (if do_extrap then extrap q (oY1 o) (oY o) u else spread (oY o) u) ;;
  '(ok, it, v, Y, Y1, tv, tvold, nev) <- iterate (Z.to_nat itermax) 0 ga u (ov o) Y (oY1 o) (otv o) (otvold o) (onev o) ;;
  if ok : bool then
    '(delta, a, e, u) <- finish gb Y1 (odelta o) (oa o) (oe o) u ;;
    Ok (true, mkObj v Y Y1 delta e a it oh ga gb q tv tvold nev, u)
  else Ok (false, mkObj v Y Y1 (odelta o) (oe o) (oa o) it oh ga gb q tv tvold nev, u).
End Symp.
