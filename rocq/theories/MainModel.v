(* Model of the loops of three driver programs: SymplecticRK/test/main.cc, Rodas-NG/test/main.cc,
   Radau5-NG/test/main.cc.

   Simplifications: the files and messages written are left out, except for the rows of u that
   SymplecticRK/test/main.cc writes after each step and for the values of h and t that
   Rodas-NG/test/main.cc prints; the time measurement is left out; the object (Symp, Rod, Rad) and
   its methods are arguments. *)
From Verif Require Import Base HessModel.
Open Scope Z_scope.

Section Sym.
Context {K : num}.
Variable Obj : Type.                                            (* the object Symp *)
(* Symp.step(h,u,firstep); firstep is passed by reference, step does not write it *)
Variable step : K -> bool -> Obj -> vec K -> out (bool * Obj * vec K).
(* SymplecticRK/test/main.cc:33: years*365.25*h *)
Definition sy_bound (years h : K) : K := (years * nlit 36525 (-2) * h)%num.
(* SymplecticRK/test/main.cc:33-46: the loop; the rows written, latest first; int is 32 bits *)
Fixpoint sy_loop (fuel : nat) (h bound : K) (it : Z) (firstep : bool) (o : Obj) (u : vec K) (rows : list (vec K))
  : out (Z * Obj * vec K * list (vec K)) :=
  if (nlit it 0 <? bound)%num then
    match fuel with
    | S fl =>
        '(ok, o, u) <- step h firstep o u ;;
        if ok : bool then
          if it =? 2147483647 then UB "it++"
          else sy_loop fl h bound (it + 1) firstep o u (u :: rows)
        else Throw "SymplecticRK::step: non convergence"
    | O => Diverge
    end
  else Ok (it, o, u, rows).
(* main.cc:29-46, for any h and years (29, 30: h=1.0, years=200) *)
Definition sy_main (fuel : nat) (h years : K) (o : Obj) (u : vec K) := sy_loop fuel h (sy_bound years h) 0 true o u nil.
End Sym.

Section Rep.
Context {K : num}.
Variable Obj : Type.                                            (* the object Rod or Rad *)
(* Rod(h,t,xend,y): h, t and y are passed by reference *)
Variable call : Obj -> K -> K -> K -> vec K -> out (Obj * K * K * vec K).
Variable init : vec K.                                        (* what rhs().init(y) writes *)
(* the variables h, t (None: not initialised); ghost: the initial steps given to the calls, latest first *)
Record reps := mkReps { p_obj : Obj; p_h : K; p_t : option K; p_steps : list K }.
(* Rodas-NG/test/main.cc:34-39, Radau5-NG/test/main.cc:39-60: one repetition *)
Definition rep (xend : K) (st : reps) : out reps :=
  '(o, h, t, y) <- call (p_obj st) (p_h st) (nlit 0 0) xend init ;;
  Ok (mkReps o h (Some t) (p_h st :: p_steps st)).
Fixpoint rep_loop (k : nat) (xend : K) (st : reps) : out reps :=
  match k with
  | O => Ok st
  | S k => st <- rep xend st ;; rep_loop k xend st
  end.
Definition rep_main (nloops : Z) (h xend : K) (o : Obj) : out reps := rep_loop (Z.to_nat nloops) xend (mkReps o h None nil).
(* Rodas-NG/test/main.cc:51: cout<<"h= "<<h<<"  t= "<<t *)
Definition rodas_report (st : reps) : out (K * K) :=
  match p_t st with Some t => Ok (p_h st, t) | None => UB "t" end.
End Rep.
