(* The sparse-matrix code of the SDIRKL test: SDIRKL/test/Lapl/PrematOrder.hpp, Premat.hpp, csr.cpp,
   SuperLu.hpp, SuperLu.cpp (the SuperLU library itself is an argument), BuildMatt1d.hpp, Lapl1d.hpp.
   A std::map is the list of its elements in increasing order of the keys.  Not modelled: print,
   nblico, PrematColumnWise (unused), the options given to SuperLU, the life of the arrays. *)
From Verif Require Import Base HessModel.
Open Scope Z_scope.

Section Lapl.
Context {K : num}.

(* PrematOrder.hpp:18-29: the order of the keys (row, column) of a PrematLineWise *)
Definition pos_lt (p q : Z * Z) : bool := (snd p <? snd q) || ((snd p =? snd q) && (fst p <? fst q)).
(* M[make_pair(i,j)] = v *)
Fixpoint map_set (p : Z * Z) (v : K) (M : list ((Z * Z) * K)) : list ((Z * Z) * K) :=
  match M with
  | [] => [(p, v)]
  | (q, w) :: t => if pos_lt p q then (p, v) :: (q, w) :: t
                   else if pos_lt q p then (q, w) :: map_set p v t
                   else (q, v) :: t
  end.
(* Premat.hpp:25-29 *)
Record premat := mkPM { pm_M : list ((Z * Z) * K); pm_lig : Z; pm_col : Z }.
(* Premat.hpp:78-79 *)
Definition pm_new : premat := mkPM [] (-1) (-1).
(* Premat.hpp:42-47, followed by an assignment to the result *)
Definition pm_at (i j : Z) (v : K) (P : premat) : premat :=
  mkPM (map_set (i, j) v (pm_M P)) (Z.max (pm_lig P) i) (Z.max (pm_col P) j).
(* Premat.hpp:81-84: only the map is emptied *)
Definition pm_clear (P : premat) : premat := mkPM [] (pm_lig P) (pm_col P).
(* Premat.hpp:39-41 *)
Definition pm_n (P : premat) : Z := Z.of_nat (Datatypes.length (pm_M P)).
(* PrematOrder.hpp:36-41, Premat.hpp:101-102 *)
Definition pm_first (p : Z * Z) : Z := snd p.
Definition pm_second (p : Z * Z) : Z := fst p.

(* csr.cpp:6-37; ia0, ja0, a0: what new[] left in the arrays *)
Record csr := mkCSR { c_order : Z; c_nzero : Z; c_ia : Z -> Z; c_ja : Z -> Z; c_a : Z -> K }.
Definition csr_line (order nzero : Z) (e : (Z * Z) * K) (s : Z * Z * (Z -> Z) * (Z -> Z) * (Z -> K)) :
  out (Z * Z * (Z -> Z) * (Z -> Z) * (Z -> K)) :=
  let '(pja, curia, ia, ja, a) := s in
  let cc := pm_first (fst e) in
  ia <- (if cc =? curia then Ok ia else forM (curia + 1) cc (fun l ia => wr 0 order ia (l - 1) (pja + 1)) ia) ;;
  ja <- wr 0 (nzero - 1) ja pja (pm_second (fst e)) ;;
  a <- wr 0 (nzero - 1) a pja (snd e) ;;
  Ok (pja + 1, cc, ia, ja, a).
Fixpoint csr_lines (order nzero : Z) (M : list ((Z * Z) * K)) s :=
  match M with
  | [] => Ok s
  | e :: t => s <- csr_line order nzero e s ;; csr_lines order nzero t s
  end.
Definition csr_init (P : premat) (ia0 ja0 : Z -> Z) (a0 : Z -> K) : out csr :=
  let order := pm_lig P in
  let nzero := pm_n P in
  match pm_M P with
  | [] => UB "begin() of an empty map"
  | e :: _ =>
    if negb (pm_first (fst e) =? 1) then Throw "not 1" else
    ia <- wr 0 order ia0 0 1 ;;
    '(pja, curia, ia, ja, a) <- csr_lines order nzero (pm_M P) (0, 1, ia, ja0, a0) ;;
    ia <- wr 0 order ia curia (pja + 1) ;;
    Ok (mkCSR order nzero ia ja a)
  end.

(* SuperLu.cpp:11-33; ri0, cp0, a0: what new[] left in the arrays *)
Record slu := mkSLU { u_n : Z; u_nnz : Z; u_a : Z -> K; u_rowind : Z -> Z; u_colptr : Z -> Z }.
Definition slu_elem (n nnz : Z) (e : (Z * Z) * K) (s : Z * Z * (Z -> K) * (Z -> Z) * (Z -> Z)) :
  out (Z * Z * (Z -> K) * (Z -> Z) * (Z -> Z)) :=
  let '(l, colc, a, ri, cp) := s in
  '(colc, cp) <- (if snd (fst e) - 1 =? colc then Ok (colc, cp)
                  else cp <- wr 0 n cp (colc + 1) l ;; Ok (colc + 1, cp)) ;;
  ri <- wr 0 (nnz - 1) ri l (fst (fst e) - 1) ;;
  a <- wr 0 (nnz - 1) a l (snd e) ;;
  Ok (l + 1, colc, a, ri, cp).
Fixpoint slu_elems (n nnz : Z) (M : list ((Z * Z) * K)) s :=
  match M with
  | [] => Ok s
  | e :: t => s <- slu_elem n nnz e s ;; slu_elems n nnz t s
  end.
Definition slu_arrays (P : premat) (a0 : Z -> K) (ri0 cp0 : Z -> Z) : out slu :=
  let n := pm_lig P in
  let nnz := pm_n P in
  cp <- wr 0 n cp0 n nnz ;;
  '(_, _, a, ri, cp) <- slu_elems n nnz (pm_M P) (0, -1, a0, ri0, cp) ;;
  Ok (mkSLU n nnz a ri cp).
(* SuperLu.cpp:36-94: the factors, or info <> 0 *)
Definition slu_init {Fa : Type} (dgssv : slu -> option Fa) (P : premat) (a0 : Z -> K) (ri0 cp0 : Z -> Z) : out (Z * Fa) :=
  A <- slu_arrays P a0 ri0 cp0 ;;
  match dgssv A with Some f => Ok (u_n A, f) | None => Throw "SuperLu::SuperLu, info = " end.
(* SuperLu.hpp:30-35, SuperLu.cpp:105-113; sizeB: the number of elements of both arrays *)
Definition slu_solve {Fa : Type} (dgstrs : Fa -> vec K -> option (vec K)) (o : Z * Fa) (sizeB : Z) (B sol : vec K) : out (vec K) :=
  B <- forM 0 (fst o - 1) (fun i B => v <- rd 0 (sizeB - 1) sol i ;; wr 0 (sizeB - 1) B i v) B ;;
  match dgstrs (snd o) B with Some x => Ok x | None => Throw "SuperLu::solve, dgtrs: info = " end.

(* BuildMatt1d.hpp:2-22; nn: n as a double *)
Definition build_mat (n : Z) (nn gamma : K) (P : premat) : premat :=
  let P := pm_clear P in
  let h1 := (nlit 1 0 / (nn - nlit 1 0))%num in
  let h2 := (h1 * h1)%num in
  let uh2 := (gamma / h2)%num in
  let duh2 := (nlit 2 0 * uh2)%num in
  let P := for_ 2 (n - 1) (fun i P => pm_at i i (duh2 + nlit 1 0)%num (pm_at i (i - 1) (- uh2)%num (pm_at i (i + 1) (- uh2)%num P))) P in
  let P := pm_at 1 2 (- duh2)%num (pm_at 1 1 (duh2 + nlit 1 0)%num P) in
  pm_at n (n - 1) (- duh2)%num (pm_at n n (duh2 + nlit 1 0)%num P).
(* Lapl1d.hpp:13-19; the result: SuperLU's object and the map, emptied *)
Definition lapl_init {Fa : Type} (dgssv : slu -> option Fa) (n : Z) (nn alpha : K) (P : premat) (a0 : Z -> K) (ri0 cp0 : Z -> Z) : out ((Z * Fa) * premat) :=
  let P := build_mat n nn alpha P in
  S <- slu_init dgssv P a0 ri0 cp0 ;;
  Ok (S, pm_clear P).
(* Lapl1d.hpp:20-23 *)
Definition lapl_apply {Fa : Type} (dgstrs : Fa -> vec K -> option (vec K)) (o : Z * Fa) (sizeB : Z) (RHS X : vec K) : out (vec K) :=
  slu_solve dgstrs o sizeB X RHS.
End Lapl.
Arguments premat : clear implicits.
Arguments csr : clear implicits.
Arguments slu : clear implicits.
