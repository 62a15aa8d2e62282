(* Transcription of the life of the arrays of common/include: AllocateDestroyVector.hpp, the
   constructors and destructors of fortranArray.hpp, fortranComplexArray.hpp,
   fortranRectangularArray.hpp, fortranRectangularComplexArray.hpp, and the work array of the
   Hessenberg variant of Matrices.hpp.  A block of memory remembers which function made it;
   releasing it with the other one is UB, like releasing it twice.  The elements are integers:
   only the number that dgehrd_ returns in work[0] is looked at. *)
From Verif Require Import Base.
Open Scope Z_scope.
Set Implicit Arguments.

Inductive kind := NewArray | MmMalloc.
Definition keqb (a b : kind) : bool := match a, b with NewArray, NewArray => true | MmMalloc, MmMalloc => true | _, _ => false end.
Record kblk := KBlk { klive : bool; kkind : kind; klen : Z; kdat : Z -> Z }.
Record kmem := KMem { knext : Z; kcells : Z -> option kblk }.
Definition kset (m : kmem) (p : Z) (b : kblk) : kmem := KMem (knext m) (fun q => if q =? p then Some b else kcells m q).
Definition kld (m : kmem) (p i : Z) : out Z :=
  match kcells m p with
  | Some b => if klive b then rd 0 (klen b - 1) (kdat b) i else UB "read after free"
  | None => UB "read through a wild pointer" end.
Definition kst (m : kmem) (p i v : Z) : out kmem :=
  match kcells m p with
  | Some b => if klive b then d <- wr 0 (klen b - 1) (kdat b) i v ;; Ok (kset m p (KBlk true (kkind b) (klen b) d)) else UB "write after free"
  | None => UB "write through a wild pointer" end.
(* new double[size] / _mm_malloc; junk: what fresh memory contains *)
Definition kalloc (k : kind) (junk : Z -> Z) (m : kmem) (size : Z) : kmem * Z :=
  (KMem (knext m + 1) (fun q => if q =? knext m then Some (KBlk true k size junk) else kcells m q), knext m).
(* delete[] / _mm_free *)
Definition kfree (k : kind) (m : kmem) (p : Z) : out kmem :=
  match kcells m p with
  | Some b => if negb (klive b) then UB "double free" else if keqb (kkind b) k then Ok (kset m p (KBlk false (kkind b) (klen b) (kdat b))) else UB "released with the wrong function"
  | None => UB "free of a wild pointer" end.

Section Build.
(* ALIGN_BLOCKED is defined *)
Variable aligned : bool.
Definition built : kind := if aligned then MmMalloc else NewArray.
(* AllocateDestroyVector.hpp:15-17 and 21-22 *)
Definition allocDoubleArray (junk : Z -> Z) (m : kmem) (size : Z) : kmem * Z := kalloc built junk m size.
Definition destroyDoubleArray (m : kmem) (p : Z) : out kmem := kfree built m p.

(* the four matrix classes have one data member, double *x.
   fortranArray.hpp:22-25 (size n*n), fortranComplexArray.hpp:27-33 (2*n*n),
   fortranRectangularArray.hpp:34-40 ((2*kl+ku+1)*n), fortranRectangularComplexArray.hpp:35-41 (2*(2*kl+ku+1)*n) *)
Definition full_size (n : Z) : Z := n * n.
Definition complex_size (n : Z) : Z := 2 * n * n.
Definition band_size (n kl ku : Z) : Z := (2 * kl + ku + 1) * n.
Definition complex_band_size (n kl ku : Z) : Z := 2 * (2 * kl + ku + 1) * n.
Definition arr_new (junk : Z -> Z) (m : kmem) (size : Z) : kmem * Z := allocDoubleArray junk m size.
(* fortranArray.hpp:35-38, fortranComplexArray.hpp:35-41, fortranRectangularArray.hpp:42-48,
   fortranRectangularComplexArray.hpp:43-49 *)
Definition arr_dtor (m : kmem) (x : Z) : out kmem := destroyDoubleArray m x.
(* fortranArray.hpp:27-33, the copy constructor: x is not initialised, x0 is what it contains *)
Definition full_copy (n x0 : Z) (m : kmem) (AAx : Z) : out (kmem * Z) :=
  m <- forM 0 (n * n - 1) (fun i m => a <- kld m AAx i ;; kst m x0 i a) m ;; Ok (m, x0).
(* the other three declare no copy constructor: the implicit one copies the pointer *)
Definition implicit_copy (m : kmem) (AAx : Z) : out (kmem * Z) := Ok (m, AAx).

(* { fortranArray<n> A; fortranArray<n> B(A); }  -- B is destroyed first *)
Definition full_copy_block (n x0 : Z) (junk : Z -> Z) (m : kmem) : out kmem :=
  let '(m, a) := arr_new junk m (full_size n) in
  r <- full_copy n x0 m a ;; m <- arr_dtor (fst r) (snd r) ;; arr_dtor m a.
(* the same with one of the other classes, of the given size *)
Definition implicit_copy_block (size : Z) (junk : Z -> Z) (m : kmem) : out kmem :=
  let '(m, a) := arr_new junk m size in
  r <- implicit_copy m a ;; m <- arr_dtor (fst r) (snd r) ;; arr_dtor m a.
(* { several matrices } without copies, destroyed in reverse order *)
Fixpoint block (sizes : list Z) (junk : Z -> Z) (m : kmem) (body : kmem -> out kmem) : out kmem :=
  match sizes with
  | nil => body m
  | s :: l => let '(m, a) := arr_new junk m s in m <- block l junk m body ;; arr_dtor m a end.

(* Matrices<true,true,n,...>, Matrices.hpp:219: double *work; int lwork *)
Record hmat := HM { hwork : Z; hlwork : Z }.
(* Matrices.hpp:229-234 *)
Definition hm_new (n : Z) (junk : Z -> Z) (m : kmem) : kmem * hmat :=
  let '(m, p) := allocDoubleArray junk m n in (m, HM p n).
(* Matrices.hpp:235-239 *)
Definition hm_dtor (m : kmem) (h : hmat) : out kmem := destroyDoubleArray m (hwork h).
(* dgehrd_ asked for the size (lwork=-1): WORK(1) = opt; otherwise it may write WORK(1..lwork), g: what it writes *)
Definition dgehrd_query (opt : Z) (m : kmem) (work : Z) : out kmem := kst m work 0 opt.
Definition dgehrd_call (g : Z -> Z) (m : kmem) (work lwork : Z) : out kmem := forM 0 (lwork - 1) (fun i m => kst m work i (g i)) m.
(* Matrices.hpp:242-257, decomr with calhes=true; the matrix arithmetic is in HessPathModel.v *)
Definition hm_decomr (opt : Z) (g junk : Z -> Z) (m : kmem) (h : hmat) : out (kmem * hmat) :=
  m <- dgehrd_query opt m (hwork h) ;;
  k <- kld m (hwork h) 0 ;;
  r <- (if hlwork h <? k then
          (* `if(work!=0)': block numbers stand for non-null pointers *)
          m <- kfree NewArray m (hwork h) ;;
          let '(m, p) := kalloc NewArray junk m k in Ok (m, HM p k)
        else Ok (m, h)) ;;
  m <- dgehrd_call g (fst r) (hwork (snd r)) k ;; Ok (m, snd r).
Fixpoint hm_calls (opts : list Z) (g junk : Z -> Z) (m : kmem) (h : hmat) : out (kmem * hmat) :=
  match opts with
  | nil => Ok (m, h)
  | o :: l => r <- hm_decomr o g junk m h ;; hm_calls l g junk (fst r) (snd r) end.
(* { Matrices M; M.decomr(..); ...; M.decomr(..); } *)
Definition hm_block (n : Z) (opts : list Z) (g junk : Z -> Z) (m : kmem) : out kmem :=
  let '(m, h) := hm_new n junk m in
  r <- hm_calls opts g junk m h ;; hm_dtor (fst r) (snd r).
End Build.
