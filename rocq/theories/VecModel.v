(* Transcription of common/include/fortranVector.hpp (both classes) and of
   AllocateDestroyVector.hpp over an explicit heap: blocks of doubles that are allocated,
   live or freed.  Reading, writing or freeing a block that is not live, and reading or
   writing outside it, is UB.  Alignment hints, vectorisation hints (Ivdep.hpp: the
   compiler may assume independent iterations), the DEBUG checks and print are not
   modelled. *)
From Verif Require Import Base HessModel.
Open Scope Z_scope.
Set Implicit Arguments.

Section Vec.
Context {K : num}.

Record blk := Blk { blive : bool; blen : Z; bdat : vec K }.
(* the block table and the next unused block number *)
Record mem := Mem { nxt : Z; cells : Z -> option blk }.
Definition setb (m : mem) (p : Z) (b : blk) : mem :=
  Mem (nxt m) (fun q => if q =? p then Some b else cells m q).

Definition ld (m : mem) (p i : Z) : out K :=
  match cells m p with
  | Some b => if blive b then rd 0 (blen b - 1) (bdat b) i else UB "read after free"
  | None => UB "read through a wild pointer" end.
Definition st (m : mem) (p i : Z) (v : K) : out mem :=
  match cells m p with
  | Some b => if blive b then d <- wr 0 (blen b - 1) (bdat b) i v ;; Ok (setb m p (Blk true (blen b) d))
              else UB "write after free"
  | None => UB "write through a wild pointer" end.
(* AllocateDestroyVector.hpp: allocDoubleArray / destroyDoubleArray.  Fresh memory holds
   arbitrary values [junk]. *)
Definition alloc (junk : vec K) (m : mem) (n : Z) : mem * Z :=
  (Mem (nxt m + 1) (fun q => if q =? nxt m then Some (Blk true n junk) else cells m q), nxt m).
Definition dealloc (m : mem) (p : Z) : out mem :=
  match cells m p with
  | Some b => if blive b then Ok (setb m p (Blk false (blen b) (bdat b))) else UB "double free"
  | None => UB "free of a wild pointer" end.

(* class fortranVector: double *x; int size; bool deletable *)
Record fv := Fv { fx : Z; fsize : Z; fdel : bool }.
(* class fortranVectorF<n>: double *y and the base object *)
Record fvF := FvF { fy : Z; fbase : fv }.

(* ctor (int), lines 39-45 *)
Definition fv_new (junk : vec K) (m : mem) (k : Z) : mem * fv :=
  let '(m, p) := alloc junk m k in (m, Fv p k true).
(* ctor (double* , int), lines 51-55 *)
Definition fv_adopt (p k : Z) : fv := Fv p k false.
(* dtor, lines 57-65 *)
Definition fv_dtor (m : mem) (v : fv) : out mem := if fdel v then dealloc m (fx v) else Ok m.
(* operator(), lines 68-86 *)
Definition fv_get (m : mem) (v : fv) (i : Z) : out K := ld m (fx v) (i - 1).
(* operator=(fortranVector V), lines 92-99.  V is passed by value: the implicit copy
   constructor copies the three members, V's destructor runs at the end of the call. *)
Definition fv_assign (m : mem) (t src : fv) : out mem :=
  let V := Fv (fx src) (fsize src) (fdel src) in
  m <- forM 0 (fsize t - 1) (fun i m => a <- ld m (fx V) i ;; st m (fx t) i a) m ;;
  fv_dtor m V.
(* operator+=, lines 102-108 *)
Definition fv_plus (m : mem) (t F : fv) : out mem :=
  forM 0 (fsize t - 1) (fun i m => a <- ld m (fx t) i ;; b <- ld m (fx F) i ;; st m (fx t) i (a + b)%num) m.

(* fortranVectorF ctor, lines 148-157 *)
Definition F_new (junk : vec K) (m : mem) (n : Z) : mem * fvF :=
  let '(m, p) := alloc junk m n in (m, FvF p (Fv p n false)).
(* dtor, lines 159-167, followed by the base destructor *)
Definition F_dtor (m : mem) (v : fvF) : out mem := m <- dealloc m (fy v) ;; fv_dtor m (fbase v).
(* switchadr, lines 170-176: results are *this and v; size and deletable stay *)
Definition F_switchadr (this v : fvF) : fvF * fvF :=
  let xt := fx (fbase v) in let yt := fy v in
  let v := FvF (fy this) (Fv (fx (fbase this)) (fsize (fbase v)) (fdel (fbase v))) in
  let this := FvF yt (Fv xt (fsize (fbase this)) (fdel (fbase this))) in
  (this, v).
Definition bx (v : fvF) : Z := fx (fbase v).

Variable n : Z.
(* operator=(double), lines 179-184 *)
Definition F_const (m : mem) (t : fvF) (v : K) : out mem :=
  forM 0 (n - 1) (fun i m => st m (bx t) i v) m.
(* operator=(double[]), lines 188-193; tab is a pointer to a block *)
Definition F_array (m : mem) (t : fvF) (tab : Z) : out mem :=
  forM 0 (n - 1) (fun i m => a <- ld m tab i ;; st m (bx t) i a) m.
(* setsum2, lines 198-210; X and Y are base-class references *)
Definition F_setsum2 (m : mem) (t : fvF) (X Y : fv) : out mem :=
  forM 0 (n - 1) (fun i m => a <- ld m (fx X) i ;; b <- ld m (fx Y) i ;; st m (fy t) i (a + b)%num) m.
(* operator=(fortranVectorF&), lines 213-219 *)
Definition F_assign (m : mem) (t X : fvF) : out mem :=
  forM 0 (n - 1) (fun i m => a <- ld m (fy X) i ;; st m (bx t) i a) m.
(* operator+=, lines 222-228 *)
Definition F_plus (m : mem) (t F : fvF) : out mem :=
  forM 0 (n - 1) (fun i m => a <- ld m (fy t) i ;; b <- ld m (fy F) i ;; st m (fy t) i (a + b)%num) m.
(* sum, lines 232-238 and 242-248 *)
Definition F_sum (m : mem) (t X Y : fvF) : out mem :=
  forM 0 (n - 1) (fun i m => a <- ld m (fy X) i ;; b <- ld m (fy Y) i ;; st m (fy t) i (a + b)%num) m.
Definition F_sum_base (m : mem) (t X : fvF) (Y : fv) : out mem :=
  forM 0 (n - 1) (fun i m => a <- ld m (fy X) i ;; b <- ld m (fx Y) i ;; st m (fy t) i (a + b)%num) m.
(* a_Y, lines 252-257 *)
Definition F_a_Y (m : mem) (t : fvF) (a : K) (Y : fvF) : out mem :=
  forM 0 (n - 1) (fun i m => v <- ld m (fy Y) i ;; st m (fy t) i (a * v)%num) m.
(* x_lc2, lines 264-274 *)
Definition F_x_lc2 (m : mem) (t X : fvF) (a1 : K) (Y1 : fvF) (a2 : K) (Y2 : fvF) : out mem :=
  forM 0 (n - 1) (fun i m =>
    x <- ld m (fy X) i ;; u1 <- ld m (fy Y1) i ;; u2 <- ld m (fy Y2) i ;;
    st m (fy t) i (x + a1 * u1 + a2 * u2)%num) m.
(* lc2, lines 280-287 *)
Definition F_lc2 (m : mem) (t : fvF) (a : K) (x1 : fvF) (b : K) (x2 : fvF) : out mem :=
  forM 0 (n - 1) (fun i m =>
    u1 <- ld m (fy x1) i ;; u2 <- ld m (fy x2) i ;; st m (bx t) i (a * u1 + b * u2)%num) m.
(* lc3, lines 295-304 *)
Definition F_lc3 (m : mem) (t : fvF) (a : K) (x1 : fvF) (b : K) (x2 : fvF) (c : K) (x3 : fvF) : out mem :=
  forM 0 (n - 1) (fun i m =>
    u1 <- ld m (fy x1) i ;; u2 <- ld m (fy x2) i ;; u3 <- ld m (fy x3) i ;;
    st m (bx t) i (a * u1 + b * u2 + c * u3)%num) m.
(* lc4, lines 314-324 *)
Definition F_lc4 (m : mem) (t : fvF) (a : K) (x1 : fvF) (b : K) (x2 : fvF) (c : K) (x3 : fvF) (d : K) (x4 : fvF) : out mem :=
  forM 0 (n - 1) (fun i m =>
    u1 <- ld m (fy x1) i ;; u2 <- ld m (fy x2) i ;; u3 <- ld m (fy x3) i ;; u4 <- ld m (fy x4) i ;;
    st m (bx t) i (a * u1 + b * u2 + c * u3 + d * u4)%num) m.
(* lc5, lines 336-347 *)
Definition F_lc5 (m : mem) (t : fvF) (a : K) (x1 : fvF) (b : K) (x2 : fvF) (c : K) (x3 : fvF) (d : K) (x4 : fvF) (e : K) (x5 : fvF) : out mem :=
  forM 0 (n - 1) (fun i m =>
    u1 <- ld m (fy x1) i ;; u2 <- ld m (fy x2) i ;; u3 <- ld m (fy x3) i ;; u4 <- ld m (fy x4) i ;;
    u5 <- ld m (fy x5) i ;;
    st m (bx t) i (a * u1 + b * u2 + c * u3 + d * u4 + e * u5)%num) m.
(* x_lc3, lines 356-367 *)
Definition F_x_lc3 (m : mem) (t X : fvF) (a1 : K) (Y1 : fvF) (a2 : K) (Y2 : fvF) (a3 : K) (Y3 : fvF) : out mem :=
  forM 0 (n - 1) (fun i m =>
    x <- ld m (fy X) i ;; u1 <- ld m (fy Y1) i ;; u2 <- ld m (fy Y2) i ;; u3 <- ld m (fy Y3) i ;;
    st m (fy t) i (x + a1 * u1 + a2 * u2 + a3 * u3)%num) m.
(* x_lc4, lines 378-390 *)
Definition F_x_lc4 (m : mem) (t X : fvF) (a1 : K) (Y1 : fvF) (a2 : K) (Y2 : fvF) (a3 : K) (Y3 : fvF) (a4 : K) (Y4 : fvF) : out mem :=
  forM 0 (n - 1) (fun i m =>
    x <- ld m (fy X) i ;; u1 <- ld m (fy Y1) i ;; u2 <- ld m (fy Y2) i ;; u3 <- ld m (fy Y3) i ;;
    u4 <- ld m (fy Y4) i ;;
    st m (fy t) i (x + a1 * u1 + a2 * u2 + a3 * u3 + a4 * u4)%num) m.
(* a_x_plus_y, lines 395-402 *)
Definition F_a_x_plus_y (m : mem) (t : fvF) (a : K) (X Y : fvF) : out mem :=
  forM 0 (n - 1) (fun i m =>
    x <- ld m (fy X) i ;; y <- ld m (fy Y) i ;; st m (bx t) i (a * x + y)%num) m.
(* put(double _x[]), lines 407-414: the body reads and writes the vector itself *)
Definition F_put (m : mem) (t : fvF) (_x : Z) : out mem :=
  forM 0 (n - 1) (fun i m => a <- ld m (bx t) i ;; st m (fy t) i a) m.
End Vec.
Arguments blk : clear implicits.
Arguments mem : clear implicits.
