(* The values computed by the elementwise operations of fortranVectorF
   (fortranVector.hpp:179-402), as pure functions.  C09_elementwise proves that the heap
   versions compute exactly these values whatever aliases what, so the solver models use
   them directly. *)
From Verif Require Import Base HessModel.
Open Scope Z_scope.
Section V.
Context {K : num}.
Definition v_add (X Y : vec K) : vec K := fun i => (X i + Y i)%num.
Definition v_scale (a : K) (Y : vec K) : vec K := fun i => (a * Y i)%num.
Definition v_axpy (a : K) (X Y : vec K) : vec K := fun i => (a * X i + Y i)%num.
Definition v_lc2 (a : K) (x1 : vec K) (b : K) (x2 : vec K) : vec K := fun i => (a * x1 i + b * x2 i)%num.
Definition v_lc3 (a : K) (x1 : vec K) (b : K) (x2 : vec K) (c : K) (x3 : vec K) : vec K :=
  fun i => (a * x1 i + b * x2 i + c * x3 i)%num.
Definition v_lc4 (a : K) (x1 : vec K) (b : K) (x2 : vec K) (c : K) (x3 : vec K) (d : K) (x4 : vec K) : vec K :=
  fun i => (a * x1 i + b * x2 i + c * x3 i + d * x4 i)%num.
Definition v_lc5 (a : K) (x1 : vec K) (b : K) (x2 : vec K) (c : K) (x3 : vec K) (d : K) (x4 : vec K) (e : K) (x5 : vec K) : vec K :=
  fun i => (a * x1 i + b * x2 i + c * x3 i + d * x4 i + e * x5 i)%num.
Definition v_x_lc2 (X : vec K) (a1 : K) (Y1 : vec K) (a2 : K) (Y2 : vec K) : vec K :=
  fun i => (X i + a1 * Y1 i + a2 * Y2 i)%num.
Definition v_x_lc3 (X : vec K) (a1 : K) (Y1 : vec K) (a2 : K) (Y2 : vec K) (a3 : K) (Y3 : vec K) : vec K :=
  fun i => (X i + a1 * Y1 i + a2 * Y2 i + a3 * Y3 i)%num.
Definition v_x_lc4 (X : vec K) (a1 : K) (Y1 : vec K) (a2 : K) (Y2 : vec K) (a3 : K) (Y3 : vec K) (a4 : K) (Y4 : vec K) : vec K :=
  fun i => (X i + a1 * Y1 i + a2 * Y2 i + a3 * Y3 i + a4 * Y4 i)%num.
End V.
