(* Which specialisation of Matrices<full,Hessenberg,n,nsub,nsup> a solver uses
   (common/include/Matrices.hpp:29,127,211,312, common/include/compat.hpp,
   common/include/MatrixType.hpp). *)
From Verif Require Import Base HessModel LayoutModel.
Open Scope Z_scope.

(* compat.hpp:10: the static_assert; false = the program does not compile *)
Definition compat_ok (full hess : bool) : bool := full || (negb full && negb hess).

(* the four specialisations: lines 29 (full), 127 (band), 211 (full, Hessenberg) and
   312 (band, Hessenberg: its constructor throws) *)
Inductive spec_kind : Type := KFull | KBand | KHess | KNone.
Definition specialisation (full hess : bool) : spec_kind :=
  match full, hess with
  | true, false => KFull | false, false => KBand | true, true => KHess | false, true => KNone
  end.

(* What happens to a program that asks for n, nsub, nsup, Hessenberg: None = rejected by the
   compiler; otherwise the specialisation and the outcome of its constructor
   (lines 43, 139-144, 226, 321-325).  Radau5cc also derives from compat (Radau5cc.hpp:28-32,
   asserts = true); Rodascc includes compat.hpp but does not use it (Rodascc.hpp:8,27-29,
   asserts = false). *)
Definition configure (asserts : bool) (n nsub nsup : Z) (hess : bool) : option (spec_kind * out unit) :=
  let full := matrix_full n nsub nsup in
  if negb asserts || compat_ok full hess then
    let k := specialisation full hess in
    Some (k, match k with
             | KFull | KHess => Ok tt
             | KBand => band_ctor n nsub nsup
             | KNone => Throw "Matrices cannot use Hessenberg option with banded Matrices"
             end)
  else None.

(* the element (i,j) of the Jacobian as the specialisation stores it *)
Definition store_set {K : num} (k : spec_kind) (n nsub nsup : Z) (x : vec K) (i j : Z) (v : K) : out (vec K) :=
  match k with KBand => fb_set n nsub nsup x i j v | _ => fa_set n x i j v end.
Definition store_get {K : num} (k : spec_kind) (n nsub nsup : Z) (x : vec K) (i j : Z) : out K :=
  match k with KBand => fb_get n nsub nsup x i j | _ => fa_get n x i j end.
