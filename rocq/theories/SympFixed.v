(* The tables of SympTables.v in binary fixed point (D = 70 and, for Cooper's condition of the "long double" tables, D = 130);
   they are only used through SympTabProofs.okl, which compares them with the decimal numbers. *)
From Coq Require Import ZArith List.
From Verif Require Import SympTables SympTabProofs.
Import ListNotations.
Open Scope Z_scope.
Definition za_d2 := Eval vm_compute in map (toz 70) la_d2.
Definition za_l2 := Eval vm_compute in map (toz 70) la_l2.
Definition wa_l2 := Eval vm_compute in map (toz 130) la_l2.
Definition zb2 := Eval vm_compute in map (toz 70) lb2.
Definition wb2 := Eval vm_compute in map (toz 130) lb2.
Definition zq_d2 := Eval vm_compute in map (toz 70) lc_d2.
Definition zq_l2 := Eval vm_compute in map (toz 70) lc_l2.
Definition za_d3 := Eval vm_compute in map (toz 70) la_d3.
Definition za_l3 := Eval vm_compute in map (toz 70) la_l3.
Definition wa_l3 := Eval vm_compute in map (toz 130) la_l3.
Definition zb3 := Eval vm_compute in map (toz 70) lb3.
Definition wb3 := Eval vm_compute in map (toz 130) lb3.
Definition zq_d3 := Eval vm_compute in map (toz 70) lc_d3.
Definition zq_l3 := Eval vm_compute in map (toz 70) lc_l3.
Definition za_d4 := Eval vm_compute in map (toz 70) la_d4.
Definition za_l4 := Eval vm_compute in map (toz 70) la_l4.
Definition wa_l4 := Eval vm_compute in map (toz 130) la_l4.
Definition zb4 := Eval vm_compute in map (toz 70) lb4.
Definition wb4 := Eval vm_compute in map (toz 130) lb4.
Definition zq_d4 := Eval vm_compute in map (toz 70) lc_d4.
Definition zq_l4 := Eval vm_compute in map (toz 70) lc_l4.
Definition za_d5 := Eval vm_compute in map (toz 70) la_d5.
Definition za_l5 := Eval vm_compute in map (toz 70) la_l5.
Definition wa_l5 := Eval vm_compute in map (toz 130) la_l5.
Definition zb5 := Eval vm_compute in map (toz 70) lb5.
Definition wb5 := Eval vm_compute in map (toz 130) lb5.
Definition zq_d5 := Eval vm_compute in map (toz 70) lc_d5.
Definition zq_l5 := Eval vm_compute in map (toz 70) lc_l5.
Definition za_d6 := Eval vm_compute in map (toz 70) la_d6.
Definition za_l6 := Eval vm_compute in map (toz 70) la_l6.
Definition wa_l6 := Eval vm_compute in map (toz 130) la_l6.
Definition zb6 := Eval vm_compute in map (toz 70) lb6.
Definition wb6 := Eval vm_compute in map (toz 130) lb6.
Definition zq_d6 := Eval vm_compute in map (toz 70) lc_d6.
Definition zq_l6 := Eval vm_compute in map (toz 70) lc_l6.
Definition za_d7 := Eval vm_compute in map (toz 70) la_d7.
Definition za_l7 := Eval vm_compute in map (toz 70) la_l7.
Definition wa_l7 := Eval vm_compute in map (toz 130) la_l7.
Definition zb7 := Eval vm_compute in map (toz 70) lb7.
Definition wb7 := Eval vm_compute in map (toz 130) lb7.
Definition zq_d7 := Eval vm_compute in map (toz 70) lc_d7.
Definition zq_l7 := Eval vm_compute in map (toz 70) lc_l7.
Definition za_d8 := Eval vm_compute in map (toz 70) la_d8.
Definition za_l8 := Eval vm_compute in map (toz 70) la_l8.
Definition wa_l8 := Eval vm_compute in map (toz 130) la_l8.
Definition zb8 := Eval vm_compute in map (toz 70) lb8.
Definition wb8 := Eval vm_compute in map (toz 130) lb8.
Definition zq_d8 := Eval vm_compute in map (toz 70) lc_d8.
Definition zq_l8 := Eval vm_compute in map (toz 70) lc_l8.
Definition za_d9 := Eval vm_compute in map (toz 70) la_d9.
Definition za_l9 := Eval vm_compute in map (toz 70) la_l9.
Definition wa_l9 := Eval vm_compute in map (toz 130) la_l9.
Definition zb9 := Eval vm_compute in map (toz 70) lb9.
Definition wb9 := Eval vm_compute in map (toz 130) lb9.
Definition zq_d9 := Eval vm_compute in map (toz 70) lc_d9.
Definition zq_l9 := Eval vm_compute in map (toz 70) lc_l9.
Definition za_d10 := Eval vm_compute in map (toz 70) la_d10.
Definition za_l10 := Eval vm_compute in map (toz 70) la_l10.
Definition wa_l10 := Eval vm_compute in map (toz 130) la_l10.
Definition zb10 := Eval vm_compute in map (toz 70) lb10.
Definition wb10 := Eval vm_compute in map (toz 130) lb10.
Definition zq_d10 := Eval vm_compute in map (toz 70) lc_d10.
Definition zq_l10 := Eval vm_compute in map (toz 70) lc_l10.
Definition za_d11 := Eval vm_compute in map (toz 70) la_d11.
Definition za_l11 := Eval vm_compute in map (toz 70) la_l11.
Definition wa_l11 := Eval vm_compute in map (toz 130) la_l11.
Definition zb11 := Eval vm_compute in map (toz 70) lb11.
Definition wb11 := Eval vm_compute in map (toz 130) lb11.
Definition zq_d11 := Eval vm_compute in map (toz 70) lc_d11.
Definition zq_l11 := Eval vm_compute in map (toz 70) lc_l11.
Definition za_d12 := Eval vm_compute in map (toz 70) la_d12.
Definition za_l12 := Eval vm_compute in map (toz 70) la_l12.
Definition wa_l12 := Eval vm_compute in map (toz 130) la_l12.
Definition zb12 := Eval vm_compute in map (toz 70) lb12.
Definition wb12 := Eval vm_compute in map (toz 130) lb12.
Definition zq_d12 := Eval vm_compute in map (toz 70) lc_d12.
Definition zq_l12 := Eval vm_compute in map (toz 70) lc_l12.
Definition za_d13 := Eval vm_compute in map (toz 70) la_d13.
Definition za_l13 := Eval vm_compute in map (toz 70) la_l13.
Definition wa_l13 := Eval vm_compute in map (toz 130) la_l13.
Definition zb13 := Eval vm_compute in map (toz 70) lb13.
Definition wb13 := Eval vm_compute in map (toz 130) lb13.
Definition zq_d13 := Eval vm_compute in map (toz 70) lc_d13.
Definition zq_l13 := Eval vm_compute in map (toz 70) lc_l13.
Definition za_d14 := Eval vm_compute in map (toz 70) la_d14.
Definition za_l14 := Eval vm_compute in map (toz 70) la_l14.
Definition wa_l14 := Eval vm_compute in map (toz 130) la_l14.
Definition zb14 := Eval vm_compute in map (toz 70) lb14.
Definition wb14 := Eval vm_compute in map (toz 130) lb14.
Definition zq_d14 := Eval vm_compute in map (toz 70) lc_d14.
Definition zq_l14 := Eval vm_compute in map (toz 70) lc_l14.
Definition za_d15 := Eval vm_compute in map (toz 70) la_d15.
Definition za_l15 := Eval vm_compute in map (toz 70) la_l15.
Definition wa_l15 := Eval vm_compute in map (toz 130) la_l15.
Definition zb15 := Eval vm_compute in map (toz 70) lb15.
Definition wb15 := Eval vm_compute in map (toz 130) lb15.
Definition zq_d15 := Eval vm_compute in map (toz 70) lc_d15.
Definition zq_l15 := Eval vm_compute in map (toz 70) lc_l15.
Definition za_d16 := Eval vm_compute in map (toz 70) la_d16.
Definition za_l16 := Eval vm_compute in map (toz 70) la_l16.
Definition wa_l16 := Eval vm_compute in map (toz 130) la_l16.
Definition zb16 := Eval vm_compute in map (toz 70) lb16.
Definition wb16 := Eval vm_compute in map (toz 130) lb16.
Definition zq_d16 := Eval vm_compute in map (toz 70) lc_d16.
Definition zq_l16 := Eval vm_compute in map (toz 70) lc_l16.
Definition zt_a (long : bool) (s : Z) : list Z := match s with
  | 2 => if long then za_l2 else za_d2
  | 3 => if long then za_l3 else za_d3
  | 4 => if long then za_l4 else za_d4
  | 5 => if long then za_l5 else za_d5
  | 6 => if long then za_l6 else za_d6
  | 7 => if long then za_l7 else za_d7
  | 8 => if long then za_l8 else za_d8
  | 9 => if long then za_l9 else za_d9
  | 10 => if long then za_l10 else za_d10
  | 11 => if long then za_l11 else za_d11
  | 12 => if long then za_l12 else za_d12
  | 13 => if long then za_l13 else za_d13
  | 14 => if long then za_l14 else za_d14
  | 15 => if long then za_l15 else za_d15
  | 16 => if long then za_l16 else za_d16
  | _ => [] end.
Definition zt_b (long : bool) (s : Z) : list Z := match s with
  | 2 => zb2
  | 3 => zb3
  | 4 => zb4
  | 5 => zb5
  | 6 => zb6
  | 7 => zb7
  | 8 => zb8
  | 9 => zb9
  | 10 => zb10
  | 11 => zb11
  | 12 => zb12
  | 13 => zb13
  | 14 => zb14
  | 15 => zb15
  | 16 => zb16
  | _ => [] end.
Definition zt_q (long : bool) (s : Z) : list Z := match s with
  | 2 => if long then zq_l2 else zq_d2
  | 3 => if long then zq_l3 else zq_d3
  | 4 => if long then zq_l4 else zq_d4
  | 5 => if long then zq_l5 else zq_d5
  | 6 => if long then zq_l6 else zq_d6
  | 7 => if long then zq_l7 else zq_d7
  | 8 => if long then zq_l8 else zq_d8
  | 9 => if long then zq_l9 else zq_d9
  | 10 => if long then zq_l10 else zq_d10
  | 11 => if long then zq_l11 else zq_d11
  | 12 => if long then zq_l12 else zq_d12
  | 13 => if long then zq_l13 else zq_d13
  | 14 => if long then zq_l14 else zq_d14
  | 15 => if long then zq_l15 else zq_d15
  | 16 => if long then zq_l16 else zq_d16
  | _ => [] end.
Definition wt_a (long : bool) (s : Z) : list Z := match s with
  | 2 => if long then wa_l2 else []
  | 3 => if long then wa_l3 else []
  | 4 => if long then wa_l4 else []
  | 5 => if long then wa_l5 else []
  | 6 => if long then wa_l6 else []
  | 7 => if long then wa_l7 else []
  | 8 => if long then wa_l8 else []
  | 9 => if long then wa_l9 else []
  | 10 => if long then wa_l10 else []
  | 11 => if long then wa_l11 else []
  | 12 => if long then wa_l12 else []
  | 13 => if long then wa_l13 else []
  | 14 => if long then wa_l14 else []
  | 15 => if long then wa_l15 else []
  | 16 => if long then wa_l16 else []
  | _ => [] end.
Definition wt_b (long : bool) (s : Z) : list Z := match s with
  | 2 => wb2
  | 3 => wb3
  | 4 => wb4
  | 5 => wb5
  | 6 => wb6
  | 7 => wb7
  | 8 => wb8
  | 9 => wb9
  | 10 => wb10
  | 11 => wb11
  | 12 => wb12
  | 13 => wb13
  | 14 => wb14
  | 15 => wb15
  | 16 => wb16
  | _ => [] end.
