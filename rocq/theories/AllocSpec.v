(* Specification: what a block of C++ code may leave behind. *)
From Verif Require Import Base AllocModel.
Open Scope Z_scope.
(* block numbers from knext on are unused *)
Definition wf (m : kmem) : Prop := forall q, knext m <= q -> kcells m q = None.
Definition start : kmem := KMem 0 (fun _ => None).
(* what was there is as before, everything allocated since has been released *)
Definition clean (m m' : kmem) : Prop :=
  (forall q, q < knext m -> kcells m' q = kcells m q) /\ (forall q b, knext m <= q -> kcells m' q = Some b -> klive b = false).
Definition is_UB {A} (o : out A) : Prop := exists s, o = UB s.
