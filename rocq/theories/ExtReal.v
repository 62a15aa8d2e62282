(* The reals extended with the infinities and NaN: exact arithmetic, with the IEEE rules for
   the special values (there is one zero only: x/0 is +oo for x > 0, -oo for x < 0). *)
From Coq Require Import Reals Lra.
From Verif Require Import Base.

Inductive ext := Fin (r : R) | Pinf | Ninf | Nan.
Definition eopp (a : ext) : ext := match a with Fin r => Fin (- r) | Pinf => Ninf | Ninf => Pinf | Nan => Nan end.
Definition eadd (a b : ext) : ext :=
  match a, b with
  | Fin x, Fin y => Fin (x + y)
  | Nan, _ | _, Nan => Nan
  | Pinf, Ninf | Ninf, Pinf => Nan
  | Pinf, _ | _, Pinf => Pinf
  | Ninf, _ | _, Ninf => Ninf
  end.
Definition esub (a b : ext) : ext := eadd a (eopp b).
(* r times +oo *)
Definition esgn (r : R) : ext := if Rltb 0 r then Pinf else if Rltb r 0 then Ninf else Nan.
Definition emul (a b : ext) : ext :=
  match a, b with
  | Fin x, Fin y => Fin (x * y)
  | Nan, _ | _, Nan => Nan
  | Fin x, Pinf | Pinf, Fin x => esgn x
  | Fin x, Ninf | Ninf, Fin x => eopp (esgn x)
  | Pinf, Pinf | Ninf, Ninf => Pinf
  | Pinf, Ninf | Ninf, Pinf => Ninf
  end.
Definition ediv (a b : ext) : ext :=
  match a, b with
  | Fin x, Fin y => if Reqb y 0 then esgn x else Fin (x / y)
  | Nan, _ | _, Nan => Nan
  | Fin _, _ => Fin 0
  | Pinf, Fin y => if Rltb y 0 then Ninf else Pinf
  | Ninf, Fin y => if Rltb y 0 then Pinf else Ninf
  | _, _ => Nan
  end.
Definition eltb (a b : ext) : bool :=
  match a, b with
  | Fin x, Fin y => Rltb x y
  | Nan, _ | _, Nan => false
  | Ninf, Ninf | Pinf, Pinf => false
  | Ninf, _ | _, Pinf => true
  | _, _ => false
  end.
Definition eeqb (a b : ext) : bool :=
  match a, b with
  | Fin x, Fin y => Reqb x y
  | Pinf, Pinf | Ninf, Ninf => true
  | _, _ => false
  end.
Definition eleb (a b : ext) : bool := (eltb a b || eeqb a b)%bool.
Definition esqrt (a : ext) : ext :=
  match a with Fin r => if Rltb r 0 then Nan else Fin (sqrt r) | Pinf => Pinf | _ => Nan end.
(* pow is not used by the programs modelled over this structure *)
Definition epow (a b : ext) : ext := match a, b with Fin x, Fin y => Fin (Rpower x y) | _, _ => Nan end.
Definition ExtR : num :=
  mkNum ext (fun m e => Fin (Rlit m e)) eadd esub emul ediv eopp eltb eleb eeqb esqrt epow.
Canonical ExtR.
Open Scope R_scope.
Lemma eleb_fin x y : eleb (Fin x) (Fin y) = Rleb x y.
Proof.
  unfold eleb. cbn. destruct (Rltb_spec x y), (Reqb_spec x y), (Rleb_spec x y); cbn; try reflexivity; try lra; exfalso; lra.
Qed.
Lemma esqrt_nonneg r : 0 <= r -> esqrt (Fin r) = Fin (sqrt r).
Proof. intros H. cbn. destruct (Rltb_spec r 0); [lra|reflexivity]. Qed.
Lemma ediv_fin x y : y <> 0 -> ediv (Fin x) (Fin y) = Fin (x / y).
Proof. intros H. cbn. destruct (Reqb_spec y 0); [contradiction|reflexivity]. Qed.
