(* Specification vocabulary: the pivot array documented for DECH/DECHC in DECSOL, and the
   complex Newton system.  Nothing here refers to a model. *)
From Coq Require Import ZArith List Bool.
Open Scope Z_scope.
(* number of k in 1..n-1 for which rows k and k+1 were interchanged *)
Definition interchanges (n : Z) (ip : Z -> Z) : nat :=
  List.length (filter (fun k => negb (ip (k - 1) =? k)) (map Z.of_nat (seq 1 (Z.to_nat (n - 1))))).
(* ip(k), k<n, is the index of the pivot row of step k; ip(n) = (-1)**(number of interchanges) *)
Definition decsol_pivots (n : Z) (ip : Z -> Z) : Prop :=
  (forall k, 1 <= k < n -> ip (k - 1) = k \/ ip (k - 1) = k + 1) /\
  ip (n - 1) = (-1) ^ Z.of_nat (interchanges n ip).
