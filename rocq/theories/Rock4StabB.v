(* Check of the stability polynomials of the degrees 44 to 71, without 63, for all coefficients
   within a relative distance 2^-51 of those of the table. *)
From Coq Require Import Bool ZArith List.
From Verif Require Import Rock4Stab.
Import ListNotations.
Definition stab_b_list : list (nat * Z) := [(30%nat, 16%Z); (31%nat, 16%Z); (32%nat, 16%Z); (33%nat, 16%Z); (34%nat, 16%Z); (35%nat, 16%Z); (37%nat, 20%Z); (38%nat, 20%Z)].
Lemma stab_b : forallb (fun x => deg_check 51 (fst x) (snd x)) stab_b_list = true.
Proof. vm_cast_no_check (eq_refl true). Qed.
