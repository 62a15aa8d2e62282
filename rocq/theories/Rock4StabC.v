(* Check of the stability polynomials of the degrees 76 to 92, for all coefficients
   within a relative distance 2^-51 of those of the table. *)
From Coq Require Import Bool ZArith List.
From Verif Require Import Rock4Stab.
Import ListNotations.
Definition stab_c_list : list (nat * Z) := [(39%nat, 20%Z); (40%nat, 20%Z); (41%nat, 20%Z); (42%nat, 24%Z)].
Lemma stab_c : forallb (fun x => deg_check 51 (fst x) (snd x)) stab_c_list = true.
Proof. vm_cast_no_check (eq_refl true). Qed.
