(* Check of the stability polynomials of the degrees 1 to 41, for all coefficients
   within a relative distance 2^-51 of those of the table. *)
From Coq Require Import Bool ZArith List.
From Verif Require Import Rock4Stab.
Import ListNotations.
Definition stab_a_list : list (nat * Z) := [(0%nat, 16%Z); (1%nat, 16%Z); (2%nat, 16%Z); (3%nat, 16%Z); (4%nat, 16%Z); (5%nat, 16%Z); (6%nat, 16%Z); (7%nat, 16%Z); (8%nat, 16%Z); (9%nat, 16%Z); (10%nat, 16%Z); (11%nat, 16%Z); (12%nat, 16%Z); (13%nat, 16%Z); (14%nat, 16%Z); (15%nat, 16%Z); (16%nat, 16%Z); (17%nat, 16%Z); (18%nat, 16%Z); (19%nat, 16%Z); (20%nat, 16%Z); (21%nat, 16%Z); (22%nat, 16%Z); (23%nat, 16%Z); (24%nat, 16%Z); (25%nat, 16%Z); (26%nat, 16%Z); (27%nat, 16%Z); (28%nat, 16%Z); (29%nat, 16%Z)].
Lemma stab_a : forallb (fun x => deg_check 51 (fst x) (snd x)) stab_a_list = true.
Proof. vm_cast_no_check (eq_refl true). Qed.
