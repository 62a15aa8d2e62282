(* The checks of SympTabProofs.v, evaluated on the 30 tables. *)
From Coq Require Import Reals Lra ZArith List Lia.
From Verif Require Import Base FieldLU HessModel Spec HessPathProofs CMacros SympModel SympTables SympSpec SympProofs SympTop SympTabProofs SympFixed.
Import ListNotations.
Open Scope Z_scope.
Lemma range216 (P : Z -> bool) : forallb P (zrange 2 16) = true -> forall s, 2 <= s <= 16 -> P s = true.
Proof. intros H s Hs. rewrite forallb_forall in H. apply H. apply zrange_In. exact Hs. Qed.
Definition E70 (m p : Z) : Z := m * 2 ^ 70 / 10 ^ p.
Definition E130 (m p : Z) : Z := m * 2 ^ 130 / 10 ^ p.
Lemma chk_bounded : forallb (fun s => forallb (fun l => bounded 70 (tab_la l s) (tab_lb l s) (zt_a l s) (zt_b l s)) [true; false]) (zrange 2 16) = true.
Proof. vm_cast_no_check (eq_refl true). Qed.
Lemma chk_bounded_long : forallb (fun s => bounded 130 (tab_la true s) (tab_lb true s) (wt_a true s) (wt_b true s)) (zrange 2 16) = true.
Proof. vm_cast_no_check (eq_refl true). Qed.
Lemma chk_double : forallb (fun s => (fun E => max_cooper 70 s (zt_a false s) (zt_b false s) E) (E70 3 13)) (zrange 2 16) = true.
Proof. vm_cast_no_check (eq_refl true). Qed.
Lemma chk_long : forallb (fun s => (fun E => max_cooper 130 s (wt_a true s) (wt_b true s) E) (E130 3 34)) (zrange 2 16) = true.
Proof. vm_cast_no_check (eq_refl true). Qed.
Lemma chk_some : forallb (fun s => some_cooper 70 s (zt_a false s) (zt_b false s) (E70 2 14)) (zrange 2 16) = true.
Proof. vm_cast_no_check (eq_refl true). Qed.
Lemma chk_order_double : forallb (fun s => (fun E => order_ok 70 s (zt_a false s) (zt_b false s) E) (E70 2 12)) (zrange 2 16) = true.
Proof. vm_cast_no_check (eq_refl true). Qed.
Lemma chk_order_long : forallb (fun s => (fun E => order_ok 70 s (zt_a true s) (zt_b true s) E) (E70 1 16)) (zrange 2 16) = true.
Proof. vm_cast_no_check (eq_refl true). Qed.
Lemma chk_extrap : forallb (fun s => forallb (fun l => okQ 70 s (zt_a l s) (tab_lc l s) (zt_q l s) (E70 5 2)) [true; false]) (zrange 2 16) = true.
Proof. vm_cast_no_check (eq_refl true). Qed.
