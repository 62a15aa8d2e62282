(* Properties C49, C50 and C58 (example problems).  A Jacobian routine receives a matrix with the
   contents J0; (i,j) are numbered from 1 and lie at lapack_gb 1 1 i j in band storage. *)
From Coq Require Import Reals Lra Lia QArith.
From Verif Require Import Base Spec HessModel LayoutModel ExModel ExSpec ExGrid ExOreg ExBz ExOuter ExHam ExTop.
Open Scope Z_scope.

(* Radau5-NG/test/KPP.hpp: element (n-1,n) is wrong in every state; (n,n-1) keeps what the matrix contained *)
Theorem C49_kpp_refuted : forall n eh2, 3 <= n -> eh2 <> 0%R -> exists F, computes n (grid_rhs (K := Rnum) n eh2 (fun _ => kpp_f)) F /\
  forall y J0, wrong_at (lapack_gb 1 1) F (grid_jac (K := Rnum) n eh2 (fun _ => kpp_df) (n - 1) n) (n - 1) n y J0 /\
    (J0 (lapack_gb 1 1 n (n - 1)) <> (2 * eh2)%R -> wrong_at (lapack_gb 1 1) F (grid_jac (K := Rnum) n eh2 (fun _ => kpp_df) (n - 1) n) n (n - 1) y J0).
Proof. exact (fun n eh2 Hn => top_wrong_n1 n eh2 _ _ Hn (fun _ => kpp_der)). Qed.
Print Assumptions C49_kpp_refuted.
(* the elements that are right, and those outside the band *)
Theorem C49_kpp_partial : forall n eh2, 3 <= n -> forall F, computes n (grid_rhs (K := Rnum) n eh2 (fun _ => kpp_f)) F ->
  banded n 1 1 F /\ jacobian_on (fun i j => in_band n 1 1 i j /\ (i, j) <> (n - 1, n) /\ (i, j) <> (n, n - 1)) (lapack_gb 1 1) F
    (grid_jac (K := Rnum) n eh2 (fun _ => kpp_df) (n - 1) n).
Proof. exact (fun n eh2 Hn => top_right n eh2 _ _ Hn (fun _ => kpp_der) (n - 1) n ltac:(unfold in_band; lia)). Qed.
Print Assumptions C49_kpp_partial.
(* the constants of the class *)
Example C49_kpp_case : grid_eh2 (K := Rnum) (Rlit 1 (-3)) (Rlit 100 0) 1000%R <> 0%R.
Proof. unfold grid_eh2. cbn. unfold Rlit. simpl. lra. Qed.
(* Rock4-L/test/FRadau5.hpp, any source term b *)
Theorem C49_heat_refuted : forall n eh2 (b : Z -> R), 3 <= n -> eh2 <> 0%R -> exists F, computes n (grid_rhs (K := Rnum) n eh2 (fun i _ => b i)) F /\
  forall y J0, wrong_at (lapack_gb 1 1) F (grid_jac (K := Rnum) n eh2 (fun _ _ => 0%R) (n - 1) n) (n - 1) n y J0 /\
    (J0 (lapack_gb 1 1 n (n - 1)) <> (2 * eh2)%R -> wrong_at (lapack_gb 1 1) F (grid_jac (K := Rnum) n eh2 (fun _ _ => 0%R) (n - 1) n) n (n - 1) y J0).
Proof. exact (fun n eh2 b Hn => top_wrong_n1 n eh2 (fun i _ => b i) _ Hn (fun i u => zero_der (b i) u)). Qed.
Print Assumptions C49_heat_refuted.
Theorem C49_heat_partial : forall n eh2 (b : Z -> R), 3 <= n -> forall F, computes n (grid_rhs (K := Rnum) n eh2 (fun i _ => b i)) F ->
  banded n 1 1 F /\ jacobian_on (fun i j => in_band n 1 1 i j /\ (i, j) <> (n - 1, n) /\ (i, j) <> (n, n - 1)) (lapack_gb 1 1) F
    (grid_jac (K := Rnum) n eh2 (fun _ _ => 0%R) (n - 1) n).
Proof. exact (fun n eh2 b Hn => top_right n eh2 (fun i _ => b i) _ Hn (fun i u => zero_der (b i) u) (n - 1) n ltac:(unfold in_band; lia)). Qed.
Print Assumptions C49_heat_partial.
Example C49_heat_case : grid_eh2 (K := Rnum) (Rlit 1 0) (Rlit 1 0) 100%R <> 0%R.
Proof. unfold grid_eh2. cbn. unfold Rlit. simpl. lra. Qed.
(* five points: the last column holds 2 above the diagonal, and the last row still the 7 of the matrix given *)
Example C49_run : match grid_jac (K := QNum) 5 1%Q (fun _ _ => 0%Q) 4 5 (fun _ => 0%Q) (fun _ => 7%Q) with
  | Ok J => map (fun p => J (lapack_gb 1 1 (fst p) (snd p))) [(4, 4); (4, 5); (5, 4); (5, 5)] = [(-2)%Q; 2%Q; 7%Q; (-2)%Q] | _ => False end.
Proof. vm_compute. reflexivity. Qed.

(* Rodas-NG/test/KPP.hpp: the last statement overwrites (n,n) with 2*eh2 *)
Theorem C49_kpp_rodas_refuted : forall n eh2 k, 3 <= n -> exists F, computes n (grid_rhs (K := Rnum) n eh2 (fun _ => rodas_f (K := Rnum) k)) F /\
  forall y J0, ((4 * eh2)%R <> rodas_df (K := Rnum) k (y (n - 1)) -> wrong_at (lapack_gb 1 1) F (grid_jac (K := Rnum) n eh2 (fun _ => rodas_df (K := Rnum) k) n n) n n y J0) /\
    (J0 (lapack_gb 1 1 n (n - 1)) <> (2 * eh2)%R -> wrong_at (lapack_gb 1 1) F (grid_jac (K := Rnum) n eh2 (fun _ => rodas_df (K := Rnum) k) n n) n (n - 1) y J0).
Proof. exact (fun n eh2 k Hn => top_wrong_nn n eh2 _ _ Hn (fun _ => rodas_der k)). Qed.
Print Assumptions C49_kpp_rodas_refuted.
(* met by the initial state of the class, where the last component is 0 *)
Example C49_kpp_rodas_case : (4 * grid_eh2 (K := Rnum) (Rlit 1 (-3)) (Rlit 100 0) 100000)%R <> rodas_df (K := Rnum) 1%R 0%R.
Proof. unfold grid_eh2, rodas_df. cbn. unfold Rlit. simpl. lra. Qed.
Theorem C49_kpp_rodas_partial : forall n eh2 k, 3 <= n -> forall F, computes n (grid_rhs (K := Rnum) n eh2 (fun _ => rodas_f (K := Rnum) k)) F ->
  banded n 1 1 F /\ jacobian_on (fun i j => in_band n 1 1 i j /\ (i, j) <> (n, n) /\ (i, j) <> (n, n - 1)) (lapack_gb 1 1) F
    (grid_jac (K := Rnum) n eh2 (fun _ => rodas_df (K := Rnum) k) n n).
Proof. exact (fun n eh2 k Hn => top_right n eh2 _ _ Hn (fun _ => rodas_der k) n n ltac:(unfold in_band; lia)). Qed.
Print Assumptions C49_kpp_rodas_partial.

(* Oregonator: Radau5-NG's is right; Rodas-NG's has a sign error in (1,1) *)
Theorem C49_oregonator_radau : forall F, computes 3 (oreg_rhs_radau (K := Rnum)) F -> jacobian_on (in_full 3) (lapack_ge 3) F (oreg_jac_radau (K := Rnum)).
Proof. exact top_oreg. Qed.
Print Assumptions C49_oregonator_radau.
Theorem C49_oregonator_rodas_refuted : exists F, computes 3 (oreg_rhs_rodas (K := Rnum)) F /\
  forall y J0, y 0 <> 0%R -> wrong_at (lapack_ge 3) F (oreg_jac_rodas (K := Rnum)) 1 1 y J0.
Proof. exact top_oreg_wrong. Qed.
Print Assumptions C49_oregonator_rodas_refuted.
(* row 3 and the rest of row 1 are right; row 2 contains 0.0129416332341141 for 1/77.27 *)
Theorem C49_oregonator_rodas_partial : forall F, computes 3 (oreg_rhs_rodas (K := Rnum)) F ->
  jacobian_on (fun i j => in_full 3 i j /\ (i = 3 \/ (i = 1 /\ j <> 1))) (lapack_ge 3) F (oreg_jac_rodas (K := Rnum)) /\
  (forall y J0 j, 1 <= j <= 3 -> wp (oreg_jac_rodas (K := Rnum) (fun k => y (k - 1)) J0) (fun J =>
     exists d, partial F y 1 (j - 1) d /\ (Rabs (J (lapack_ge 3 2 j) - d) <= 1/10000000000000000 * (1 + Rabs (y 0%Z) + Rabs (y 1%Z)))%R)).
Proof. exact top_oreg_rodas. Qed.
Print Assumptions C49_oregonator_rodas_partial.
(* at the initial state 1, 2, 3 of the classes *)
Example C49_oregonator_case : let y := fun i : Z => if i =? 1 then 1%Q else if i =? 2 then 2%Q else 3%Q in
  match oreg_jac_radau (K := QNum) y (fun _ => 0%Q), oreg_jac_rodas (K := QNum) y (fun _ => 0%Q) with
  | Ok J, Ok J' => (J 0%Z - J' 0%Z == - 2 * (129427250 # 100000000000))%Q /\ (J 3%Z == J' 3%Z)%Q | _, _ => False end.
Proof. vm_compute. split; reflexivity. Qed.
Example C49_oregonator_functions : computes 3 (oreg_rhs_radau (K := Rnum)) oreg_F /\ computes 3 (oreg_rhs_rodas (K := Rnum)) oreg_F.
Proof. exact (conj oreg_computes_radau oreg_computes_rodas). Qed.

(* BZ.hpp, its own 100 points: the third block is built with eps[1] *)
Theorem C49_bz_refuted : forall e0 e1 e2, e1 <> e2 -> exists F, computes 300 (bz_rhs (K := Rnum) 100 e0 e1 e2) F /\
  forall y J0, wrong_at (lapack_gb 2 2) F (bz_jac (K := Rnum) 100 e0 e1) 202 202 y J0.
Proof. exact top_bz. Qed.
Print Assumptions C49_bz_refuted.
Example C49_bz_case : (25/10000/(1/99*(1/99)) <> 15/10000/(1/99*(1/99)))%R.
Proof. lra. Qed.

(* Outer.hpp, OuterNeptune.hpp, OuterUranus.hpp (nb = 6, 5, 4; n = 6*nb): for an output of n elements,
   and for any output of less than 21*nb, the right-hand side writes out of bounds *)
Theorem C50_outer_refuted : forall (K : num) nb (m : Z -> K) G, 1 <= nb -> forall cap X Y, 6 * nb <= cap < 21 * nb ->
  outer_rhs nb m G cap X Y = UB "write out of bounds".
Proof. exact @outer_ub. Qed.
Print Assumptions C50_outer_refuted.
(* given 21*nb elements: the field of Newton's equations with time reversed, and 15*nb zeros behind it *)
Theorem C50_outer_partial : forall nb m G, 2 <= nb -> forall cap, 21 * nb <= cap -> forall X Y, wp (outer_rhs (K := Rnum) nb m G cap X Y) (fun Y' =>
  (forall i, 0 <= i < 6 * nb -> Y' i = (- newton_field nb m G X i)%R) /\ (forall k, 6 * nb <= k < 21 * nb -> Y' k = 0%R) /\ (forall k, 21 * nb <= k -> Y' k = Y k)).
Proof. exact outer_run. Qed.
Print Assumptions C50_outer_partial.
Example C50_outer_case : outer_rhs (K := QNum) 6 outer_masses outer_G 36 (fun i => i # 1) (fun _ => 0%Q) = UB "write out of bounds".
Proof. vm_compute. reflexivity. Qed.

(* C58: the Hamiltonian returned by H is constant along the right-hand side *)
Theorem C58_kepler : forall F H, computes 4 (kepler_rhs (K := Rnum)) F -> (forall x, kepler_H (K := Rnum) x = Ok (H x)) ->
  forall x, (x 0%Z <> 0 \/ x 1%Z <> 0)%R -> rate 4 H F x 0.
Proof. exact top_kepler. Qed.
Print Assumptions C58_kepler.
Example C58_kepler_case : exists F H, computes 4 (kepler_rhs (K := Rnum)) F /\ (forall x, kepler_H (K := Rnum) x = Ok (H x)).
Proof. exists kepler_F, kepler_Hv. exact (conj kepler_computes kepler_H_ok). Qed.
(* Outer*.hpp leave out the neighbouring pairs (j < i-1) *)
Theorem C58_outer_refuted : forall nb m G, 2 <= nb -> (forall i, 0 <= i < nb -> m i <> 0%R) -> forall cap, 21 * nb <= cap -> G <> 0%R ->
  exists F H, computes (6 * nb) (outer_rhs (K := Rnum) nb m G cap) F /\ (forall x, outer_H (K := Rnum) nb m G x = Ok (H x)) /\
    exists x, apart nb x /\ ~ rate (6 * nb) H F x 0.
Proof. exact top_outer_refuted. Qed.
Print Assumptions C58_outer_refuted.
(* the rate at which H varies: the power of those pairs *)
Theorem C58_outer_partial : forall nb m G, 2 <= nb -> (forall i, 0 <= i < nb -> m i <> 0%R) ->
  forall cap F H, 21 * nb <= cap -> computes (6 * nb) (outer_rhs (K := Rnum) nb m G cap) F -> (forall x, outer_H (K := Rnum) nb m G x = Ok (H x)) ->
  forall x, apart nb x -> rate (6 * nb) H F x (rsum 1 (nb - 1) (fun i => work nb m G x i (i - 1))).
Proof. exact top_outer_rate. Qed.
Print Assumptions C58_outer_partial.
(* the masses and the constant of Outer.hpp *)
Example C58_outer_case : (forall i, 0 <= i < 6 -> outer_masses (K := Rnum) i <> 0%R) /\ outer_G (K := Rnum) <> 0%R.
Proof.
  split.
  - intros i Hi. assert (C : i = 0 \/ i = 1 \/ i = 2 \/ i = 3 \/ i = 4 \/ i = 5) by lia.
    destruct C as [-> | [-> | [-> | [-> | [-> | ->]]]]]; cbn; unfold Rlit; simpl; lra.
  - cbn; unfold Rlit; simpl; lra.
Qed.
