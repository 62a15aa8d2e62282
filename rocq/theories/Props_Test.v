(* Properties C76 to C83 (the test programs).  [assign l P]: the assignments of l one after the other. *)
From Coq Require Import ZArith List Reals Lra Lia.
From Verif Require Import Base HessModel Spec SdirkModel SdirkSpec SdirkTop LaplModel LaplSpec LaplProofs LaplTop Gauss TestModel TestProofs.
Open Scope R_scope.
Import ListNotations.

(* a singular matrix is delivered to SuperLU as the identity ... *)
Theorem C76_compressed_columns_refuted : exists l : list (Z * Z * R), (forall x, In x l -> (1 <= fst (fst x) <= 3 /\ 1 <= snd (fst x) <= 3)%Z) /\
  ~ regular 3 (assigned l) /\
  forall a0 ri0 cp0, exists A, slu_arrays (K := Rnum) (assign (K := Rnum) l pm_new) a0 ri0 cp0 = Ok A /\ u_n A = 3%Z /\
    compressed_columns 3 (u_nnz A) (u_a A) (u_rowind A) (u_colptr A) (identity 3) /\ regular 3 (identity 3).
Proof. exact (ex_intro _ _ (conj empty_column_keys empty_column)). Qed.
Print Assumptions C76_compressed_columns_refuted.
(* ... and colptr is overrun when there are more columns than rows *)
Theorem C76_overrun_refuted : forall a0 ri0 cp0, exists s, slu_arrays (K := Rnum) (assign (K := Rnum) (ones [(1, 1); (1, 2); (1, 3)]%Z) pm_new) a0 ri0 cp0 = UB s.
Proof. exact wide_matrix. Qed.
Print Assumptions C76_overrun_refuted.
(* missing: matrices with an empty column or an empty last row, matrices that are not square, and
   objects used before for a larger matrix *)
Theorem C76_compressed_columns_partial : forall (K : num) n (l : list (Z * Z * K)) (P : premat K), (1 <= n)%Z ->
  (forall x, In x l -> (1 <= fst (fst x) <= n /\ 1 <= snd (fst x) <= n)%Z) -> (pm_lig P <= n)%Z -> (exists x, In x l /\ fst (fst x) = n) ->
  forall a0 ri0 cp0, (forall j, (1 <= j <= n)%Z -> exists x, In x l /\ snd (fst x) = j) ->
  exists A, slu_arrays (assign l (pm_clear P)) a0 ri0 cp0 = Ok A /\ u_n A = n /\ compressed_columns n (u_nnz A) (u_a A) (u_rowind A) (u_colptr A) (assigned l).
Proof. exact (fun K => columns_ok (K := K)). Qed.
Print Assumptions C76_compressed_columns_partial.
Example C76_case : forall j, (1 <= j <= 3)%Z -> exists x, In x (ones [(1, 1); (3, 1); (2, 2); (3, 3); (3, 1)]%Z) /\ snd (fst x) = j.
Proof.
  intros j Hj. assert (j = 1 \/ j = 2 \/ j = 3)%Z as [-> |[-> | ->]] by lia;
  [exists (1%Z, 1%Z, 1)|exists (2%Z, 2%Z, 1)|exists (3%Z, 3%Z, 1)]; cbn; tauto.
Qed.

(* missing: an object initialised before for a larger problem *)
Theorem C77_laplace_solver_partial : forall n al, (2 <= n)%Z -> 0 <= al ->
  forall Fa (dgssv : slu Rnum -> option Fa) dgstrs, superlu n dgssv dgstrs ->
  forall (P : premat Rnum) a0 ri0 cp0, (pm_lig P <= n)%Z ->
  exists o P', lapl_init (K := Rnum) dgssv n (IZR n) al P a0 ri0 cp0 = Ok (o, P') /\ (pm_lig P' = n)%Z /\
    inverts n al (laplace n) (lapl_op dgstrs o n) /\
    forall RHS X, exists x, lapl_apply (K := Rnum) dgstrs o n RHS X = Ok x /\ veq n x (lapl_op dgstrs o n RHS).
Proof. exact (fun n al Hn Ha Fa dgssv dgstrs => lapl_ok n al Hn Ha dgssv dgstrs). Qed.
Print Assumptions C77_laplace_solver_partial.
(* whatever the library does: what it reports becomes an exception, what it returns is returned *)
Theorem C77_failures_reported : forall n al, (2 <= n)%Z -> forall Fa (dgssv : slu Rnum -> option Fa) dgstrs (P : premat Rnum) a0 ri0 cp0, (pm_lig P <= n)%Z ->
  exists A, match dgssv A with
    | None => exists s, lapl_init (K := Rnum) dgssv n (IZR n) al P a0 ri0 cp0 = Throw s
    | Some f => exists P', lapl_init (K := Rnum) dgssv n (IZR n) al P a0 ri0 cp0 = Ok ((n, f), P') /\
        forall RHS X, exists B, veq n B RHS /\ match dgstrs f B with
          | None => exists s, lapl_apply (K := Rnum) dgstrs (n, f) n RHS X = Throw s | Some x => lapl_apply (K := Rnum) dgstrs (n, f) n RHS X = Ok x end
    end.
Proof. exact (fun n al Hn Fa => lapl_fails n al Hn (Fa := Fa)). Qed.
Print Assumptions C77_failures_reported.
Example C77_case : superlu 2 (fun A => Some (dense A 0 0, dense A 0 1, dense A 1 0, dense A 1 1)) cramer.
Proof. exact superlu_2. Qed.
Example C77_every_size : forall n, (0 <= n)%Z -> superlu n gssv gstrs.
Proof. exact superlu_gauss. Qed.
(* with it SDIRKL computes steps for the heat equation *)
Theorem C77_heat_steps : forall Fa (RK : method Rnum) n dt b (dgssv : slu Rnum -> option Fa) dgstrs, (2 <= n)%Z -> 0 <= dt * m_A RK 0%Z 0%Z ->
  fits (m_s RK) (m_A RK) (m_S RK) (m_D RK) b -> superlu n dgssv dgstrs ->
  forall k dloc Zused aloc zc0 (m : smem (K := Rnum)) a0 ri0 cp0,
  wp (bind (lapl_init (K := Rnum) dgssv n (IZR n) (dt * m_A RK 0%Z 0%Z) pm_new a0 ri0 cp0) (fun oP =>
      bind (construct RK n dloc Zused aloc zc0) (fun o => run_linear RK n false (lapl_op dgstrs (fst oP) n) k (o, m))))
     (fun x => rk_steps n (m_s RK) (m_A RK) b dt (laplace n) k (io m) (io (snd x))).
Proof. exact (fun Fa => heat_linear_runs (Fa := Fa)). Qed.
Print Assumptions C77_heat_steps.
Theorem C77_heat_source_steps : forall Fa (RK : method Rnum) n dt b (dgssv : slu Rnum -> option Fa) dgstrs, (2 <= n)%Z -> 0 <= dt * m_A RK 0%Z 0%Z ->
  fits (m_s RK) (m_A RK) (m_S RK) (m_D RK) b -> superlu n dgssv dgstrs ->
  forall phi k dloc Zused aloc zc0 (m : smem (K := Rnum)) a0 ri0 cp0,
  wp (bind (lapl_init (K := Rnum) dgssv n (IZR n) (dt * m_A RK 0%Z 0%Z) pm_new a0 ri0 cp0) (fun oP =>
      bind (construct RK n dloc Zused aloc zc0) (fun o => run_affine RK n dt true (lapl_op dgstrs (fst oP) n) phi k (o, m))))
     (fun x => rk_steps n (m_s RK) (m_A RK) b dt (fun u p => laplace n u p + phi p) k (io m) (io (snd x))).
Proof. exact (fun Fa => heat_affine_runs (Fa := Fa)). Qed.
Print Assumptions C77_heat_source_steps.
(* the implicit Euler method; the methods: C40_case *)
Example C77_steps_case : forall w, fits (m_s (EulerImp (K := Rnum) w)) (m_A (EulerImp (K := Rnum) w)) (m_S (EulerImp (K := Rnum) w)) (m_D (EulerImp (K := Rnum) w)) (fun _ => 1) /\ 0 <= 1 / 10 * m_A (EulerImp (K := Rnum) w) 0%Z 0%Z.
Proof. exact euler_fits. Qed.
(* initialised for 3 points, then for 2: apply reads past the end of the arrays of 2 elements *)
Theorem C77_smaller_problem_refuted : forall Fa (dgssv : slu Rnum -> option Fa) dgstrs al a0 ri0 cp0 a1 ri1 cp1 o1 P1 o2 P2 RHS X,
  lapl_init (K := Rnum) dgssv 3 3 al pm_new a0 ri0 cp0 = Ok (o1, P1) -> lapl_init (K := Rnum) dgssv 2 2 al P1 a1 ri1 cp1 = Ok (o2, P2) ->
  exists s, lapl_apply (K := Rnum) dgstrs o2 2 RHS X = UB s.
Proof. exact (fun Fa => smaller_init (Fa := Fa)). Qed.
Print Assumptions C77_smaller_problem_refuted.
Example C77_smaller_case : forall al a0 ri0 cp0 a1 ri1 cp1, exists o1 P1 o2 P2,
  lapl_init (K := Rnum) (fun A => Some A) 3 3 al pm_new a0 ri0 cp0 = Ok (o1, P1) /\ lapl_init (K := Rnum) (fun A => Some A) 2 2 al P1 a1 ri1 cp1 = Ok (o2, P2).
Proof. exact smaller_init_case. Qed.

(* the rows stored are the columns ... *)
Theorem C78_compressed_rows_refuted : forall ia0 ja0 a0, exists (l : list (Z * Z * R)) A,
  csr_init (K := Rnum) (assign (K := Rnum) l pm_new) ia0 ja0 a0 = Ok A /\ c_order A = 2%Z /\ regular 2 (assigned l) /\
  ~ compressed_rows 2 (c_nzero A) (c_ia A) (c_ja A) (c_a A) (assigned l).
Proof. exact rows_refuted. Qed.
Print Assumptions C78_compressed_rows_refuted.
(* ... with more columns than rows ia is overrun, with less it is not completely set *)
Theorem C78_overrun_refuted : forall ia0 ja0 a0, exists s, csr_init (K := Rnum) (assign (K := Rnum) (ones [(1, 1); (1, 3)]%Z) pm_new) ia0 ja0 a0 = UB s.
Proof. exact rows_overflow. Qed.
Print Assumptions C78_overrun_refuted.
Theorem C78_unset_refuted : forall ja0 a0, exists A ia0, csr_init (K := Rnum) (assign (K := Rnum) (ones [(1, 1); (2, 1)]%Z) pm_new) ia0 ja0 a0 = Ok A /\ c_ia A 2%Z = ia0 2%Z /\
  forall T : sparse R, ~ compressed_rows 2 (c_nzero A) (c_ia A) (c_ja A) (c_a A) T.
Proof. exact rows_unset. Qed.
Print Assumptions C78_unset_refuted.
(* missing: the matrix itself is not the one stored; matrices without element in the last row, the first
   or the last column, and those that are not square *)
Theorem C78_transposed_rows_partial : forall (K : num) n (l : list (Z * Z * K)) (P : premat K), (1 <= n)%Z ->
  (forall x, In x l -> (1 <= fst (fst x) <= n /\ 1 <= snd (fst x) <= n)%Z) -> (pm_lig P <= n)%Z -> (exists x, In x l /\ fst (fst x) = n) ->
  forall ia0 ja0 a0, (exists x, In x l /\ snd (fst x) = 1%Z) -> (exists x, In x l /\ snd (fst x) = n) ->
  exists A, csr_init (assign l (pm_clear P)) ia0 ja0 a0 = Ok A /\ c_order A = n /\ compressed_rows n (c_nzero A) (c_ia A) (c_ja A) (c_a A) (transposed (assigned l)).
Proof. exact (fun K => rows_ok (K := K)). Qed.
Print Assumptions C78_transposed_rows_partial.
(* hypotheses: C76_case *)

Theorem C79_exact_solution : forall n, (2 <= n)%Z -> forall beta, exists u : R -> Z -> R,
  (forall t e, exists r, ex_sol (K := Rnum) cos exp atan n t beta e = Ok r /\ veq n r (u t)) /\
  (forall e, exists r, ex_cinit (K := Rnum) cos atan n e = Ok r /\ veq n r (u 0)) /\
  forall t i, (0 <= i < n)%Z -> derivable_pt_lim (fun t => u t i) t (laplace n (u t) i + beta * u 0 i).
Proof. exact exact_solution. Qed.
Print Assumptions C79_exact_solution.

(* inp, s, g, o are four different arrays; only the n elements of o are written *)
Theorem C80_operators : forall n, (2 <= n)%Z ->
  (forall x s a b o, exists r, f_L (K := Rnum) n x s a b o = Ok r /\ (forall i, (0 <= i < n)%Z -> r i = a * laplace n x i + b * s i) /\ forall i, (i < 0 \/ n <= i)%Z -> r i = o i) /\
  (forall x s a b c o, exists r, f_Lc (K := Rnum) n x s a b c o = Ok r /\ (forall i, (0 <= i < n)%Z -> r i = a * laplace n x i + b * x i + c * s i) /\ forall i, (i < 0 \/ n <= i)%Z -> r i = o i) /\
  (forall x s a b g o, exists r, f_A (K := Rnum) n x s a b g o = Ok r /\ (forall i, (0 <= i < n)%Z -> r i = a * (laplace n x i + g i) + b * s i) /\ forall i, (i < 0 \/ n <= i)%Z -> r i = o i) /\
  (forall x s a b c g o, exists r, f_Ac (K := Rnum) n x s a b c g o = Ok r /\ (forall i, (0 <= i < n)%Z -> r i = a * (laplace n x i + g i) + b * x i + c * s i) /\ forall i, (i < 0 \/ n <= i)%Z -> r i = o i).
Proof. exact (fun n Hn => conj (fL_ok n Hn) (conj (fLc_ok n Hn) (conj (fA_ok n Hn) (fAc_ok n Hn)))). Qed.
Print Assumptions C80_operators.

(* for every number of points rho() is less than the modulus of an eigenvalue *)
Theorem C81_spectral_radius_refuted : forall n, (2 <= n < 2 ^ 31)%Z -> exists lam u, (forall i, (0 <= i < n)%Z -> laplace n u i = lam * u i) /\ u 0%Z = 1 /\ f_rho (K := Rnum) n cos < Rabs lam.
Proof. exact rho_refuted. Qed.
Print Assumptions C81_spectral_radius_refuted.
(* missing: 10 *)
Theorem C81_spectral_radius_partial : forall n, (2 <= n < 2 ^ 31)%Z -> forall x m, (forall i, (0 <= i < n)%Z -> Rabs (x i) <= m) ->
  forall i, (0 <= i < n)%Z -> Rabs (laplace n x i) <= (f_rho (K := Rnum) n cos + 10) * m.
Proof. exact rho_partial. Qed.
Print Assumptions C81_spectral_radius_partial.

Theorem C82_kpp_rhs : forall n, (2 <= n)%Z -> forall x y, exists r, fk_rhs (K := Rnum) n x y = Ok r /\
  (forall i, (0 <= i < n)%Z -> r i = 2 / 1000 / (1 / IZR (n - 1)) ^ 2 * diffusion n x i + Rmax 0 (x i * (1 - x i) / 2)) /\ forall i, (i < 0 \/ n <= i)%Z -> r i = y i.
Proof. exact fk_rhs_spec. Qed.
Print Assumptions C82_kpp_rhs.
Theorem C82_lipschitz : forall n, (2 <= n)%Z -> forall x1 x2 y1 y2 r1 r2 m, fk_rhs (K := Rnum) n x1 y1 = Ok r1 -> fk_rhs (K := Rnum) n x2 y2 = Ok r2 ->
  (forall i, (0 <= i < n)%Z -> Rabs (x1 i - x2 i) <= m) -> forall i, (0 <= i < n)%Z -> Rabs (r1 i - r2 i) <= fk_rho (K := Rnum) n * m.
Proof. exact fk_lipschitz. Qed.
Print Assumptions C82_lipschitz.
Theorem C82_inward : forall n, (2 <= n)%Z -> forall x y r, fk_rhs (K := Rnum) n x y = Ok r -> (forall i, (0 <= i < n)%Z -> 0 <= x i <= 1) ->
  forall i, (0 <= i < n)%Z -> (x i = 0 -> 0 <= r i) /\ (x i = 1 -> r i <= 0).
Proof. exact fk_invariant. Qed.
Print Assumptions C82_inward.
Example C82_case : exists x : Z -> R, (forall i, (0 <= i < 2)%Z -> 0 <= x i <= 1) /\ x 0%Z = 0 /\ x 1%Z = 1.
Proof. exists (fun i => if (i =? 0)%Z then 0 else 1). split; [intros i _; destruct (i =? 0)%Z; lra|split; reflexivity]. Qed.

Theorem C83_distance_refuted : exists n x y, (1 <= n)%Z /\ l_normdiff (K := Rnum) n x y = Ok 0 /\ sqrt (rsum 0 (n - 1) (fun i => (x i - y i) ^ 2)) = 1.
Proof. exact normdiff_refuted. Qed.
Print Assumptions C83_distance_refuted.
(* missing: all elements but the last *)
Theorem C83_last_element_partial : forall n x y, (1 <= n)%Z -> l_normdiff (K := Rnum) n x y = Ok (Rabs (x (n - 1)%Z - y (n - 1)%Z)).
Proof. exact normdiff_last. Qed.
Print Assumptions C83_last_element_partial.
