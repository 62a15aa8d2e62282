(* Properties C101, C102: the errors that SDIRKL/test/main.cpp writes decrease with the order of the method; they do not show
   whether the method covers the right time. *)
From Coq Require Import Reals Lra Lia List.
From Verif Require Import Base HessModel Spec SdirkModel SdirkSpec SdirkTabSpec SdirkTop ConvSpec SdirkConvTop LaplModel LaplSpec LaplTop Gauss TestModel SdirkMainModel SdirkMainProofs.
Import ListNotations.
Open Scope R_scope.

(* row l: the step Tinteg/2^l and the distance between x and sol; any number n of points, any number k of rows; the four
   methods the program can be compiled with, except CrN; 10^-12: the tables are rounded *)
Theorem C101_errors : forall w RK p, In (RK, p) [(EulerImp w, 1%nat); (RKRS w, 2%nat); (RKMethod1 w, 4%nat); (RKMethod2 w, 4%nat)] ->
  forall Fa (dgssv : slu Rnum -> option Fa) dgstrs n, (2 <= n)%Z -> superlu n dgssv dgstrs -> forall Tinteg beta, 0 < Tinteg -> forall J k sol x force,
  let lam := 2 * (1 - cos (PI * 25 / IZR (n - 1))) * IZR (n - 1) ^ 2 in
  wp (st_main RK dgssv dgstrs n Tinteg beta J k sol x force) (fun rows => Datatypes.length rows = k /\
    forall l, (l < k)%nat -> fst (nth l rows (0, 0)) = Tinteg / 2 ^ l /\
      0 <= snd (nth l rows (0, 0)) <= IZR n * Tinteg * (1 / 10 ^ 12 + 4 * (Tinteg / 2 ^ l * lam) ^ p) * Rabs (beta - lam)).
Proof. exact main_errors. Qed.
Print Assumptions C101_errors.
(* the eigenvalue is bounded, whatever the number of points *)
Theorem C101_eigenvalue : forall n, (2 <= n)%Z -> 0 < 2 * (1 - cos (PI * 25 / IZR (n - 1))) * IZR (n - 1) ^ 2 <= 625 * PI ^ 2.
Proof. exact ev_bounds. Qed.
Print Assumptions C101_eigenvalue.
(* the errors become as small as the rounding of the tables permits *)
Theorem C101_limit : forall w RK p, In (RK, p) [(EulerImp w, 1%nat); (RKRS w, 2%nat); (RKMethod1 w, 4%nat); (RKMethod2 w, 4%nat)] ->
  forall Fa (dgssv : slu Rnum -> option Fa) dgstrs n, (2 <= n)%Z -> superlu n dgssv dgstrs -> forall Tinteg beta, 0 < Tinteg -> forall eps, 0 < eps ->
  let lam := 2 * (1 - cos (PI * 25 / IZR (n - 1))) * IZR (n - 1) ^ 2 in
  exists L, forall J k sol x force,
  wp (st_main RK dgssv dgstrs n Tinteg beta J k sol x force) (fun rows =>
    forall l, (L <= l < k)%nat -> snd (nth l rows (0, 0)) <= IZR n * Tinteg / 10 ^ 12 * Rabs (beta - lam) + eps).
Proof. exact main_limit. Qed.
Print Assumptions C101_limit.
(* what is written is the distance of the sums of moduli *)
Theorem C101_distance : forall n x y, (1 <= n)%Z -> st_normdiff (K := Rnum) n x y = Ok (rsum 0 (n - 1) (fun i => Rabs (x i - y i))).
Proof. exact st_normdiff_ok. Qed.
Print Assumptions C101_distance.

(* with the constants of the program, the exact solutions at all times after 0.005 are the same up to 10^-9 *)
Theorem C102_solution_stationary : forall beta t t' e e', 1 / 200 <= t -> 1 / 200 <= t' -> 0 <= beta <= 1 -> exists s s' d,
  ex_sol (K := Rnum) cos exp atan 1000 t beta e = Ok s /\ ex_sol (K := Rnum) cos exp atan 1000 t' beta e' = Ok s' /\ st_normdiff (K := Rnum) 1000 s s' = Ok d /\ d <= 1 / 10 ^ 9.
Proof. exact blind. Qed.
Print Assumptions C102_solution_stationary.
(* compiled with Crank-Nicolson, the program shows convergence with order one; that method covers half the time, and does not
   converge for u' = -u *)
Theorem C102_wrong_time_refuted : forall w,
  (forall Fa (dgssv : slu Rnum -> option Fa) dgstrs, superlu 1000 dgssv dgstrs -> forall beta, 0 <= beta <= 1 -> forall J k sol x force,
    let lam := 2 * (1 - cos (PI * 25 / IZR (1000 - 1))) * IZR (1000 - 1) ^ 2 in
    wp (st_main (CrN w) dgssv dgstrs 1000 (1 / 100) beta J k sol x force) (fun rows => Datatypes.length rows = k /\
      forall l, (l < k)%nat -> snd (nth l rows (0, 0)) <= 1000 * (1 / 100) * (1 / 10 ^ 12 + 4 * (1 / 100 / 2 ^ l * lam) ^ 1) * Rabs (beta - lam) + 1 / 10 ^ 9)) /\
  exists (A : vec Rnum -> vec Rnum) (op : nat -> vec Rnum -> vec Rnum) (u : R -> vec Rnum),
    linear_op 1 A /\ left_eigen_op 1 A (fun _ => 1) (fun _ => 0) (-1) 0 /\ solution 1 A (fun _ => 0) u /\
    forall w k dloc Zused aloc zc0 (m : smem (K := Rnum)), (100 <= k)%nat -> veq 1 (io m) (u 0) ->
    inverts 1 (1 / INR k * m_A (CrN w) 0%Z 0%Z) A (op k) /\
    wp (bind (construct (CrN w) 1 dloc Zused aloc zc0) (fun o => run_linear (CrN w) 1 false (op k) k (o, m)))
       (fun x => Rabs (io (snd x) 0%Z - u 1 0%Z) >= 9 / 50).
Proof. exact (fun w => conj (crn_main w) crn_diverges). Qed.
Print Assumptions C102_wrong_time_refuted.
(* Gaussian elimination fulfils the contract of SuperLU for every number of points *)
Theorem C101_solver_exists : forall n, (0 <= n)%Z -> superlu n gssv gstrs.
Proof. exact superlu_gauss. Qed.
Print Assumptions C101_solver_exists.

(* two points, Cramer's rule in the place of SuperLU, the other constants and the method of the program *)
Example C101_case : superlu 2 (fun A => Some (dense A 0 0, dense A 0 1, dense A 1 0, dense A 1 1)) cramer /\
  forall J sol x force, wp (st_main (RKMethod2 (K := Rnum) 0) (fun A => Some (dense A 0 0, dense A 0 1, dense A 1 0, dense A 1 1)) cramer 2 (1 / 100) 1 J 8 sol x force)
    (fun rows => Datatypes.length rows = 8%nat /\ snd (nth 7 rows (0, 0)) <= 1 / 10 ^ 10).
Proof.
  split; [exact superlu_2|]. intros J sol x force.
  eapply wp_mono; [apply (C101_errors 0 (RKMethod2 0) 4 ltac:(cbn; tauto) _ _ _ 2 ltac:(lia) superlu_2 (1 / 100) 1 ltac:(lra))|]. cbv beta zeta. intros rows [L H]. split; [exact L|].
  destruct (H 7%nat ltac:(lia)) as [_ [_ B]]. eapply Rle_trans; [exact B|].
  replace (cos (PI * 25 / IZR (2 - 1))) with (-1).
  - cbn [Z.sub Z.add Z.opp Z.pos_sub Pos.pred_double pow]. rewrite Rabs_left by lra. lra.
  - symmetry. replace (PI * 25 / IZR (2 - 1)) with (PI + 2 * INR 12 * PI) by (cbn [Z.sub Z.add Z.opp Z.pos_sub Pos.pred_double INR]; field). rewrite cos_period. apply cos_PI.
Qed.
