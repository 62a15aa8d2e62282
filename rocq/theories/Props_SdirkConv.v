(* Property C95: the runs of Sdirkl converge to the solution of the differential equation with the order of the method. *)
From Coq Require Import Reals Lra Lia List.
From Verif Require Import Base HessModel Spec SdirkModel SdirkSpec SdirkTabSpec SdirkTop ConvSpec Conv SdirkConvTop.
Import ListNotations.
Open Scope R_scope.

(* the component along every eigenvector of A with eigenvalue a+ib, a <= 0; k steps of length dt; tables as printed *)
Theorem C95_source : forall w RK p, In (RK, p) [(EulerImp w, 1%nat); (RKRS w, 2%nat); (RKMethod1 w, 4%nat); (RKMethod2 w, 4%nat)] ->
  forall n dt (op A : vec Rnum -> vec Rnum), (0 <= n)%Z -> linear_op n A -> inverts n (dt * m_A RK 0%Z 0%Z) A op ->
  forall lr li a b, left_eigen_op n A lr li a b -> 0 < dt -> a <= 0 ->
  forall phi u, solution n A phi u ->
  forall k dloc Zused aloc zc0 (m : smem (K := Rnum)), veq n (io m) (u 0) ->
  wp (bind (construct RK n dloc Zused aloc zc0) (fun o => run_affine RK n dt true op phi k (o, m)))
     (fun x => modulus n lr li (fun q => io (snd x) q - u (INR k * dt) q) <=
        INR k * dt * (1 / 10 ^ 12 + 4 * (dt * sqrt (a ^ 2 + b ^ 2)) ^ p) * modulus n lr li (fun q => A (u 0) q + phi q)).
Proof. exact sdirk_converges_affine. Qed.
Print Assumptions C95_source.
Theorem C95_no_source : forall w RK p, In (RK, p) [(EulerImp w, 1%nat); (RKRS w, 2%nat); (RKMethod1 w, 4%nat); (RKMethod2 w, 4%nat)] ->
  forall n dt (op A : vec Rnum -> vec Rnum), (0 <= n)%Z -> linear_op n A -> inverts n (dt * m_A RK 0%Z 0%Z) A op ->
  forall lr li a b, left_eigen_op n A lr li a b -> 0 < dt -> a <= 0 ->
  forall u, solution n A (fun _ => 0) u ->
  forall k dloc Zused aloc zc0 (m : smem (K := Rnum)), veq n (io m) (u 0) ->
  wp (bind (construct RK n dloc Zused aloc zc0) (fun o => run_linear RK n false op k (o, m)))
     (fun x => modulus n lr li (fun q => io (snd x) q - u (INR k * dt) q) <=
        INR k * dt * (1 / 10 ^ 12 + 4 * (dt * sqrt (a ^ 2 + b ^ 2)) ^ p) * modulus n lr li (A (u 0))).
Proof. exact sdirk_converges_linear. Qed.
Print Assumptions C95_no_source.
(* Crank-Nicolson converges to the solution at half the time ... *)
Theorem C95_crank_nicolson_half_time : forall w n dt (op A : vec Rnum -> vec Rnum), (0 <= n)%Z -> linear_op n A -> inverts n (dt * m_A (CrN w) 0%Z 0%Z) A op ->
  forall lr li a b, left_eigen_op n A lr li a b -> 0 < dt -> a <= 0 ->
  forall u, solution n A (fun _ => 0) u ->
  forall k dloc Zused aloc zc0 (m : smem (K := Rnum)), veq n (io m) (u 0) ->
  wp (bind (construct (CrN w) n dloc Zused aloc zc0) (fun o => run_linear (CrN w) n false op k (o, m)))
     (fun x => modulus n lr li (fun q => io (snd x) q - u (INR k * (dt / 2)) q) <=
        INR k * dt * (1 / 10 ^ 12 + 4 * (dt * sqrt (a ^ 2 + b ^ 2)) ^ 1) * modulus n lr li (A (u 0))).
Proof. exact crn_converges_half. Qed.
Print Assumptions C95_crank_nicolson_half_time.
(* ... and not to the solution: u' = -u from 0 to 1, with any number k >= 100 of steps, is wrong by more than 0.18 *)
Theorem C95_crank_nicolson_refuted : exists (A : vec Rnum -> vec Rnum) (op : nat -> vec Rnum -> vec Rnum) (u : R -> vec Rnum),
  linear_op 1 A /\ left_eigen_op 1 A (fun _ => 1) (fun _ => 0) (-1) 0 /\ solution 1 A (fun _ => 0) u /\
  forall w k dloc Zused aloc zc0 (m : smem (K := Rnum)), (100 <= k)%nat -> veq 1 (io m) (u 0) ->
  inverts 1 (1 / INR k * m_A (CrN w) 0%Z 0%Z) A (op k) /\
  wp (bind (construct (CrN w) 1 dloc Zused aloc zc0) (fun o => run_linear (CrN w) 1 false (op k) k (o, m)))
     (fun x => Rabs (io (snd x) 0%Z - u 1 0%Z) >= 9 / 50).
Proof. exact crn_diverges. Qed.
Print Assumptions C95_crank_nicolson_refuted.

(* u' = -u, u = exp(-t), implicit Euler with step 1/10 *)
Example C95_case : linear_op 1 neg /\ left_eigen_op 1 neg (fun _ => 1) (fun _ => 0) (-1) 0 /\ solution 1 neg (fun _ => 0) eu /\
  inverts 1 (1 / 10 * m_A (EulerImp (K := Rnum) 0) 0%Z 0%Z) neg (fun w i => w i / (1 + 1 / 10 * m_A (EulerImp (K := Rnum) 0) 0%Z 0%Z)).
Proof.
  split; [apply neg_linear|]. split; [apply neg_eigen|]. split; [apply neg_solution|]. apply neg_inverts. cbn. unfold Rlit. cbn. lra.
Qed.
(* x' = y, y' = -x: eigenvalue i *)
Example C95_rotation_case : let A (x : Z -> R) (i : Z) := if (i =? 0)%Z then x 1%Z else - x 0%Z in
  solution 2 A (fun _ => 0) (fun t i => if (i =? 0)%Z then sin t else cos t) /\
  left_eigen_op 2 A (fun i => if (i =? 0)%Z then 1 else 0) (fun i => if (i =? 0)%Z then 0 else -1) 0 1.
Proof.
  cbv zeta. split.
  - intros t q Hq. assert (q = 0 \/ q = 1)%Z as [-> | ->] by lia; cbn.
    + apply (dl_eq _ _ (cos t)); [apply derivable_pt_lim_sin|ring].
    + apply (dl_eq _ _ (- sin t)); [apply derivable_pt_lim_cos|ring].
  - intros x; split; cbv -[Rplus Rmult Rminus Ropp IZR]; lra.
Qed.
