(* Properties C40 to C42 with the tables of the headers as printed, and C84: stability. *)
From Coq Require Import Reals Lra Lia List.
From Verif Require Import Base HessModel Spec SdirkModel SdirkSpec SdirkTop SdirkTabSpec SdirkTab SdirkStab.
Import ListNotations.
Open Scope R_scope.

(* the five methods; w: what the elements above the diagonal contain *)
Theorem C40_tabulated_steps : forall w RK, In RK [EulerImp w; CrN w; RKRS w; RKMethod1 w; RKMethod2 w] ->
  forall n dt (op A : vec Rnum -> vec Rnum), (0 <= n)%Z -> linear_op n A -> inverts n (dt * m_A RK 0%Z 0%Z) A op ->
  forall k dloc Zused aloc zc0 (m : smem (K := Rnum)),
  wp (bind (construct RK n dloc Zused aloc zc0) (fun o => run_linear RK n false op k (o, m)))
     (fun x => rk_steps n (m_s RK + 1) (border_a (m_A RK) (m_S RK)) (border_b (m_s RK) (m_A RK) (m_S RK) (m_D RK)) dt A k (io m) (io (snd x))).
Proof. exact tabulated_linear. Qed.
Print Assumptions C40_tabulated_steps.
(* u' = -2u, dt = 1/10, implicit Euler *)
Example C40_tabulated_case : inverts 1 (1 / 10 * m_A (EulerImp (K := Rnum) 0) 0%Z 0%Z) (fun x i => -2 * x i) (fun w i => w i * (5 / 6)) /\
  linear_op 1 (fun x i => -2 * x i).
Proof.
  split; [|split; [intros x y E i Hi; rewrite (E i Hi); reflexivity|intros a b x y i Hi; lra]].
  split; [intros w i Hi|intros w x E i Hi; rewrite (E i Hi)]; cbn; unfold Rlit; cbn; lra.
Qed.
Theorem C41_tabulated_steps : forall w RK, In RK [EulerImp w; CrN w; RKRS w; RKMethod1 w; RKMethod2 w] ->
  forall n dt (op A : vec Rnum -> vec Rnum), (0 <= n)%Z -> linear_op n A -> inverts n (dt * m_A RK 0%Z 0%Z) A op ->
  forall phi k dloc Zused aloc zc0 (m : smem (K := Rnum)),
  wp (bind (construct RK n dloc Zused aloc zc0) (fun o => run_affine RK n dt true op phi k (o, m)))
     (fun x => rk_steps n (m_s RK + 1) (border_a (m_A RK) (m_S RK)) (border_b (m_s RK) (m_A RK) (m_S RK) (m_D RK)) dt (fun u p => A u p + phi p) k (io m) (io (snd x))).
Proof. exact tabulated_affine. Qed.
Print Assumptions C41_tabulated_steps.
Theorem C41_tabulated_equilibria : forall w RK, In RK [EulerImp w; CrN w; RKRS w; RKMethod1 w; RKMethod2 w] ->
  forall n dt (op A : vec Rnum -> vec Rnum), (0 <= n)%Z -> linear_op n A -> inverts n (dt * m_A RK 0%Z 0%Z) A op ->
  forall phi k dloc Zused aloc zc0 (m : smem (K := Rnum)), veq n (fun p => A (io m) p + phi p) (fun _ => 0) ->
  wp (bind (construct RK n dloc Zused aloc zc0) (fun o => run_affine RK n dt true op phi k (o, m))) (fun x => veq n (io (snd x)) (io m)).
Proof. exact tabulated_equilibria. Qed.
Print Assumptions C41_tabulated_equilibria.

(* the tableau of C40_tabulated_steps: its first stage and first weight are below 1e-13; order 1, 2, 4, 4 up to 1e-13 *)
Theorem C42_tabulated_border : forall w RK, In RK [EulerImp w; CrN w; RKRS w; RKMethod1 w; RKMethod2 w] ->
  (forall i, (0 <= i < m_s RK + 1)%Z -> Rabs (border_a (m_A RK) (m_S RK) i 0) <= tiny) /\ Rabs (border_b (m_s RK) (m_A RK) (m_S RK) (m_D RK) 0) <= tiny.
Proof. exact tabulated_border. Qed.
Print Assumptions C42_tabulated_border.
Theorem C42_tabulated_order : forall w RK p, In (RK, p) [(EulerImp w, 1%nat); (RKRS w, 2%nat); (RKMethod1 w, 4%nat); (RKMethod2 w, 4%nat)] ->
  has_order (m_s RK + 1) (border_a (m_A RK) (m_S RK)) (border_b (m_s RK) (m_A RK) (m_S RK) (m_D RK)) tiny p.
Proof. exact tabulated_order. Qed.
Print Assumptions C42_tabulated_order.

(* the component along every eigenvector with dt*Re(lambda) <= 0 does not grow *)
Theorem C84_A_stable : forall w RK, In RK [EulerImp w; CrN w; RKRS w; RKMethod1 w; RKMethod2 w] ->
  forall n dt (op A : vec Rnum -> vec Rnum), (0 <= n)%Z -> linear_op n A -> inverts n (dt * m_A RK 0%Z 0%Z) A op ->
  forall lr li a b, left_eigen_op n A lr li a b -> dt * a <= 0 ->
  forall k dloc Zused aloc zc0 (m : smem (K := Rnum)),
  wp (bind (construct RK n dloc Zused aloc zc0) (fun o => run_linear RK n false op k (o, m)))
     (fun x => component0 n lr li (io (snd x)) <= component0 n lr li (io m)).
Proof. exact tabulated_stable. Qed.
Print Assumptions C84_A_stable.
(* two runs with the same source: the difference does not grow *)
Theorem C84_contractive : forall w RK, In RK [EulerImp w; CrN w; RKRS w; RKMethod1 w; RKMethod2 w] ->
  forall n dt (op A : vec Rnum -> vec Rnum), (0 <= n)%Z -> linear_op n A -> inverts n (dt * m_A RK 0%Z 0%Z) A op ->
  forall lr li a b, left_eigen_op n A lr li a b -> dt * a <= 0 ->
  forall phi k dloc Zused aloc zc0 (m : smem (K := Rnum)) dloc' Zused' aloc' zc0' (m' : smem (K := Rnum)),
  wp (bind (construct RK n dloc Zused aloc zc0) (fun o => run_affine RK n dt true op phi k (o, m)))
     (fun x => wp (bind (construct RK n dloc' Zused' aloc' zc0') (fun o => run_affine RK n dt true op phi k (o, m')))
       (fun y => component0 n lr li (fun p => io (snd x) p - io (snd y) p) <= component0 n lr li (fun p => io m p - io m' p))).
Proof. exact tabulated_contract. Qed.
Print Assumptions C84_contractive.
(* stiff components are damped: u1 = r*u0 up to 10/|dt*lambda|, r below 1e-13 *)
Theorem C84_stiff_damping : forall w RK, In RK [EulerImp w; CrN w; RKRS w; RKMethod1 w] -> exists r, - tiny <= r <= tiny /\
  forall n dt (op A : vec Rnum -> vec Rnum), (0 <= n)%Z -> linear_op n A -> inverts n (dt * m_A RK 0%Z 0%Z) A op ->
  forall lr li a b, left_eigen_op n A lr li a b -> dt * a <= 0 -> forall dloc Zused aloc zc0 (m : smem (K := Rnum)),
  wp (bind (construct RK n dloc Zused aloc zc0) (fun o => run_linear RK n false op 1 (o, m)))
     (fun x => dt ^ 2 * (a ^ 2 + b ^ 2) * component0 n lr li (fun p => io (snd x) p - r * io m p) <= 100 * component0 n lr li (io m)).
Proof. exact tabulated_damped. Qed.
Print Assumptions C84_stiff_damping.
(* RKMethod2 does not damp them: |dt*lambda| >= 100 *)
Theorem C84_crouzeix_not_damping : forall w n dt (op A : vec Rnum -> vec Rnum), (0 <= n)%Z -> linear_op n A ->
  inverts n (dt * m_A (RKMethod2 w) 0%Z 0%Z) A op ->
  forall lr li a b, left_eigen_op n A lr li a b -> dt * a <= 0 -> 10000 <= dt ^ 2 * (a ^ 2 + b ^ 2) -> forall dloc Zused aloc zc0 (m : smem (K := Rnum)),
  wp (bind (construct (RKMethod2 w) n dloc Zused aloc zc0) (fun o => run_linear (RKMethod2 w) n false op 1 (o, m)))
     (fun x => component0 n lr li (io m) / 4 <= component0 n lr li (io (snd x))).
Proof. exact crouzeix_quarter. Qed.
Print Assumptions C84_crouzeix_not_damping.
(* u' = -2u (C40_tabulated_case); x' = y, y' = -x has the eigenvalue i, left eigenvector (1, -i) *)
Example C84_case : left_eigen_op 1 (fun x i => -2 * x i) (fun _ => 1) (fun _ => 0) (-2) 0 /\ 1 / 10 * -2 <= 0.
Proof. split; [intros x; split; cbv -[Rplus Rmult Rminus Ropp IZR]; lra|lra]. Qed.
Example C84_rotation_case : let A (x : Z -> R) (i : Z) := if (i =? 0)%Z then x 1%Z else - x 0%Z in
  linear_op 2 A /\ left_eigen_op 2 A (fun i => if (i =? 0)%Z then 1 else 0) (fun i => if (i =? 0)%Z then 0 else -1) 0 1.
Proof.
  cbv zeta. split; [split|].
  - intros x y E i Hi. destruct (i =? 0)%Z; [apply E; lia|rewrite (E 0%Z) by lia; reflexivity].
  - intros a b x y i Hi. destruct (i =? 0)%Z; lra.
  - intros x; split; cbv -[Rplus Rmult Rminus Ropp IZR]; lra.
Qed.
