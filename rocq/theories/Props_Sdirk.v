(* Properties C40 to C43 (SDIRKL).  dloc, Zused, aloc, zc0: what the uninitialised members of the
   object contain; m: the caller's vector and the work array. *)
From Coq Require Import Reals Lra Lia.
From Verif Require Import Base HessModel Spec SdirkModel SdirkSpec SdirkTop.
Open Scope R_scope.

(* construction and any number of steps; no undefined behaviour, no exception *)
Theorem C40_linear_steps : forall (RK : method Rnum) n dt (op A : vec Rnum -> vec Rnum) b, (0 <= n)%Z -> linear_op n A ->
  fits (m_s RK) (m_A RK) (m_S RK) (m_D RK) b -> inverts n (dt * m_A RK 0%Z 0%Z) A op ->
  forall k dloc Zused aloc zc0 (m : smem (K := Rnum)),
  wp (bind (construct RK n dloc Zused aloc zc0) (fun o => run_linear RK n false op k (o, m)))
     (fun x => rk_steps n (m_s RK) (m_A RK) b dt A k (io m) (io (snd x))).
Proof. exact linear_runs. Qed.
Print Assumptions C40_linear_steps.
(* a two-stage method, u' = -2u *)
Example C40_case : let a i j := if (i =? j)%Z then 1 / 4 else 1 / 2 in let D (i : Z) := if (i =? 0)%Z then -2 else 2 in
  fits 2 a (fun i => if (i =? 0)%Z then 1 / 4 else 3 / 4) D (fun _ => 1 / 2) /\ linear_op 1 (fun x i => -2 * x i) /\
  inverts 1 (1 / 10 * (1 / 4)) (fun x i => -2 * x i) (fun w i => w i * (20 / 21)).
Proof.
  cbv zeta. split; [|split].
  - split; [lia|split; [cbn; lra|split; [intros i Hi; cbn; rewrite Z.eqb_refl; reflexivity|split]]];
    intros i Hi; assert (i = 0 \/ i = 1)%Z as [-> | ->] by lia; cbv -[Rplus Rmult Rdiv IZR Ropp]; lra.
  - split; [intros x y E i Hi; rewrite (E i Hi); reflexivity|intros a b x y i Hi; lra].
  - split; [intros w i Hi; lra|intros w x E i Hi; rewrite (E i Hi); lra].
Qed.

Theorem C41_affine_steps : forall (RK : method Rnum) n dt (op A : vec Rnum -> vec Rnum) b, (0 <= n)%Z -> linear_op n A ->
  fits (m_s RK) (m_A RK) (m_S RK) (m_D RK) b -> inverts n (dt * m_A RK 0%Z 0%Z) A op ->
  forall phi k dloc Zused aloc zc0 (m : smem (K := Rnum)),
  wp (bind (construct RK n dloc Zused aloc zc0) (fun o => run_affine RK n dt true op phi k (o, m)))
     (fun x => rk_steps n (m_s RK) (m_A RK) b dt (fun u p => A u p + phi p) k (io m) (io (snd x))).
Proof. exact affine_runs. Qed.
Print Assumptions C41_affine_steps.
Theorem C41_equilibria : forall (RK : method Rnum) n dt (op A : vec Rnum -> vec Rnum) b, (0 <= n)%Z -> linear_op n A ->
  fits (m_s RK) (m_A RK) (m_S RK) (m_D RK) b -> inverts n (dt * m_A RK 0%Z 0%Z) A op ->
  forall phi k dloc Zused aloc zc0 (m : smem (K := Rnum)), veq n (fun p => A (io m) p + phi p) (fun _ => 0) ->
  wp (bind (construct RK n dloc Zused aloc zc0) (fun o => run_affine RK n dt true op phi k (o, m))) (fun x => veq n (io (snd x)) (io m)).
Proof. exact keeps_equilibria. Qed.
Print Assumptions C41_equilibria.
(* hypotheses: C40_case; an equilibrium of u' = -2u + 1 *)
Example C41_case : veq 1 (fun p => -2 * (fun _ => 1 / 2) p + 1) (fun _ => 0).
Proof. intros p _. lra. Qed.

(* w: what the elements above the diagonal contain *)
Theorem C42_methods_partial : forall w, method_ok (EulerImp w) 1 /\ method_ok (RKRS w) 2 /\ method_ok (RKMethod2 w) 4 /\ method_ok (RKMethod1 w) 4.
Proof. exact (fun w => conj (euler_ok w) (conj (rkrs_ok w) (conj (rk2_ok w) (rk1_ok w)))). Qed.
Print Assumptions C42_methods_partial.
Theorem C42_order_sharp : forall w, ~ method_ok (EulerImp w) 2 /\ ~ method_ok (RKRS w) 3.
Proof. exact (fun w => conj (euler_not2 w) (rkrs_not3 w)). Qed.
Print Assumptions C42_order_sharp.
(* Crank-Nicolson is not consistent ... *)
Theorem C42_crank_nicolson_refuted : forall w, ~ method_ok (CrN w) 1.
Proof. exact crn_not_consistent. Qed.
Print Assumptions C42_crank_nicolson_refuted.
(* ... on u' = phi, the step of length dt advances by dt/2 *)
Theorem C42_crank_nicolson_half_step : forall w n dt phi dloc Zused aloc zc0 (m : smem (K := Rnum)), (0 <= n)%Z ->
  wp (bind (construct (CrN w) n dloc Zused aloc zc0) (fun o => run_affine (CrN w) n dt true (fun x => x) phi 1 (o, m)))
     (fun x => veq n (io (snd x)) (fun p => io m p + dt / 2 * phi p)).
Proof. exact crn_constant. Qed.
Print Assumptions C42_crank_nicolson_half_step.

Theorem C43_wrong_variant : forall (K : num) (RK : method K) n dt op phi o (m : smem (K := K)),
  (exists s, step_linear RK n true op o m = Ok (o, m, Some s)) /\ (exists s, step_affine RK n dt false op phi o m = Ok (o, m, Some s)).
Proof. exact wrong_variant. Qed.
Print Assumptions C43_wrong_variant.
