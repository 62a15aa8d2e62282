(* Property C12 (finite-difference Jacobian). *)
From Coq Require Import Reals.
From Verif Require Import Base Spec JacModel JacProofs.
Open Scope Z_scope.

(* every arithmetic, every right-hand side (with internal state and a call counter c) *)
Theorem C12_jacobian_restores_state : forall (K : num) (Sg : Type)
    (F : Sg -> K -> (Z -> K) -> Sg * (Z -> K)) n sh (uround : K) (c : Sg -> Z) s t y Fy J,
  1 <= n -> shape_ok sh ->
  (forall s t y, c (fst (F s t y)) = c s + 1) ->
  wp (jacobian F n sh uround s t y Fy J) (fun r => let '(s', y', _) := r in
    (forall i, y' i = y i) /\ c s' = c s + n).
Proof. exact jacobian_restores_lemma. Qed.
Print Assumptions C12_jacobian_restores_state.

Theorem C12_jacobian_exact_on_affine : forall (Sg : Type) (tick : Sg -> Sg) n sh (uround : R) A b s t y J,
  1 <= n -> shape_ok sh -> (0 < uround)%R ->
  wp (@jacobian Rnum Sg (affine_rhs n A b tick) n sh uround s t y (snd (affine_rhs n A b tick s t y)) J)
     (fun r => let '(_, y', J') := r in
       (forall i, y' i = y i) /\
       (forall i j, in_shape n sh i j -> sh_mat n sh J' i j = A i j) /\
       ((forall i j, in_full n i j -> ~ in_shape n sh i j -> A i j = 0%R) ->
        forall i j, in_full n i j -> sh_mat n sh J' i j = A i j)).
Proof. exact jacobian_affine. Qed.
Print Assumptions C12_jacobian_exact_on_affine.
Example C12_case : shape_ok (Band 1 1) /\ (0 < 1)%R /\
  (* executed with rationals, where nsqrt is the identity: still a difference quotient *)
  match @jacobian QNum Z (fun s t y => (s + 1, fun i => nadd (y i) (nmul (nlit 3 0) (y (i - 1))))) 3 (Band 1 1)
          (nlit 1 0) 0 (nlit 0 0) (fun i => nlit i 0) (fun i => nadd (nlit i 0) (nmul (nlit 3 0) (nlit (i - 1) 0))) (fun _ => nlit 9 0) with
  | Ok (s, y, J) => s = 3 /\ List.map J (zrange 1 11) = List.map (fun k => nlit k 0) (9 :: 1 :: 3 :: 9 :: 0 :: 1 :: 3 :: 9 :: 0 :: 1 :: 9 :: nil)
  | _ => False end.
Proof. split; [cbn; lia|]. split; [apply Rlt_0_1|]. vm_compute. auto. Qed.
