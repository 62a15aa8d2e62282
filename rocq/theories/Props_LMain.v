(* C103: the main program of the Rock4-L test, Rock4-L/test/main.cpp. *)
From Coq Require Import Reals Lra Lia List.
From Verif Require Import Base HessModel SdirkSpec LaplSpec TestModel TestProofs LMainModel LMainProofs.
Import ListNotations.
Open Scope R_scope.

(* both integrators are given the discrete Laplacian with n points on [0,1], whatever the memory contains *)
Theorem C103_same_problem : forall n, (2 <= n)%Z -> forall b0 y res s o : vec Rnum, exists r r',
  fradau5_rhs (K := Rnum) n (IZR n) b0 y res = Ok r /\ f_L (K := Rnum) n y s 1 0 o = Ok r' /\ veq n r (laplace n y) /\ veq n r' (laplace n y).
Proof. exact same_problem. Qed.
Print Assumptions C103_same_problem.

(* and both start from the front: 0.9999999 on the elements 0..n/2, zero on the others *)
Theorem C103_front : forall n, (2 <= n)%Z -> forall y : vec Rnum, exists r, fradau5_init (K := Rnum) n y = Ok r /\
  forall i, (0 <= i < n)%Z -> r i = if (i <=? n / 2)%Z then 9999999 / 10 ^ 7 else 0.
Proof. exact init_ok. Qed.
Print Assumptions C103_front.

(* The search keeps the first tolerance 10^-8 2^m with which Radau5 does not throw, and its result as reference; row l has the
   step Tinteg/(2 1.25^(l+1)) and the difference of the LAST elements of the two results. *)
Theorem C103_rows : forall n, (2 <= n)%Z ->
  forall rad, (forall a r x y, veq n x y -> agree (n0 := n) (rad a r x) (rad a r y)) ->
  forall rock, (forall d x y, veq n x y -> agree (n0 := n) (rock d x) (rock d y)) ->
  forall (w : R -> vec Rnum) (z : vec Rnum) m k fuel junk T y yR, (m < fuel)%nat ->
  (forall j, (j < m)%nat -> exists s, rad (/ 10 ^ 8 * 2 ^ j) (/ 10 ^ 8 * 2 ^ j) (front n) = Throw s) ->
  rad (/ 10 ^ 8 * 2 ^ m) (/ 10 ^ 8 * 2 ^ m) (front n) = Ok z -> (forall d, rock d (front n) = Ok (w d)) ->
  exists r, l_main (K := Rnum) n rad rock fuel junk T k y yR = Ok r /\ Datatypes.length r = k /\ forall l, (l < k)%nat ->
    nth l r (0, 0) = (T / 2 / (5 / 4) ^ S l, Rabs (w (T / 2 / (5 / 4) ^ S l) (n - 1)%Z - z (n - 1)%Z)).
Proof. exact main_ok. Qed.
Print Assumptions C103_rows.

(* when Radau5 throws with all these tolerances the loop does not end *)
Theorem C103_endless : forall n, (2 <= n)%Z ->
  forall rad, (forall a r x y, veq n x y -> agree (n0 := n) (rad a r x) (rad a r y)) ->
  forall rock fuel junk T k y yR, (forall j, exists s, rad (/ 10 ^ 8 * 2 ^ j) (/ 10 ^ 8 * 2 ^ j) (front n) = Throw s) ->
  l_main (K := Rnum) n rad rock fuel junk T k y yR = Diverge.
Proof. exact main_endless. Qed.
Print Assumptions C103_endless.

(* the numbers written are not distances: all zero with results as far from each other as one likes *)
Theorem C103_distance_refuted : forall n, (2 <= n)%Z -> forall M k T y yR, exists rad rock (z u : vec Rnum) r,
  (forall a b x, rad a b x = Ok z) /\ (forall d x, rock d x = Ok u) /\ M <= Rabs (u 0%Z - z 0%Z) /\
  l_main (K := Rnum) n rad rock 1 (fun _ => y) T k y yR = Ok r /\ Datatypes.length r = k /\ forall l, (l < k)%nat -> snd (nth l r (0, 0)) = 0.
Proof. exact distance_zero. Qed.
Print Assumptions C103_distance_refuted.

(* a case: Radau5 throws for the first two tolerances *)
Example C103_case : exists r, l_main (K := Rnum) 5 (fun a _ x => if Rlt_dec a (/ 10 ^ 8 * 4) then Throw "too many iterations" else Ok x) (fun d x => Ok (fun i => x i + d))
    7 (fun _ _ => 42) (1 / 2) 2 (fun _ => 1) (fun _ => 3) = Ok r /\ Datatypes.length r = 2%nat /\
  nth 0 r (0, 0) = (1 / 5, 1 / 5) /\ nth 1 r (0, 0) = (4 / 25, 4 / 25).
Proof.
  destruct (main_ok 5 ltac:(lia) (fun a _ x => if Rlt_dec a (/ 10 ^ 8 * 4) then Throw "too many iterations" else Ok x)) with
    (rock := fun (d : R) (x : vec Rnum) => Ok (A := vec Rnum) (fun i => x i + d)) (w := fun (d : R) i => front 5 i + d) (z := front 5) (m := 2%nat) (k := 2%nat) (fuel := 7%nat)
    (junk := fun (_ : nat) (_ : Z) => 42) (T := 1 / 2) (y := fun _ : Z => 1) (yR := fun _ : Z => 3) as (r & E & L & G).
  - intros a r x y H. destruct (Rlt_dec a (/ 10 ^ 8 * 4)); [exact I|exact H].
  - intros d x y H i Hi. cbn. now rewrite (H i Hi).
  - lia.
  - intros j Hj. unfold fails. destruct (Rlt_dec (/ 10 ^ 8 * 2 ^ j) (/ 10 ^ 8 * 4)) as [|F]; [eexists; reflexivity|]. exfalso. apply F.
    apply Rmult_lt_compat_l; [apply Rinv_0_lt_compat; lra|]. destruct j as [|[|j]]; [simpl; lra|simpl; lra|lia].
  - destruct (Rlt_dec (/ 10 ^ 8 * 2 ^ 2) (/ 10 ^ 8 * 4)) as [F|]; [exfalso; simpl in F; lra|reflexivity].
  - reflexivity.
  - exists r. split; [exact E|]. split; [exact L|].
    rewrite (G 0%nat), (G 1%nat) by lia. split; f_equal; try (simpl; field).
    + match goal with |- Rabs ?e = _ => replace e with (1 / 5) by (simpl; field) end. apply Rabs_right; lra.
    + match goal with |- Rabs ?e = _ => replace e with (4 / 25) by (simpl; field) end. apply Rabs_right; lra.
Qed.
