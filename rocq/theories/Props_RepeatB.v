(* C91, continued: Rock4, Rock4-L and SymplecticRK.  size components are numbered from 0. *)
From Coq Require Import ZArith Reals Lra Lia Bool List.
From Flocq Require Import Core BinarySingleNaN.
From Verif Require Import Base Spec HessModel VecFun F64 ExtReal Rock4Model Rock4Proofs Rock4Drive Rock4LModel Rock4Witness SympModel SympTables SympTop SympTabProofs RepeatSpec RepeatRock RepeatRockL RepeatSymp.
Open Scope Z_scope.

(* Rock4, in every arithmetic: two calls with the same arguments, tolerances and state of the user's
   object; the arrays of the two objects may be permuted and hold anything, mp and hlast too *)
Theorem C91_rock4 : forall (K : num) Sg (userF : Sg -> (Z -> K) -> Sg * (Z -> K)) (userrho : Sg -> Sg * K) toint RECF FPA FPB FPBE size (atol rtol tend : K) fuel
  (e e' : est (K := K) Sg) t0 h0 hl hl' m1 m1' m2 m2',
  (forall s v v', (forall i, 0 <= i < size -> v i = v' i) -> fst (userF s v) = fst (userF s v') /\ forall i, 0 <= i < size -> snd (userF s v) i = snd (userF s v') i) ->
  NoDup (ptrs Sg e) -> NoDup (ptrs Sg e') -> e_f e = e_f e' -> (forall i, 0 <= i < size -> e_H e (e_y e) i = e_H e' (e_y e') i) ->
  let call := rock4 toint (kernel userF RECF FPA FPB FPBE size atol rtol) (k_init userF) k_accept (r4_rho userrho) tend fuel in
  both (fun st st' => u_t st = u_t st' /\ (forall i, 0 <= i < size -> sol Sg st i = sol Sg st' i) /\ e_f (u_w st) = e_f (u_w st') /\
      u_h st = u_h st' /\ u_nsteps st = u_nsteps st' /\ u_nacc st = u_nacc st' /\ u_nrej st = u_nrej st' /\ u_stages st = u_stages st' /\ e_funccal (u_w st) = e_funccal (u_w st') /\
      u_hist st = u_hist st' /\ (u_nacc st <> 0 -> u_hlast st = u_hlast st'))
    (call e t0 h0 hl m1 m2) (call e' t0 h0 hl' m1' m2').
Proof. exact rock4_both. Qed.
Print Assumptions C91_rock4.
(* a new object, and one whose arrays were exchanged by an odd number of accepted steps *)
Example C91_case_rock4 : NoDup (ptrs Datatypes.unit zero_e) /\ NoDup (ptrs Datatypes.unit (k_accept (K := ExtR) zero_e)) /\ e_y zero_e <> e_y (k_accept (K := ExtR) zero_e) /\
  (forall s v v', (forall i, 0 <= i < 2 -> v i = v' i) -> fst (zeroF s v) = fst (zeroF s v') /\ forall i, 0 <= i < 2 -> snd (zeroF s v) i = snd (zeroF s v') i).
Proof.
  split; [unfold ptrs, zero_e; cbn; repeat constructor; cbn; intuition discriminate|].
  split; [unfold ptrs, zero_e; cbn; repeat constructor; cbn; intuition discriminate|]. split; [cbn; discriminate|]. intros s v v' _. split; reflexivity.
Qed.
(* without an accepted step, LastAcceptedTimeStep() is the step of the call before *)
Theorem C91_rock4_last_step_refuted : forall (K : num) W toint kern init accept rho (tend : K) fuel w t0 h0 m1 m2, (t0 <? tend)%num = false ->
  forall hl, exists st, rock4 (W := W) toint kern init accept rho tend fuel w t0 h0 hl m1 m2 = Ok st /\ u_hlast st = hl /\ u_nacc st = 0.
Proof. intros K W toint kern init accept rho tend fuel w t0 h0 m1 m2 H hl. eexists. unfold rock4, r4_start. destruct fuel; cbn [d_loop u_t]; rewrite H; repeat split; reflexivity. Qed.
Print Assumptions C91_rock4_last_step_refuted.
Example C91_case_last_step : ((Fin 2 : ExtR) <? (Fin 1 : ExtR))%num = false.
Proof. cbn. unfold Rltb. destruct (Rlt_dec 2 1); [lra|reflexivity]. Qed.

(* Rock4-L: the arrays k1, g0, g1, g2 hold anything, mp too *)
Theorem C91_rock4L_linear : forall (K : num) Sg (opL : Sg -> vec K -> vec K -> K -> K -> Sg * vec K) (opLc : Sg -> vec K -> vec K -> K -> K -> K -> Sg * vec K)
  toint RECF FPA FPB size y k1 g0 g1 g2 (tend rho : K) wrong fuel (e e' : lest (K := K) Sg) t0 h0 m1 m1' m2 m2',
  let same := fun r r' : Sg * vec K => fst r = fst r' /\ forall i, 0 <= i < size -> snd r i = snd r' i in
  let ag := fun v v' : vec K => forall i, 0 <= i < size -> v i = v' i in
  (forall s x x' y y' a b, ag x x' -> ag y y' -> same (opL s x y a b) (opL s x' y' a b)) ->
  (forall s x x' y y' a b c, ag x x' -> ag y y' -> same (opLc s x y a b c) (opLc s x' y' a b c)) ->
  l_f e = l_f e' -> ag (l_H e y) (l_H e' y) ->
  let call := rock4l toint (kernel1 opL opLc RECF FPA FPB y k1 g0 g1 g2) tend rho wrong fuel in
  both (fun st st' => v_t st = v_t st' /\ ag (l_H (v_w st) y) (l_H (v_w st') y) /\ l_f (v_w st) = l_f (v_w st') /\ v_stages st = v_stages st' /\
      l_funccal (v_w st) = l_funccal (v_w st') /\ l_nsteps (v_w st) = l_nsteps (v_w st') /\ v_hist st = v_hist st')
    (call (l_init e) t0 h0 m1 m2) (call (l_init e') t0 h0 m1' m2').
Proof. exact rock4l_linear. Qed.
Print Assumptions C91_rock4L_linear.
Theorem C91_rock4L_affine : forall (K : num) Sg (opL : Sg -> vec K -> vec K -> K -> K -> Sg * vec K) (opA : Sg -> vec K -> vec K -> K -> K -> vec K -> Sg * vec K) (opAc : Sg -> vec K -> vec K -> K -> K -> K -> vec K -> Sg * vec K)
  toint RECF FPA FPB size y b k1 g0 g1 g2 (tend rho : K) wrong fuel (e e' : lest (K := K) Sg) t0 h0 m1 m1' m2 m2',
  let same := fun r r' : Sg * vec K => fst r = fst r' /\ forall i, 0 <= i < size -> snd r i = snd r' i in
  let ag := fun v v' : vec K => forall i, 0 <= i < size -> v i = v' i in
  (forall s x x' y y' a b, ag x x' -> ag y y' -> same (opL s x y a b) (opL s x' y' a b)) ->
  (forall s x x' y y' a b g g', ag x x' -> ag y y' -> ag g g' -> same (opA s x y a b g) (opA s x' y' a b g')) ->
  (forall s x x' y y' a b c g g', ag x x' -> ag y y' -> ag g g' -> same (opAc s x y a b c g) (opAc s x' y' a b c g')) ->
  l_f e = l_f e' -> ag (l_H e y) (l_H e' y) -> ag (l_H e b) (l_H e' b) ->
  let call := rock4l toint (kernel2 opL opA opAc RECF FPA FPB y b k1 g0 g1 g2) tend rho wrong fuel in
  both (fun st st' => v_t st = v_t st' /\ ag (l_H (v_w st) y) (l_H (v_w st') y) /\ ag (l_H (v_w st) b) (l_H (v_w st') b) /\ l_f (v_w st) = l_f (v_w st') /\ v_stages st = v_stages st' /\
      l_funccal (v_w st) = l_funccal (v_w st') /\ l_nsteps (v_w st) = l_nsteps (v_w st') /\ v_hist st = v_hist st')
    (call (l_init e) t0 h0 m1 m2) (call (l_init e') t0 h0 m1' m2').
Proof. exact rock4l_affine. Qed.
Print Assumptions C91_rock4L_affine.
(* the operators of y' = y + b, counting their calls *)
Example C91_case_rock4L : let same := fun r r' : Z * vec Rnum => fst r = fst r' /\ forall i, 0 <= i < 2 -> snd r i = snd r' i in
  let ag := fun v v' : vec Rnum => forall i, 0 <= i < 2 -> v i = v' i in
  let opL := fun (s : Z) (x y : vec Rnum) (a b : R) => (s + 1, (fun i => a * x i + b * y i)%R : vec Rnum) in
  let opAc := fun (s : Z) (x y : vec Rnum) (a b c : R) (g : vec Rnum) => (s + 1, (fun i => a * (x i + g i) + b * x i + c * y i)%R : vec Rnum) in
  (forall s x x' y y' a b, ag x x' -> ag y y' -> same (opL s x y a b) (opL s x' y' a b)) /\
  (forall s x x' y y' a b c g g', ag x x' -> ag y y' -> ag g g' -> same (opAc s x y a b c g) (opAc s x' y' a b c g')).
Proof.
  split; [intros s x x' y y' a b H1 H2|intros s x x' y y' a b c g g' H1 H2 H3]; (split; [reflexivity|]); intros i Hi; cbn;
  rewrite (H1 i Hi), (H2 i Hi); [|rewrite (H3 i Hi)]; reflexivity.
Qed.

(* SymplecticRK in double precision, y' = 1, two stages, h = 1, firstStep = true.  A step from 2^53, then
   a step of the same object from 0 gives 2; the same step of a new object gives 1, the solution. *)
Theorem C91_symplectic_refuted : forall pow, exists o o1 u1 o2 u2 o3 u3,
  sy_new pow = Ok o /\ sy_step pow (sy_one pow) 10 o (f_of (2 ^ 53)) = Ok (true, o1, u1) /\
  sy_step pow (sy_one pow) 10 o1 (f_of 0) = Ok (true, o2, u2) /\ B2R (u2 0 : f64) = 2%R /\ sy_step pow (sy_one pow) 10 o (f_of 0) = Ok (true, o3, u3) /\ B2R (u3 0 : f64) = 1%R.
Proof. exact sy_carried. Qed.
Print Assumptions C91_symplectic_refuted.
(* y' = y, one sweep allowed: after a step that failed, the step from the equilibrium 0 fails; that of
   a new object succeeds *)
Theorem C91_symplectic_failure_refuted : forall pow, exists o o1 u1 o2 u2 o3 u3,
  sy_new pow = Ok o /\ sy_step pow (sy_id pow) 1 o (f_of 1) = Ok (false, o1, u1) /\
  sy_step pow (sy_id pow) 1 o1 (f_of 0) = Ok (false, o2, u2) /\ sy_step pow (sy_id pow) 1 o (f_of 0) = Ok (true, o3, u3).
Proof. exact sy_failed. Qed.
Print Assumptions C91_symplectic_failure_refuted.
(* In every arithmetic: steps with firstStep = true agree if the compensation e and the value of Test
   agree.  coefs_of: if Old_h is h then the coefficients are those of h.
   Full statement: without the hypotheses on e and Test (refuted above). *)
Theorem C91_symplectic_partial : forall (K : num) n s, 0 <= n -> 1 <= s -> forall long nar f ta tb tq itermax (h : K) o o' u u',
  coefs_of s nar ta tb h o -> coefs_of s nar ta tb h o' -> (forall i, 0 <= i < n -> oe o i = oe o' i) -> otv o = otv o' -> (forall i, 0 <= i < n -> u i = u' i) ->
  both (fun x x' => fst (fst x) = fst (fst x') /\ (forall i, 0 <= i < n -> snd x i = snd x' i) /\ (forall i, 0 <= i < n -> oe (snd (fst x)) i = oe (snd (fst x')) i) /\
      oiter (snd (fst x)) = oiter (snd (fst x')) /\ otv (snd (fst x)) = otv (snd (fst x')))
    (step n s long nar f ta tb tq itermax h true o u) (step n s long nar f ta tb tq itermax h true o' u').
Proof. exact @step_both. Qed.
Print Assumptions C91_symplectic_partial.
(* over the reals e is 0: any two objects of a program agree if Test does *)
Theorem C91_symplectic_exact_partial : forall n s long f ta tb tq itermax h (o o' : obj (K := Rnum)) (u u' : vec Rnum), 1 <= n -> 1 <= s ->
  reachable (K := Rnum) n s long (fun x => x) f ta tb tq o -> reachable (K := Rnum) n s long (fun x => x) f ta tb tq o' -> otv o = otv o' -> (forall i, 0 <= i < n -> u i = u' i) ->
  both (fun x x' => fst (fst x) = fst (fst x') /\ (forall i, 0 <= i < n -> snd x i = snd x' i) /\ oiter (snd (fst x)) = oiter (snd (fst x')))
    (step (K := Rnum) n s long (fun x => x) f ta tb tq itermax h true o u) (step (K := Rnum) n s long (fun x => x) f ta tb tq itermax h true o' u').
Proof. exact step_exact. Qed.
Print Assumptions C91_symplectic_exact_partial.
(* two new objects with different contents of the uninitialised members *)
Example C91_case_symplectic : exists o o', construct (K := Rnum) 1 (fun _ => (1/2)%R) (fun _ => 1%R) (fun _ => 0%R) (fun _ => 1%R) (fun _ => 2%R) (fun _ => 3%R) (fun _ => 4%R) (fun _ => 5%R) (fun _ => 6%R) 7 = Ok o /\
  construct (K := Rnum) 1 (fun _ => (1/2)%R) (fun _ => 1%R) (fun _ => 0%R) (fun _ => 2%R) (fun _ => 3%R) (fun _ => 4%R) (fun _ => 5%R) (fun _ => 6%R) (fun _ => 7%R) 8 = Ok o' /\
  oY1 o <> oY1 o' /\ otv o = otv o'.
Proof.
  do 2 eexists. split; [reflexivity|]. split; [reflexivity|]. cbn. split; [|reflexivity].
  intros H. assert (E : 3%R = 4%R) by exact (f_equal (fun g => g 0) H). lra.
Qed.
