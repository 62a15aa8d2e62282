(* Runs of Radau5 in IEEE double precision; y' = 0 with one component. *)
From Coq Require Import Reals Lra List FunctionalExtensionality.
From Flocq Require Import Core BinarySingleNaN.
From Verif Require Import Base HessModel CMacros VecFun JacModel RodasProofs RadauModel F64.
Open Scope Z_scope.

Notation zero := (B754_zero false : f64).
(* the values of pow that a run uses *)
Definition pow_right (pow : f64 -> f64 -> f64) : Prop :=
  pow (f_lit 1 0) (f_lit 8 (-1)) = f_lit 1 0 /\
  pow (f_lit 81 0) (Bdiv mode_NE (f_lit 1 0) (f_lit 3 0)) = f_lit 43267487109222245 (-16) /\
  pow (f_lit 9 0) (Bdiv mode_NE (f_lit 1 0) (f_lit 3 0)) = f_lit 2080083823051904 (-15).
Definition sf_eqb (a b : f64) : bool :=
  match B2SF a, B2SF b with
  | SpecFloat.S754_finite s m e, SpecFloat.S754_finite s' m' e' => Bool.eqb s s' && Pos.eqb m m' && Z.eqb e e'
  | _, _ => false end.
Lemma sf_eqb_eq a b : sf_eqb a b = true -> a = b.
Proof.
  intros H. apply B2SF_inj. unfold sf_eqb in H. destruct (B2SF a); try discriminate H. destruct (B2SF b); try discriminate H.
  apply andb_prop in H as [H H3]. apply andb_prop in H as [H1 H2]. apply Bool.eqb_prop in H1. apply Pos.eqb_eq in H2. apply Z.eqb_eq in H3. now subst.
Qed.
Definition pow_at (pow : f64 -> f64 -> f64) (q y : f64) : f64 :=
  if (sf_eqb q (f_lit 1 0) && sf_eqb y (f_lit 8 (-1)))%bool then f_lit 1 0
  else if (sf_eqb q (f_lit 81 0) && sf_eqb y (Bdiv mode_NE (f_lit 1 0) (f_lit 3 0)))%bool then f_lit 43267487109222245 (-16)
  else if (sf_eqb q (f_lit 9 0) && sf_eqb y (Bdiv mode_NE (f_lit 1 0) (f_lit 3 0)))%bool then f_lit 2080083823051904 (-15)
  else pow q y.
Lemma pow_at_eq pow : pow_right pow -> pow_at pow = pow.
Proof.
  intros (H1 & H2 & H3). extensionality q. extensionality y. unfold pow_at.
  destruct (sf_eqb q (f_lit 1 0) && _)%bool eqn:E1. { apply andb_prop in E1 as [A B]. apply sf_eqb_eq in A. apply sf_eqb_eq in B. rewrite A, B. symmetry. exact H1. }
  destruct (sf_eqb q (f_lit 81 0) && _)%bool eqn:E2. { apply andb_prop in E2 as [A B]. apply sf_eqb_eq in A. apply sf_eqb_eq in B. rewrite A, B. symmetry. exact H2. }
  destruct (sf_eqb q (f_lit 9 0) && _)%bool eqn:E3. { apply andb_prop in E3 as [A B]. apply sf_eqb_eq in A. apply sf_eqb_eq in B. rewrite A, B. symmetry. exact H3. }
  reflexivity.
Qed.
Definition ok_false {A} (r : out A) (f : A -> bool) : bool := match r with Ok st => negb (f st) | _ => false end.
Section W.
Variable pow : f64 -> f64 -> f64.
Notation K := (F64 pow).
(* 1x1 matrices *)
Record sLa := mkLa { l_re : f64; l_a : f64; l_b : f64 }.
Definition s_decomr (la : sLa) (fac : f64) (J : Z -> f64) : out (sLa * (Z -> f64)) := Ok (mkLa (nsub (n := K) fac (J 1)) (l_a la) (l_b la), J).
Definition s_decomc (la : sLa) (al be : f64) (J : Z -> f64) : out sLa := Ok (mkLa (l_re la) (nsub (n := K) al (J 1)) be).
Definition s_real (la : sLa) (b J : Z -> f64) : out (Z -> f64) := Ok (fun i => ndiv (n := K) (b i) (l_re la)).
Definition s_complex (la : sLa) (b1 b2 J : Z -> f64) : out ((Z -> f64) * (Z -> f64)) :=
  let d := nadd (n := K) (nmul (n := K) (l_a la) (l_a la)) (nmul (n := K) (l_b la) (l_b la)) in
  Ok (fun i => ndiv (n := K) (nadd (n := K) (nmul (n := K) (b1 i) (l_a la)) (nmul (n := K) (b2 i) (l_b la))) d,
      fun i => ndiv (n := K) (nsub (n := K) (nmul (n := K) (b2 i) (l_a la)) (nmul (n := K) (b1 i) (l_b la))) d).
Definition zF (s : Datatypes.unit) (x : f64) (y : Z -> f64) : Datatypes.unit * (Z -> f64) := (s, fun _ => zero).
Definition zJ (s : Datatypes.unit) (x : f64) (y y0 J : Z -> f64) : Datatypes.unit * (Z -> f64) := (s, fun _ => zero).
Definition zW : @wrk K Datatypes.unit sLa :=
  let z := fun _ : Z => zero in
  mkWrk (K := K) tt (mkLa zero zero zero) z z z z z z z z z z z z (f_lit 1 0) zero zero 0.
(* the solver as constructed, tolerances such that scal = 1 *)
Definition zcall (fuel ifuel : nat) (h x xend : f64) : out (@dst K (@wrk K Datatypes.unit sLa)) :=
  radau (K := K) (k_jacob (K := K) zF zJ (fun l : sLa => l) 1 Full false) (k_mats (K := K) s_decomr s_decomc (rd_const (K := K))) (k_evalF (K := K) zF)
    (k_doscal (K := K) (fun _ => f_lit 1 0) (fun _ => zero))
    (k_newton (K := K) zF s_real s_complex 1 (rd_const (K := K)) 7 (f_lit 1 (-3)) (f_lit 3 (-2)) 7) (k_estrad (K := K) zF s_real 1 (rd_const (K := K)))
    (@k_adv K Datatypes.unit sLa) (k_save (K := K) (rd_const (K := K))) (ctor_opts (K := K)) fuel ifuel zW h x xend (fun _ => zero) zero zero zero zero zero.
Definition beside (h x xend : f64) : bool := ok_false (zcall 1 1 h x xend) (fun st => neqb (n := K) (q_x st) xend).
End W.
Lemma beside_at pow : beside (pow_at pow) (f_lit 1 0) (f_lit 6 (-2)) (f_lit 9 (-1)) = true.
Proof. vm_compute. reflexivity. Qed.
Lemma beside_09 pow : pow_right pow -> beside pow (f_lit 1 0) (f_lit 6 (-2)) (f_lit 9 (-1)) = true.
Proof. intros H. rewrite <- (pow_at_eq pow H). apply beside_at. Qed.
Lemma out_true {A} (r : out A) (f : A -> bool) : ok_false r f = true -> exists st, r = Ok st /\ f st = false.
Proof. destruct r as [st| | |]; intros H; try discriminate H. exists st. split; [reflexivity|]. now apply Bool.negb_true_iff in H. Qed.
Local Opaque zcall ok_false.
Lemma beside_run pow : pow_right pow -> exists st, zcall pow 1 1 (f_lit 1 0) (f_lit 6 (-2)) (f_lit 9 (-1)) = Ok st /\ neqb (n := F64 pow) (q_x st) (f_lit 9 (-1)) = false.
Proof.
  intros HP. pose proof (beside_09 pow HP) as H. unfold beside in H. exact (out_true _ _ H).
Qed.
