(* Properties C04-C07, C48, C59 and C61 (Hessenberg linear algebra). *)
From Coq Require Import Reals.
From Verif Require Import Base Spec PivotSpec HessModel HessPathModel HessProofs HessCProofs HessPathProofs HessCPath HessWitness HessCWitness.
Open Scope Z_scope.

Theorem C04_hessenberg_solve : forall n (A : Rmat) ip A' ip' (b : Rvec),
  1 <= n -> upper_hessenberg n A ->
  @dech Rnum n A ip = Ok (A', ip', 0) ->
  exists x, @solh Rnum n A' ip' b = Ok x /\ solution n A x b.
Proof. exact dech_solh_lemma. Qed.
Print Assumptions C04_hessenberg_solve.

Theorem C05_hessenberg_singular_iff : forall n (A : Rmat) ip,
  1 <= n -> upper_hessenberg n A ->
  exists A' ip' ret, @dech Rnum n A ip = Ok (A', ip', ret) /\ 0 <= ret <= n /\
    (ret = 0 <-> nonsingular n A).
Proof. exact dech_singular_lemma. Qed.
Print Assumptions C05_hessenberg_singular_iff.

(* The full property is false; the witness is a matrix of the form (alpha+i beta)I-J. *)
Theorem C06_complex_hessenberg_refuted :
  exists (n : Z) (J : Rmat) (alpha beta : R) (Mr Mi : Rmat) ip Ar Ai ip' (br bi xr xi : Rvec),
    1 <= n /\
    (forall i j, 1 <= i <= n -> 1 <= j <= n ->
        Mr i j = newton_matrix alpha J i j /\ Mi i j = newton_matrix beta (fun _ _ => 0%R) i j) /\
    upper_hessenberg n Mr /\ upper_hessenberg n Mi /\
    @dechc Rnum n Mr Mi ip = Ok (Ar, Ai, ip', 0) /\
    @solhc Rnum n Ar Ai ip' (br, bi) = Ok (xr, xi) /\
    ~ csolution n Mr Mi xr xi br bi.
Proof. exact dechc_refuted_lemma. Qed.
Print Assumptions C06_complex_hessenberg_refuted.

(* What holds: the property for every run that never combines a purely imaginary pivot
   row element with a multiplier of non zero real part (dechc_clean). *)
Theorem C06_complex_hessenberg_solve_partial : forall n (Ar Ai : Rmat) ip Ar' Ai' ip' (br bi : Rvec),
  1 <= n -> upper_hessenberg n Ar -> upper_hessenberg n Ai -> dechc_clean n Ar Ai ip ->
  @dechc Rnum n Ar Ai ip = Ok (Ar', Ai', ip', 0) ->
  exists xr xi, @solhc Rnum n Ar' Ai' ip' (br, bi) = Ok (xr, xi) /\ csolution n Ar Ai xr xi br bi.
Proof. exact dechc_solhc_lemma. Qed.
Print Assumptions C06_complex_hessenberg_solve_partial.

Theorem C06_complex_hessenberg_singular_partial : forall n (Ar Ai : Rmat) ip,
  1 <= n -> upper_hessenberg n Ar -> upper_hessenberg n Ai -> dechc_clean n Ar Ai ip ->
  exists Ar' Ai' ip' ret, @dechc Rnum n Ar Ai ip = Ok (Ar', Ai', ip', ret) /\ 0 <= ret <= n /\
    (ret = 0 <-> cnonsingular n Ar Ai).
Proof. exact dechc_singular_lemma. Qed.
Print Assumptions C06_complex_hessenberg_singular_partial.

(* C07 for n >= 2; missing: n = 1, for which it is false (next theorem). *)
Theorem C07_householder_inverse_partial : forall n fuel (A : Rmat) (tau X : Rvec),
  2 <= n -> (Z.to_nat n <= fuel)%nat ->
  (forall j, 1 <= j <= n - 2 -> is_reflector n j (fun i => A i j) (tau (j - 1))) ->
  exists Y Z, @householder Rnum fuel n A tau X true = Ok Y /\
              @householder Rnum fuel n A tau Y false = Ok Z /\
              on n Y (apply_Qt n A tau (Z.to_nat (n - 2)) X) /\ on n Z X.
Proof. exact householder_inverse_lemma. Qed.
Print Assumptions C07_householder_inverse_partial.

Theorem C07_householder_n1_refuted : forall fuel (A : mat Rnum) (tau X : vec Rnum) dir,
  exists msg, householder (S fuel) 1 A tau X dir = UB msg.
Proof. exact householder_n1_ub. Qed.
Print Assumptions C07_householder_n1_refuted.

(* Real Newton solve through the Hessenberg path: first factorisation (with reduction)
   and any later one for another factor (without). *)
Theorem C48_hessenberg_path : forall (dgehrd : Rmat -> Rmat * Rvec * Z) n (fac fac' : R) (J : Rmat)
    (s s' s'' : @hst Rnum) A A' (b b' : Rvec),
  2 <= n -> calhes s = true ->
  (forall A1 t1, dgehrd J = (A1, t1, 0) -> reduction n J A1 t1) ->
  @h_decomr Rnum dgehrd n fac s J = Ok (s', A) ->
  (exists x, @h_solvereal Rnum n s' A b = Ok x /\ solution n (newton_matrix fac J) x b) /\
  (@h_decomr Rnum dgehrd n fac' s' A = Ok (s'', A') ->
   exists x, @h_solvereal Rnum n s'' A' b' = Ok x /\ solution n (newton_matrix fac' J) x b').
Proof. exact hessenberg_path_lemma. Qed.
Print Assumptions C48_hessenberg_path.

(* Complex Newton solve through the Hessenberg path.  False as a whole: a wrong solution of a
   nonsingular system, and a singular matrix that is not reported. *)
Theorem C59_complex_path_refuted :
  exists (n : Z) alpha beta (J A : Rmat) (s s' : @hst Rnum) br bi xr xi,
    2 <= n /\ reduction n J A (htau s) /\
    cnonsingular n (newton_matrix alpha J) (newton_matrix beta (fun _ _ => 0%R)) /\
    @h_decomc Rnum n alpha beta s A = Ok s' /\
    @h_solvecomplex Rnum n s' A br bi = Ok (xr, xi) /\
    ~ csolution n (newton_matrix alpha J) (newton_matrix beta (fun _ _ => 0%R)) xr xi br bi.
Proof. exact complex_path_refuted_lemma. Qed.
Print Assumptions C59_complex_path_refuted.

Theorem C59_singular_not_reported_refuted :
  exists (n : Z) alpha beta (J A : Rmat) (s s' : @hst Rnum),
    2 <= n /\ reduction n J A (htau s) /\
    ~ cnonsingular n (newton_matrix alpha J) (newton_matrix beta (fun _ _ => 0%R)) /\
    @h_decomc Rnum n alpha beta s A = Ok s'.
Proof. exact singular_not_reported_lemma. Qed.
Print Assumptions C59_singular_not_reported_refuted.

(* What holds: nonsingular systems whose elimination never meets the wrong branch of dechc
   (path_clean).  Missing: the other systems. *)
Theorem C59_complex_path_partial : forall n alpha beta (J A : Rmat) (s : @hst Rnum),
  2 <= n -> reduction n J A (htau s) -> path_clean n alpha beta A (ipi s) ->
  cnonsingular n (newton_matrix alpha J) (newton_matrix beta (fun _ _ => 0%R)) ->
  exists s', @h_decomc Rnum n alpha beta s A = Ok s' /\ htau s' = htau s /\
    forall br bi, exists xr xi, @h_solvecomplex Rnum n s' A br bi = Ok (xr, xi) /\
      csolution n (newton_matrix alpha J) (newton_matrix beta (fun _ _ => 0%R)) xr xi br bi.
Proof. exact decomc_spec. Qed.
Print Assumptions C59_complex_path_partial.

(* Memory safety and pivots for every arithmetic (K is any number type, NaN included). *)
Theorem C61_real_safe : forall (K : num) n (A : mat K) ip, 1 <= n ->
  exists A' ip' ret, dech n A ip = Ok (A', ip', ret) /\ 0 <= ret <= n /\
    (ret = 0 -> decsol_pivots n ip' /\ forall B, exists x, solh n A' ip' B = Ok x).
Proof. exact real_safe_lemma. Qed.
Print Assumptions C61_real_safe.

Theorem C61_complex_safe : forall (K : num) n (Ar Ai : mat K) ip, 1 <= n ->
  exists Ar' Ai' ip' ret, dechc n Ar Ai ip = Ok (Ar', Ai', ip', ret) /\ 0 <= ret <= n /\
    (ret = 0 -> decsol_pivots n ip' /\ forall Br Bi, exists x, solhc n Ar' Ai' ip' (Br, Bi) = Ok x).
Proof. exact complex_safe_lemma. Qed.
Print Assumptions C61_complex_safe.

Theorem C61_real_path : forall (K : num) (dgehrd : mat K -> mat K * vec K * Z) n fac s (J : mat K), 2 <= n ->
  (exists msg, h_decomr dgehrd n fac s J = Throw msg) \/
  exists s' A, h_decomr dgehrd n fac s J = Ok (s', A) /\ calhes s' = false /\ decsol_pivots n (ipr s') /\
    forall b, exists x, h_solvereal n s' A b = Ok x.
Proof. exact path_safe_lemma. Qed.
Print Assumptions C61_real_path.

(* The complex path: false in general, since the pivots of a singular factorisation are used. *)
Theorem C61_complex_path_refuted : exists (K : num) (n : Z) alpha beta (s s' : @hst K) (A : mat K) br bi msg,
  2 <= n /\ h_decomc n alpha beta s A = Ok s' /\ h_solvecomplex n s' A br bi = UB msg.
Proof. exact stale_pivot_lemma. Qed.
Print Assumptions C61_complex_path_refuted.

Theorem C61_complex_path_partial : forall (K : num) n alpha beta s (A : mat K), 2 <= n ->
  exists s', h_decomc n alpha beta s A = Ok s' /\
    (decsol_pivots n (ipi s') -> forall br bi, exists x, h_solvecomplex n s' A br bi = Ok x).
Proof. exact path_safec_lemma. Qed.
Print Assumptions C61_complex_path_partial.
