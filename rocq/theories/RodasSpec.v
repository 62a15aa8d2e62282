(* Rosenbrock methods, without reference to the code.  E. Hairer and G. Wanner, Solving
   ODEs II, section IV.7: formula (7.25) for a step, Table 7.1 and (7.15)-(7.18) for the
   order conditions, IV.3 for stability. *)
From Coq Require Import ZArith Reals Lra.
From Verif Require Import Spec.
Open Scope R_scope.

(* the coefficients of a method in the form (7.25): u_i are the transformed stages *)
Record tableau := mkTab {
  t_gamma : R; t_a : Z -> Z -> R; t_c : Z -> Z -> R; t_m : Z -> R;
  t_alpha : Z -> R; t_gam : Z -> R }.

(* one step with s stages from (x,y) to (x+h,y') for y' = f(x,y), J and fx being the
   matrix and the vector used for the derivatives of f with respect to y and x *)
Definition ros_step (s n : Z) (T : tableau) (f : R -> (Z -> R) -> Z -> R) (J : Z -> Z -> R) (fx : Z -> R)
    (x h : R) (y : Z -> R) (u : Z -> Z -> R) (y' : Z -> R) : Prop :=
  (forall i, (1 <= i <= s)%Z -> exists g : Z -> R,
     (forall k, (1 <= k <= n)%Z -> g k = y k + rsum 1 (i - 1) (fun j => t_a T i j * u j k)) /\
     (forall k, (1 <= k <= n)%Z ->
        u i k / (h * t_gamma T) - rsum 1 n (fun l => J k l * u i l) =
        f (x + t_alpha T i * h) g k + rsum 1 (i - 1) (fun j => t_c T i j / h * u j k) + t_gam T i * h * fx k)) /\
  (forall k, (1 <= k <= n)%Z -> y' k = y k + rsum 1 s (fun i => t_m T i * u i k)).

(* forward difference quotients, with the increment of RADAU5 and RODAS *)
Definition increment (v : R) : R := sqrt (/ 10 ^ 16 * Rmax (/ 10 ^ 5) (Rabs v)).
Definition put (y : Z -> R) (j : Z) (v : R) : Z -> R := fun i => if (i =? j)%Z then v else y i.
Definition quotient_y (f : R -> (Z -> R) -> Z -> R) (x : R) (y : Z -> R) (i j : Z) : R :=
  (f x (put y j (y j + increment (y j))) i - f x y i) / increment (y j).
Definition quotient_x (f : R -> (Z -> R) -> Z -> R) (x : R) (y : Z -> R) (i : Z) : R :=
  (f (x + increment x) y i - f x y i) / increment x.

(* the weighted root mean square of e, weights from the larger of y and y' *)
Definition error_norm (n : Z) (atol rtol y y' e : Z -> R) : R :=
  sqrt (rsum 1 n (fun i => (e i / (atol i + rtol i * Rmax (Rabs (y i)) (Rabs (y' i)))) ^ 2) / IZR n).

(* ---- stability on y' = J y --------------------------------------------------- *)
Definition dot (n : Z) (l y : Z -> R) : R := rsum 1 n (fun k => l k * y k).
(* lr + i li is a left eigenvector of J for the eigenvalue a + i b *)
Definition left_eigen (n : Z) (J : Z -> Z -> R) (lr li : Z -> R) (a b : R) : Prop :=
  forall l, (1 <= l <= n)%Z ->
    rsum 1 n (fun k => lr k * J k l) = a * lr l - b * li l /\
    rsum 1 n (fun k => li k * J k l) = b * lr l + a * li l.
(* the squared modulus of the component of y along that eigenvector *)
Definition component (n : Z) (lr li y : Z -> R) : R := (dot n lr y) ^ 2 + (dot n li y) ^ 2.
Definition linear_rhs (n : Z) (J : Z -> Z -> R) : R -> (Z -> R) -> Z -> R := fun _ y k => rsum 1 n (fun l => J k l * y l).
(* no component whose eigenvalue has a nonpositive real part is amplified, whatever the
   step; those with a large h*lambda are damped like bound/|h lambda| *)
Definition A_stable (s : Z) (T : tableau) : Prop :=
  forall n J lr li a b x h y u y', left_eigen n J lr li a b -> h <> 0 -> a * h <= 0 ->
    ros_step s n T (linear_rhs n J) J (fun _ => 0) x h y u y' ->
    component n lr li y' <= component n lr li y.
Definition stiff_decay (s : Z) (T : tableau) (bound : R) : Prop :=
  forall n J lr li a b x h y u y', left_eigen n J lr li a b -> h <> 0 -> a * h <= 0 ->
    ros_step s n T (linear_rhs n J) J (fun _ => 0) x h y u y' ->
    h ^ 2 * (a ^ 2 + b ^ 2) * component n lr li y' <= bound ^ 2 * component n lr li y.

(* ---- order ------------------------------------------------------------------- *)
(* w = Gamma v, i.e. (I/gamma - C) w = v; A Gamma = alpha, Gamma + A Gamma = beta,
   b = m Gamma, in the notation of section IV.7 *)
Definition Gam (s : Z) (T : tableau) (v w : Z -> R) : Prop :=
  forall i, (1 <= i <= s)%Z -> w i / t_gamma T - rsum 1 (i - 1) (fun j => t_c T i j * w j) = v i.
Definition Amul (T : tableau) (w : Z -> R) : Z -> R := fun i => rsum 1 (i - 1) (fun j => t_a T i j * w j).
Definition close (tol a b : R) : Prop := Rabs (a - b) <= tol.
(* the conditions up to order 3 and up to order 4 with weights b = m Gamma, each within tol.
   For any solutions of the linear systems involved (they exist and are unique) *)
Definition order3 (s : Z) (T : tableau) (m : Z -> R) (tol : R) : Prop :=
  forall g1 gb gbb gaa,
    let al := Amul T g1 in let be i := al i + g1 i in
    Gam s T (fun _ => 1) g1 -> Gam s T be gb ->
    Gam s T (fun i => Amul T gb i + gb i) gbb ->
    Gam s T (fun i => al i * al i) gaa ->
    close tol (rsum 1 s (fun i => m i * g1 i)) 1 /\
    close tol (rsum 1 s (fun i => m i * gb i)) (/ 2) /\
    close tol (rsum 1 s (fun i => m i * gaa i)) (/ 3) /\
    close tol (rsum 1 s (fun i => m i * gbb i)) (/ 6).
Definition order4 (s : Z) (T : tableau) (m : Z -> R) (tol : R) : Prop :=
  order3 s T m tol /\
  forall g1 gb gbb gaa g5 g6 g7 g8,
    let al := Amul T g1 in let be i := al i + g1 i in
    Gam s T (fun _ => 1) g1 -> Gam s T be gb ->
    Gam s T (fun i => Amul T gb i + gb i) gbb ->
    Gam s T (fun i => al i * al i) gaa ->
    Gam s T (fun i => al i * al i * al i) g5 ->
    Gam s T (fun i => al i * Amul T gb i) g6 ->
    Gam s T (fun i => Amul T gaa i + gaa i) g7 ->
    Gam s T (fun i => Amul T gbb i + gbb i) g8 ->
    close tol (rsum 1 s (fun i => m i * g5 i)) (/ 4) /\
    close tol (rsum 1 s (fun i => m i * g6 i)) (/ 8) /\
    close tol (rsum 1 s (fun i => m i * g7 i)) (/ 12) /\
    close tol (rsum 1 s (fun i => m i * g8 i)) (/ 24).
(* the nodes are the row sums of alpha, the factors of h*f_x those of Gamma *)
Definition consistent (s : Z) (T : tableau) (tol : R) : Prop :=
  forall g1, Gam s T (fun _ => 1) g1 -> forall i, (1 <= i <= s)%Z ->
    close tol (Amul T g1 i) (t_alpha T i) /\ close tol (g1 i) (t_gam T i).

(* ---- runs -------------------------------------------------------------------- *)
(* the attempts (abscissa, step, accepted?), latest first, lead from (x0,y0) to (x,y);
   step x h y y' err: an attempt from (x,y) with step h gives y' with error estimate err *)
Inductive chain (step : R -> R -> (Z -> R) -> (Z -> R) -> R -> Prop) (x0 : R) (y0 : Z -> R) :
    list (R * R * bool) -> R -> (Z -> R) -> Prop :=
| chain_start : chain step x0 y0 nil x0 y0
| chain_accept l x y h y' err : chain step x0 y0 l x y -> step x h y y' err -> err <= 1 ->
    chain step x0 y0 (cons (x, h, true) l) (x + h) y'
| chain_reject l x y h y' err : chain step x0 y0 l x y -> step x h y y' err -> 1 < err ->
    chain step x0 y0 (cons (x, h, false) l) x y.
