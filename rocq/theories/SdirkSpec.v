(* Specification used by the SDIRKL properties. *)
From Coq Require Import Reals.
From Verif Require Import Base FieldLU HessModel Spec.
Open Scope R_scope.

(* equality of the vectors of n elements numbered from 0 *)
Definition veq (n : Z) (x y : Z -> R) : Prop := forall i, (0 <= i < n)%Z -> x i = y i.
(* a linear operator on vectors of n elements *)
Definition linear_op (n : Z) (A : vec Rnum -> vec Rnum) : Prop :=
  (forall x y, veq n x y -> veq n (A x) (A y)) /\
  (forall a b x y, veq n (A (fun i => a * x i + b * y i)) (fun i => a * A x i + b * A y i)).
(* op inverts I - cA *)
Definition inverts (n : Z) (c : R) (A op : vec Rnum -> vec Rnum) : Prop :=
  (forall w, veq n (fun i => op w i - c * A (op w) i) w) /\
  (forall w x, veq n w (fun i => x i - c * A x i) -> veq n (op w) x).

(* the diagonally implicit Runge-Kutta method with tableau a, b (s stages numbered from 0) for
   u' = f u: the slopes k, and the result *)
Section RK.
Variables (n s : Z) (a : Z -> Z -> R) (b : Z -> R) (dt : R) (f : vec Rnum -> vec Rnum) (u : vec Rnum).
Definition rk_slopes (k : Z -> vec Rnum) : Prop :=
  forall i, (0 <= i < s)%Z -> veq n (k i) (f (fun p => u p + dt * rsum 0 i (fun j => a i j * k j p))).
Definition rk_result (k : Z -> vec Rnum) : vec Rnum := fun p => u p + dt * rsum 0 (s - 1) (fun j => b j * k j p).
End RK.
(* u' is the result of the Runge-Kutta step: the slopes exist and determine it *)
Definition rk_step (n s : Z) (a : Z -> Z -> R) (b : Z -> R) (dt : R) (f : vec Rnum -> vec Rnum) (u u' : vec Rnum) : Prop :=
  (exists k, rk_slopes n s a dt f u k) /\ forall k, rk_slopes n s a dt f u k -> veq n u' (rk_result s b dt u k).

(* what the members of a method must be (comments in the headers): constant diagonal, S the row
   sums, D = B.A^{-1} *)
Definition fits (s : Z) (a : Z -> Z -> R) (S D b : Z -> R) : Prop :=
  (1 <= s)%Z /\ a 0%Z 0%Z <> 0 /\ (forall i, (0 <= i < s)%Z -> a i i = a 0%Z 0%Z) /\
  (forall i, (0 <= i < s)%Z -> S i = rsum 0 i (fun j => a i j)) /\
  (forall j, (0 <= j < s)%Z -> rsum j (s - 1) (fun i => D i * a i j) = b j).
(* k steps in a row *)
Inductive rk_steps (n s : Z) (a : Z -> Z -> R) (b : Z -> R) (dt : R) (f : vec Rnum -> vec Rnum) : nat -> vec Rnum -> vec Rnum -> Prop :=
| rk_steps_0 u u' : veq n u' u -> rk_steps n s a b dt f 0 u u'
| rk_steps_S k u u' u'' : rk_step n s a b dt f u u' -> rk_steps n s a b dt f k u' u'' -> rk_steps n s a b dt f (S k) u u''.

(* the order conditions, up to order 4, of the method a, b: one number for each rooted tree, and
   what it has to be *)
Section Order.
Variables (s : Z) (a : Z -> Z -> R) (b : Z -> R).
Definition cc (i : Z) : R := rsum 0 i (fun j => a i j).
Notation bsum f := (rsum 0 (s - 1) (fun i => b i * f i)).
Definition conditions (p : nat) : list (R * R) :=
  match p with
  | 1%nat => cons (bsum (fun i => 1), 1) nil
  | 2%nat => cons (bsum cc, 1 / 2) nil
  | 3%nat => cons (bsum (fun i => cc i * cc i), 1 / 3) (cons (bsum (fun i => rsum 0 i (fun j => a i j * cc j)), 1 / 6) nil)
  | 4%nat => cons (bsum (fun i => cc i * cc i * cc i), 1 / 4) (cons (bsum (fun i => cc i * rsum 0 i (fun j => a i j * cc j)), 1 / 8)
      (cons (bsum (fun i => rsum 0 i (fun j => a i j * (cc j * cc j))), 1 / 12)
      (cons (bsum (fun i => rsum 0 i (fun j => a i j * rsum 0 j (fun k => a j k * cc k))), 1 / 24) nil)))
  | _ => nil
  end.
(* the method has order p, up to eps *)
Definition has_order (eps : R) (p : nat) : Prop :=
  forall q, (1 <= q <= p)%nat -> List.Forall (fun x => Rabs (fst x - snd x) <= eps) (conditions q).
End Order.
(* the weights given by D = B.A^{-1} *)
Definition weights (s : Z) (a : Z -> Z -> R) (D : Z -> R) (j : Z) : R := rsum j (s - 1) (fun i => D i * a i j).
(* S is the row sums up to eps; the diagonal is constant *)
Definition nearly_fits (eps : R) (s : Z) (a : Z -> Z -> R) (S : Z -> R) : Prop :=
  (1 <= s)%Z /\ a 0%Z 0%Z <> 0 /\ (forall i, (0 <= i < s)%Z -> a i i = a 0%Z 0%Z) /\ (forall i, (0 <= i < s)%Z -> Rabs (S i - cc a i) <= eps).
