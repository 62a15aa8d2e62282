(* What the example problems are meant to provide, written without reference to the model. *)
From Coq Require Import Reals.
From Verif Require Import Base Spec.
Open Scope Z_scope.

(* F y i: the i-th component (from 0) of a right-hand side; rhs stores it in an array of n elements *)
Definition computes (n : Z) (rhs : (Z -> R) -> (Z -> R) -> out (Z -> R)) (F : (Z -> R) -> Z -> R) : Prop :=
  forall y res, wp (rhs y res) (fun r => forall i, 0 <= i < n -> r i = F y i).
(* d is the partial derivative of component i with respect to y_j *)
Definition partial (F : (Z -> R) -> Z -> R) (y : Z -> R) (i j : Z) (d : R) : Prop :=
  derivable_pt_lim (fun x => F (upd y j x) i) (y j) d.
(* the Jacobian routine (vector y indexed from 1) stores the right elements wherever [ok] holds *)
Definition jacobian_on (ok : Z -> Z -> Prop) (at_ : Z -> Z -> Z) (F : (Z -> R) -> Z -> R)
  (jac : (Z -> R) -> (Z -> R) -> out (Z -> R)) : Prop :=
  forall y J0, wp (jac (fun k => y (k - 1)) J0) (fun J =>
    forall i j, ok i j -> partial F y (i - 1) (j - 1) (J (at_ i j))).
(* the variables outside the band do not occur *)
Definition banded (n kl ku : Z) (F : (Z -> R) -> Z -> R) : Prop :=
  forall y i j, in_full n i j -> ~ in_band n kl ku i j -> partial F y (i - 1) (j - 1) 0.
(* Jac(i,j) is a wrong value whatever the state *)
Definition wrong_at (at_ : Z -> Z -> Z) (F : (Z -> R) -> Z -> R)
  (jac : (Z -> R) -> (Z -> R) -> out (Z -> R)) (i j : Z) (y J0 : Z -> R) : Prop :=
  wp (jac (fun k => y (k - 1)) J0) (fun J => ~ partial F y (i - 1) (j - 1) (J (at_ i j))).

(* H, as a function of the state, is constant along x' = F(x): its derivative in the direction F(x) is 0 *)
Definition rate (n : Z) (H : (Z -> R) -> R) (F : (Z -> R) -> Z -> R) (x : Z -> R) (d : R) : Prop :=
  derivable_pt_lim (fun t => H (fun i => if inb 0 (n - 1) i then x i + t * F x i else x i)%R) 0 d.

(* The N-body problem: positions q_l (three coordinates), momenta p_l, masses m_l *)
Section Bodies.
Variables (nb : Z) (m : Z -> R) (G : R).
Definition pos (x : Z -> R) (l s : Z) : R := x (3 * l + s).
Definition dist2 (x : Z -> R) (i j : Z) : R := rsum 0 2 (fun s => (pos x i s - pos x j s) * (pos x i s - pos x j s))%R.
(* minus the derivative of the potential energy with respect to coordinate s of q_l *)
Definition force (x : Z -> R) (l s : Z) : R :=
  rsum 0 (nb - 1) (fun j => if j =? l then 0 else
    - G * m l * m j * (pos x l s - pos x j s) / (sqrt (dist2 x l j) * sqrt (dist2 x l j) * sqrt (dist2 x l j)))%R.
(* Newton's equations *)
Definition newton_field (x : Z -> R) (i : Z) : R :=
  if i <? 3 * nb then Rdiv (x (3 * nb + i)) (m (i / 3)) else force x ((i - 3 * nb) / 3) ((i - 3 * nb) mod 3).
Definition mom (x : Z -> R) (l s : Z) : R := x (3 * nb + (3 * l + s)).
(* G m_i m_j (q_i-q_j).(p_i/m_i-p_j/m_j)/r^3: the power of the attraction between two bodies *)
Definition work (x : Z -> R) (i j : Z) : R :=
  (G * m i * m j * rsum 0 2 (fun s => (pos x i s - pos x j s) * (mom x i s / m i - mom x j s / m j)) / (sqrt (dist2 x i j) * sqrt (dist2 x i j) * sqrt (dist2 x i j)))%R.
Definition apart (x : Z -> R) : Prop := forall i j, 0 <= i < nb -> 0 <= j < nb -> i <> j -> dist2 x i j <> 0%R.
End Bodies.
