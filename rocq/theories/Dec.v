(* Exact arithmetic on decimal numbers m*10^e, to evaluate expressions in the decimal
   constants of the code by computation.  Not a model of anything in /repo. *)
From Coq Require Import Reals Lra.
From Verif Require Import Base.
Open Scope Z_scope.

Definition dec := (Z * Z)%type.
Definition D2R (d : dec) : R := Rlit (fst d) (snd d).
Definition dadd (a b : dec) : dec :=
  let '(m, e) := a in let '(m', e') := b in
  if m =? 0 then b else if m' =? 0 then a else
  if e <=? e' then (m + m' * 10 ^ (e' - e), e) else (m * 10 ^ (e - e') + m', e').
Definition dopp (a : dec) : dec := let '(m, e) := a in (- m, e).
Definition dsub (a b : dec) : dec := dadd a (dopp b).
Definition dmul (a b : dec) : dec := let '(m, e) := a in let '(m', e') := b in if (m =? 0) || (m' =? 0) then (0, 0) else (m * m', e + e').
Definition dnonneg (a : dec) : bool := 0 <=? fst a.
Definition dz : dec := (0, 0).
Definition d1 : dec := (1, 0).
(* only the ring operations are used *)
Definition DNum : num :=
  mkNum dec (fun m e => (m, e)) dadd dsub dmul (fun a b => a) dopp (fun _ _ => false) (fun _ _ => false) (fun _ _ => false)
    (fun a => a) (fun a b => a).

Lemma p10 e e' : e <= e' -> powerRZ 10 e' = (powerRZ 10 e * IZR (10 ^ (e' - e)))%R.
Proof.
  intros H. replace e' with (e + (e' - e)) at 1 by lia. rewrite powerRZ_add by lra. f_equal.
  remember (e' - e) as k. assert (Hk : 0 <= k) by lia. rewrite <- (Z2Nat.id k Hk). rewrite <- pow_IZR, pow_powerRZ. reflexivity.
Qed.
Lemma D2R_zero e : D2R (0, e) = 0%R.
Proof. unfold D2R, Rlit. cbn [fst]. ring. Qed.
Lemma D2R_add a b : D2R (dadd a b) = (D2R a + D2R b)%R.
Proof.
  destruct a as [m e], b as [m' e']. unfold dadd.
  destruct (Z.eqb_spec m 0) as [->|_]; [rewrite D2R_zero; ring|].
  destruct (Z.eqb_spec m' 0) as [->|_]; [rewrite D2R_zero; ring|].
  destruct (Z.leb_spec e e'); unfold D2R, Rlit; cbn [fst snd]; rewrite plus_IZR, mult_IZR.
  - rewrite (p10 e e') by lia. ring.
  - rewrite (p10 e' e) by lia. ring.
Qed.
Lemma D2R_opp a : D2R (dopp a) = (- D2R a)%R.
Proof. destruct a. unfold D2R, dopp, Rlit. cbn [fst snd]. rewrite opp_IZR. ring. Qed.
Lemma D2R_sub a b : D2R (dsub a b) = (D2R a - D2R b)%R.
Proof. unfold dsub. rewrite D2R_add, D2R_opp. ring. Qed.
Lemma D2R_mul a b : D2R (dmul a b) = (D2R a * D2R b)%R.
Proof.
  destruct a as [m e], b as [m' e']. unfold dmul.
  destruct (Z.eqb_spec m 0) as [->|_]; [cbn [orb]; rewrite !D2R_zero; ring|].
  destruct (Z.eqb_spec m' 0) as [->|_]; [cbn [orb]; rewrite !D2R_zero; ring|].
  cbn [orb]. unfold D2R, Rlit. cbn [fst snd]. rewrite mult_IZR, powerRZ_add by lra. ring.
Qed.
Lemma D2R_nonneg a : dnonneg a = true -> (0 <= D2R a)%R.
Proof.
  destruct a as [m e]. unfold dnonneg, D2R, Rlit. cbn [fst snd]. intros H. apply Z.leb_le in H.
  apply Rmult_le_pos; [apply (IZR_le 0); exact H|apply powerRZ_le; lra].
Qed.
Lemma D2R_z : D2R dz = 0%R.
Proof. apply D2R_zero. Qed.
Lemma D2R_1 : D2R d1 = 1%R.
Proof. unfold D2R, Rlit. cbn. lra. Qed.
(* |a - b| <= tol *)
Definition dclose (tol a b : dec) : bool := dnonneg (dsub tol (dsub a b)) && dnonneg (dsub tol (dsub b a)).
Lemma dclose_ok tol a b : dclose tol a b = true -> (Rabs (D2R a - D2R b) <= D2R tol)%R.
Proof.
  unfold dclose. intros H. apply andb_prop in H. destruct H as [H1 H2].
  apply D2R_nonneg in H1. apply D2R_nonneg in H2. rewrite !D2R_sub in *. apply Rabs_le. lra.
Qed.
(* drop trailing zeros *)
Fixpoint dtrim (k : nat) (a : dec) : dec :=
  match k with
  | O => a
  | S k => let '(m, e) := a in let '(q, r) := Z.div_eucl m 10 in if r =? 0 then dtrim k (q, e + 1) else a
  end.
Lemma D2R_trim k : forall a, D2R (dtrim k a) = D2R a.
Proof.
  induction k as [|k IH]; intros [m e]; cbn [dtrim]; [reflexivity|].
  pose proof (Z_div_mod m 10 ltac:(lia)) as H. destruct (Z.div_eucl m 10) as [q r]. destruct (Z.eqb_spec r 0) as [->|_]; [|reflexivity].
  rewrite IH. destruct H as [-> _]. unfold D2R, Rlit. cbn [fst snd]. rewrite powerRZ_add, Z.add_0_r, mult_IZR by lra.
  rewrite powerRZ_1. ring.
Qed.
