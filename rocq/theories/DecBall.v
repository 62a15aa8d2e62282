(* Arithmetic on decimal balls (midpoint, radius), to bound polynomial expressions in
   irrational numbers known to some digits.  Not a model of anything in /repo. *)
From Coq Require Import Reals Lra List.
From Verif Require Import Base Dec.
Open Scope R_scope.

Definition ball := (dec * dec)%type.
Definition inb (x : R) (b : ball) : Prop := Rabs (x - D2R (fst b)) <= D2R (snd b).
Definition dabs (a : dec) : dec := let '(m, e) := a in (Z.abs m, e).
Lemma D2R_abs a : D2R (dabs a) = Rabs (D2R a).
Proof.
  destruct a as [m e]. unfold D2R, Rlit, dabs. cbn [fst snd]. rewrite Rabs_mult, <- abs_IZR. f_equal.
  symmetry. apply Rabs_right, Rle_ge, powerRZ_le. lra.
Qed.
Definition bconst (a : dec) : ball := (a, dz).
Definition badd (a b : ball) : ball := (dadd (fst a) (fst b), dadd (snd a) (snd b)).
Definition bsub (a b : ball) : ball := (dsub (fst a) (fst b), dadd (snd a) (snd b)).
Definition bmul (a b : ball) : ball :=
  (dmul (fst a) (fst b), dadd (dadd (dmul (dabs (fst a)) (snd b)) (dmul (dabs (fst b)) (snd a))) (dmul (snd a) (snd b))).
Lemma inb_const a : inb (D2R a) (bconst a).
Proof. unfold inb, bconst. cbn [fst snd]. rewrite D2R_z, Rminus_diag_eq, Rabs_R0 by reflexivity. lra. Qed.
Lemma inb_add x y a b : inb x a -> inb y b -> inb (x + y) (badd a b).
Proof.
  unfold inb, badd. cbn [fst snd]. rewrite !D2R_add. intros H1 H2.
  replace (x + y - (D2R (fst a) + D2R (fst b))) with (x - D2R (fst a) + (y - D2R (fst b))) by ring.
  eapply Rle_trans; [apply Rabs_triang|]. lra.
Qed.
Lemma inb_sub x y a b : inb x a -> inb y b -> inb (x - y) (bsub a b).
Proof.
  unfold inb, bsub. cbn [fst snd]. rewrite D2R_add, D2R_sub. intros H1 H2.
  replace (x - y - (D2R (fst a) - D2R (fst b))) with (x - D2R (fst a) + - (y - D2R (fst b))) by ring.
  eapply Rle_trans; [apply Rabs_triang|]. rewrite Rabs_Ropp. lra.
Qed.
Lemma inb_mul x y a b : inb x a -> inb y b -> inb (x * y) (bmul a b).
Proof.
  unfold inb, bmul. cbn [fst snd]. rewrite !D2R_add, !D2R_mul, !D2R_abs. intros H1 H2.
  set (p := D2R (fst a)) in *. set (q := D2R (fst b)) in *.
  replace (x * y - p * q) with (p * (y - q) + (q * (x - p) + (x - p) * (y - q))) by ring.
  eapply Rle_trans; [apply Rabs_triang|]. eapply Rle_trans; [apply Rplus_le_compat_l, Rabs_triang|].
  rewrite !Rabs_mult. pose proof (Rabs_pos (x - p)). pose proof (Rabs_pos (y - q)). pose proof (Rabs_pos p). pose proof (Rabs_pos q).
  assert (Rabs p * Rabs (y - q) <= Rabs p * D2R (snd b)) by (apply Rmult_le_compat_l; lra).
  assert (Rabs q * Rabs (x - p) <= Rabs q * D2R (snd a)) by (apply Rmult_le_compat_l; lra).
  assert (Rabs (x - p) * Rabs (y - q) <= D2R (snd a) * D2R (snd b)) by (apply Rmult_le_compat; lra). lra.
Qed.
(* rounding to 45 digits after the point *)
Definition drnd (a : dec) : dec := let '(m, e) := a in if (e <? -45)%Z then ((m / 10 ^ (-45 - e))%Z, (-45)%Z) else a.
Definition dulp : dec := (1%Z, (-45)%Z).
Definition brnd (b : ball) : ball := (drnd (fst b), dadd (drnd (snd b)) (dadd dulp dulp)).
Lemma drnd_ok a : 0 <= D2R a - D2R (drnd a) <= D2R dulp.
Proof.
  destruct a as [m e]. unfold drnd. destruct (e <? -45)%Z eqn:E.
  - apply Z.ltb_lt in E. unfold D2R, Rlit, dulp. cbn [fst snd]. rewrite (p10 e (-45)) by lia.
    set (p := (10 ^ (-45 - e))%Z). assert (0 < p)%Z by (apply Z.pow_pos_nonneg; lia).
    pose proof (Z.div_mod m p ltac:(lia)) as D. pose proof (Z.mod_pos_bound m p ltac:(lia)) as B.
    assert (0 < powerRZ 10 e) by (apply powerRZ_lt; lra). set (t := powerRZ 10 e) in *.
    assert (IZR m = IZR p * IZR (m / p) + IZR (m mod p)) as Dm by (rewrite <- mult_IZR, <- plus_IZR; f_equal; exact D).
    assert (0 <= IZR (m mod p) <= IZR p) as [B1 B2] by (split; apply IZR_le; lia).
    replace (IZR m * t - IZR (m / p) * (t * IZR p)) with (IZR (m mod p) * t) by (rewrite Dm; ring). split.
    + apply Rmult_le_pos; lra.
    + rewrite Rmult_1_l, Rmult_comm. apply Rmult_le_compat_l; lra.
  - rewrite Rminus_diag_eq by reflexivity. split; [lra|]. unfold D2R, Rlit, dulp. cbn [fst snd]. rewrite Rmult_1_l. apply powerRZ_le. lra.
Qed.
Lemma inb_rnd x b : inb x b -> inb x (brnd b).
Proof.
  unfold inb, brnd. cbn [fst snd]. rewrite !D2R_add. intros H.
  pose proof (drnd_ok (fst b)). pose proof (drnd_ok (snd b)). apply Rabs_le. unfold Rabs in H. destruct (Rcase_abs _) in H; lra.
Qed.
(* every element of the ball is within tol of c *)
Definition bnear (tol c : dec) (b : ball) : bool :=
  dnonneg (dsub tol (dadd (dsub (fst b) c) (snd b))) && dnonneg (dsub tol (dadd (dsub c (fst b)) (snd b))).
Lemma bnear_ok tol c b x : bnear tol c b = true -> inb x b -> Rabs (x - D2R c) <= D2R tol.
Proof.
  unfold bnear, inb. intros H Hx. apply andb_prop in H. destruct H as [H1 H2]. apply D2R_nonneg in H1. apply D2R_nonneg in H2.
  rewrite !D2R_sub, !D2R_add, !D2R_sub in *.
  apply Rabs_le. unfold Rabs in Hx. destruct (Rcase_abs _) in Hx; lra.
Qed.

(* polynomial expressions in variables *)
Inductive pex := PC (d : dec) | PV (k : nat) | PA (a b : pex) | PS (a b : pex) | PM (a b : pex).
Fixpoint pR (env : list R) (e : pex) : R :=
  match e with
  | PC d => D2R d | PV k => nth k env 0
  | PA a b => pR env a + pR env b | PS a b => pR env a - pR env b | PM a b => pR env a * pR env b
  end.
Fixpoint pB (env : list ball) (e : pex) : ball :=
  match e with
  | PC d => bconst d | PV k => nth k env (bconst dz)
  | PA a b => badd (pB env a) (pB env b) | PS a b => bsub (pB env a) (pB env b) | PM a b => brnd (bmul (pB env a) (pB env b))
  end.
Lemma pB_ok env benv e : Forall2 inb env benv -> inb (pR env e) (pB benv e).
Proof.
  intros H. induction e; cbn [pR pB].
  - apply inb_const.
  - revert k. induction H as [|x b l l' Hx Hl IH]; intros [|k]; cbn [nth]; auto; rewrite <- D2R_z; apply inb_const.
  - apply inb_add; assumption.
  - apply inb_sub; assumption.
  - apply inb_rnd, inb_mul; assumption.
Qed.
