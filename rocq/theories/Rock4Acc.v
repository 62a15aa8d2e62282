(* How well the stability polynomials of the ROCK4 tables approximate the exponential near 0: polynomials of degree 4 with
   coefficients in balls, and a bound of the rest divided by z^5 on [-1,0]. *)
From Coq Require Import ZArith Reals Lra Lia List Bool.
From Verif Require Import Base HessModel VecFun Spec HessPathProofs RKSpec Rock4Model Rock4Spec Rock4Proofs Rock4Drive Rock4Step Rock4Cor Rock4LModel Rock4LSpec Rock4TabSpec Rock4TabNG Rock4TabL Rock4Check Rock4Poly Rock4Stab Rock4StabKer Rock4Order Rock4OrderK.
Import ListNotations.
Open Scope R_scope.

(* ---- coefficients c0..c4 and the bound t of the rest, in units of 2^-60 ---- *)
Record tm := mkT { q0 : fb; q1 : fb; q2 : fb; q3 : fb; q4 : fb; qt : Z }.
Definition ub (b : fb) : Z := (Z.abs (fst b) + snd b)%Z.
Definition mulup (a b : Z) : Z := (Z.shiftr (a * b) 60 + 1)%Z.
Definition tadd (x y : tm) : tm :=
  mkT (fadd (q0 x) (q0 y)) (fadd (q1 x) (q1 y)) (fadd (q2 x) (q2 y)) (fadd (q3 x) (q3 y)) (fadd (q4 x) (q4 y)) (qt x + qt y).
Definition tscal (k : fb) (x : tm) : tm :=
  mkT (fmul k (q0 x)) (fmul k (q1 x)) (fmul k (q2 x)) (fmul k (q3 x)) (fmul k (q4 x)) (mulup (ub k) (qt x)).
(* k*z*x *)
Definition tshift (k : fb) (x : tm) : tm :=
  mkT fzero (fmul k (q0 x)) (fmul k (q1 x)) (fmul k (q2 x)) (fmul k (q3 x)) (mulup (ub k) (ub (q4 x) + qt x)).
Definition tone : tm := mkT fone fzero fzero fzero fzero 0.
Fixpoint trec (l : list (fb * fb)) (w d : tm) : tm :=
  match l with
  | [] => w
  | (m, k) :: t => let d' := tadd (tshift m w) (tscal k d) in trec t (tadd w d') d'
  end.
Definition tpw (F : fin fb) : tm :=
  let u2 := tadd tone (tshift (a21 F) tone) in
  let u3 := tadd tone (tadd (tshift (a31 F) tone) (tshift (a32 F) u2)) in
  let u4 := tadd tone (tadd (tadd (tshift (a41 F) tone) (tshift (a42 F) u2)) (tshift (a43 F) u3)) in
  tadd tone (tadd (tadd (tadd (tshift (b1 F) tone) (tshift (b2 F) u2)) (tshift (b3 F) u3)) (tshift (b4 F) u4)).
Definition tpoly (m1 : fb) (l : list (fb * fb)) (F : fin fb) : tm :=
  let w := tpw F in let d := tshift m1 w in trec l (tadd w d) d.
Fixpoint pairs {T} (n : nat) (l : list T) : list (T * T) :=
  match n, l with
  | S n, a :: b :: t => (a, b) :: pairs n t
  | _, _ => []
  end.
Definition acc_poly (i : nat) : tm :=
  let blk := map (fun x => fent (tz x)) (firstn (2 * deg i - 1) (skipn (off i) ng_RECF)) in
  tpoly (hd fzero blk) (pairs (deg i - 1) (tl blk)) (finl (fun j => fent (nthZ ng_FPA (50 * j + i))) (fun j => fent (nthZ ng_FPB (50 * j + i)))).
Definition acc_ok (i : nat) : bool := let p := acc_poly i in
  fnear 1 (q1 p) && fnear 2 (q2 p) && fnear 6 (q3 p) && fnear 24 (q4 p) && (qt p <=? PP)%Z.

(* ---- soundness ---- *)
Definition poly4 (c0 c1 c2 c3 c4 z : R) : R := c0 + c1 * z + c2 * z ^ 2 + c3 * z ^ 3 + c4 * z ^ 4.
Definition tin (f : R -> R) (x : tm) : Prop := exists c0 c1 c2 c3 c4,
  (infb c0 (q0 x) /\ infb c1 (q1 x) /\ infb c2 (q2 x) /\ infb c3 (q3 x) /\ infb c4 (q4 x)) /\ 0 <= IZR (qt x) /\
  forall z, -1 <= z <= 0 -> Rabs (f z - poly4 c0 c1 c2 c3 c4 z) * IZR PP <= Rabs z ^ 5 * IZR (qt x).
Lemma tin_ext f g x : (forall z, f z = g z) -> tin f x -> tin g x.
Proof. intros E (c0 & c1 & c2 & c3 & c4 & H & H0 & H1). exists c0, c1, c2, c3, c4. split; [exact H|]. split; [exact H0|]. intros z Hz. rewrite <- E. apply H1, Hz. Qed.
Lemma infb_ub x b : infb x b -> Rabs x * IZR PP <= IZR (ub b).
Proof.
  intros H. unfold infb in H. unfold ub. rewrite plus_IZR, abs_IZR. pose proof PP_pos as HP.
  replace (Rabs x * IZR PP) with (Rabs (x * IZR PP)) by (rewrite Rabs_mult, (Rabs_right (IZR PP)) by lra; reflexivity).
  replace (x * IZR PP) with (IZR (fst b) + (x * IZR PP - IZR (fst b))) by ring. eapply Rle_trans; [apply Rabs_triang|]. lra.
Qed.
Lemma mulup_ok k b (s : R) (t : Z) : infb k b -> 0 <= s <= IZR t -> Rabs k * s <= IZR (mulup (ub b) t).
Proof.
  intros Hk Hs. pose proof (infb_ub k b Hk) as HU. pose proof PP_pos as HP. unfold mulup. rewrite plus_IZR.
  pose proof (shiftr_PP (ub b * t)) as [_ S]. rewrite mult_IZR in S. apply (Rmult_le_reg_l (IZR PP)); [exact HP|].
  eapply Rle_trans; [|rewrite Rmult_plus_distr_l, Rmult_1_r; exact S].
  replace (IZR PP * (Rabs k * s)) with (Rabs k * IZR PP * s) by ring. pose proof (Rabs_pos k).
  apply Rmult_le_compat; try lra. apply Rmult_le_pos; lra.
Qed.
Lemma tin_one : tin (fun _ => 1) tone.
Proof.
  exists 1, 0, 0, 0, 0. split; [repeat split; first [exact infb_one|exact infb_zero]|]. split; [cbn; lra|]. intros z _. unfold poly4.
  replace (1 - (1 + 0 * z + 0 * z ^ 2 + 0 * z ^ 3 + 0 * z ^ 4)) with 0 by ring. rewrite Rabs_R0. cbn [qt tone]. lra.
Qed.
Lemma tin_add f g x y : tin f x -> tin g y -> tin (fun z => f z + g z) (tadd x y).
Proof.
  intros (c0 & c1 & c2 & c3 & c4 & (A0 & A1 & A2 & A3 & A4) & A & HA) (d0 & d1 & d2 & d3 & d4 & (B0 & B1 & B2 & B3 & B4) & B & HB).
  exists (c0 + d0), (c1 + d1), (c2 + d2), (c3 + d3), (c4 + d4). cbn [tadd q0 q1 q2 q3 q4 qt].
  split; [repeat split; apply infb_add; assumption|]. rewrite plus_IZR. split; [lra|]. intros z Hz. specialize (HA z Hz). specialize (HB z Hz).
  replace (f z + g z - poly4 (c0 + d0) (c1 + d1) (c2 + d2) (c3 + d3) (c4 + d4) z) with ((f z - poly4 c0 c1 c2 c3 c4 z) + (g z - poly4 d0 d1 d2 d3 d4 z)) by (unfold poly4; ring).
  pose proof PP_pos. eapply Rle_trans; [apply Rmult_le_compat_r; [lra|apply Rabs_triang]|]. lra.
Qed.
Lemma tin_scal k b f x : infb k b -> tin f x -> tin (fun z => k * f z) (tscal b x).
Proof.
  intros Hk (c0 & c1 & c2 & c3 & c4 & (A0 & A1 & A2 & A3 & A4) & A & HA). exists (k * c0), (k * c1), (k * c2), (k * c3), (k * c4).
  cbn [tscal q0 q1 q2 q3 q4 qt]. split; [repeat split; apply infb_mul; assumption|].
  pose proof (mulup_ok k b _ (qt x) Hk (conj A (Rle_refl _))) as HM. pose proof (Rabs_pos k) as K0.
  split; [eapply Rle_trans; [|exact HM]; apply Rmult_le_pos; assumption|]. intros z Hz. specialize (HA z Hz).
  replace (k * f z - poly4 (k * c0) (k * c1) (k * c2) (k * c3) (k * c4) z) with (k * (f z - poly4 c0 c1 c2 c3 c4 z)) by (unfold poly4; ring).
  rewrite Rabs_mult, Rmult_assoc. eapply Rle_trans; [apply Rmult_le_compat_l; [exact K0|exact HA]|].
  replace (Rabs k * (Rabs z ^ 5 * IZR (qt x))) with (Rabs z ^ 5 * (Rabs k * IZR (qt x))) by ring. apply Rmult_le_compat_l; [apply pow_le, Rabs_pos|exact HM].
Qed.
Lemma tin_shift k b f x : infb k b -> tin f x -> tin (fun z => k * z * f z) (tshift b x).
Proof.
  intros Hk (c0 & c1 & c2 & c3 & c4 & (A0 & A1 & A2 & A3 & A4) & A & HA). exists 0, (k * c0), (k * c1), (k * c2), (k * c3).
  cbn [tshift q0 q1 q2 q3 q4 qt]. split; [repeat split; first [exact infb_zero|apply infb_mul; assumption]|].
  pose proof (infb_ub c4 _ A4) as U4. pose proof PP_pos as HP. pose proof (Rabs_pos k) as K0. pose proof (Rabs_pos c4) as C0.
  assert (S0 : 0 <= Rabs c4 * IZR PP) by (apply Rmult_le_pos; lra).
  pose proof (mulup_ok k b (Rabs c4 * IZR PP + IZR (qt x)) (ub (q4 x) + qt x) Hk ltac:(rewrite plus_IZR; lra)) as HM.
  split; [eapply Rle_trans; [|exact HM]; apply Rmult_le_pos; lra|]. intros z Hz. specialize (HA z Hz).
  replace (k * z * f z - poly4 0 (k * c0) (k * c1) (k * c2) (k * c3) z) with (k * (z * (f z - poly4 c0 c1 c2 c3 c4 z) + c4 * z ^ 5)) by (unfold poly4; ring).
  rewrite Rabs_mult. assert (Z1 : Rabs z <= 1) by (apply Rabs_le; lra). pose proof (Rabs_pos z) as Z0. assert (P5 : 0 <= Rabs z ^ 5) by (apply pow_le, Rabs_pos).
  set (r := f z - poly4 c0 c1 c2 c3 c4 z) in *. pose proof (Rabs_pos r) as R0.
  assert (X : Rabs (z * r + c4 * z ^ 5) * IZR PP <= Rabs z ^ 5 * (Rabs c4 * IZR PP + IZR (qt x))).
  { eapply Rle_trans; [apply Rmult_le_compat_r; [lra|apply Rabs_triang]|]. rewrite !Rabs_mult, <- RPow_abs.
    assert (Rabs z * Rabs r * IZR PP <= Rabs r * IZR PP).
    { apply Rmult_le_compat_r; [lra|]. rewrite <- (Rmult_1_l (Rabs r)) at 2. apply Rmult_le_compat_r; assumption. } lra. }
  rewrite Rmult_assoc. eapply Rle_trans; [apply Rmult_le_compat_l; [exact K0|exact X]|].
  replace (Rabs k * (Rabs z ^ 5 * (Rabs c4 * IZR PP + IZR (qt x)))) with (Rabs z ^ 5 * (Rabs k * (Rabs c4 * IZR PP + IZR (qt x)))) by ring.
  apply Rmult_le_compat_l; assumption.
Qed.
Lemma tin_rec l l' : Forall2 (fun a b => infb (fst a) (fst b) /\ infb (snd a) (snd b)) l l' ->
  forall w w' x d, tin w x -> tin (fun z => w z - w' z) d -> tin (fun z => rec z l (w z) (w' z)) (trec l' x d).
Proof.
  intros H. induction H as [|[m k] [m' k'] l l' [Hm Hk] H IH]; intros w w' x d Hx Hd; [exact Hx|]. cbn [rec trec fst snd] in *. cbv zeta.
  pose proof (tin_add _ _ _ _ (tin_shift m m' w x Hm Hx) (tin_scal k k' _ d Hk Hd)) as HD.
  apply (IH (fun z => m * z * w z + (1 + k) * w z - k * w' z) w).
  - eapply tin_ext; [|apply (tin_add _ _ _ _ Hx HD)]. intros z. cbv beta. ring.
  - eapply tin_ext; [|exact HD]. intros z. cbv beta. ring.
Qed.
Definition infin (F : fin R) (G : fin fb) : Prop :=
  infb (a21 F) (a21 G) /\ infb (a31 F) (a31 G) /\ infb (a32 F) (a32 G) /\ infb (a41 F) (a41 G) /\ infb (a42 F) (a42 G) /\ infb (a43 F) (a43 G) /\
  infb (b1 F) (b1 G) /\ infb (b2 F) (b2 G) /\ infb (b3 F) (b3 G) /\ infb (b4 F) (b4 G).
Lemma tin_pw F G : infin F G -> tin (p_w F) (tpw G).
Proof.
  intros (H1 & H2 & H3 & H4 & H5 & H6 & H7 & H8 & H9 & H10). unfold tpw. cbv zeta.
  set (u2 := tadd tone (tshift (a21 G) tone)).
  assert (S1 : forall k b, infb k b -> tin (fun z => k * z) (tshift b tone)).
  { intros k b Hk. eapply tin_ext; [|apply (tin_shift k b _ _ Hk tin_one)]. intros z. cbv beta. ring. }
  assert (U2 : tin (p_u2 F) u2) by (apply (tin_add _ _ _ _ tin_one (S1 _ _ H1))).
  set (u3 := tadd tone (tadd (tshift (a31 G) tone) (tshift (a32 G) u2))).
  assert (U3 : tin (p_u3 F) u3) by (apply (tin_add _ _ _ _ tin_one (tin_add _ _ _ _ (S1 _ _ H2) (tin_shift _ _ _ _ H3 U2)))).
  set (u4 := tadd tone (tadd (tadd (tshift (a41 G) tone) (tshift (a42 G) u2)) (tshift (a43 G) u3))).
  assert (U4 : tin (p_u4 F) u4) by (apply (tin_add _ _ _ _ tin_one (tin_add _ _ _ _ (tin_add _ _ _ _ (S1 _ _ H4) (tin_shift _ _ _ _ H5 U2)) (tin_shift _ _ _ _ H6 U3)))).
  apply (tin_add _ _ _ _ tin_one (tin_add _ _ _ _ (tin_add _ _ _ _ (tin_add _ _ _ _ (S1 _ _ H7) (tin_shift _ _ _ _ H8 U2)) (tin_shift _ _ _ _ H9 U3)) (tin_shift _ _ _ _ H10 U4))).
Qed.
Lemma tin_poly m1 m1' l l' F G : infb m1 m1' -> Forall2 (fun a b => infb (fst a) (fst b) /\ infb (snd a) (snd b)) l l' -> infin F G ->
  tin (polyR m1 l F) (tpoly m1' l' G).
Proof.
  intros H1 H2 H3. unfold tpoly. cbv zeta. pose proof (tin_pw F G H3) as W. pose proof (tin_shift m1 m1' _ _ H1 W) as D.
  eapply tin_ext; [|apply (tin_rec l l' H2 (fun z => p_w F z + m1 * z * p_w F z) (p_w F) _ _ (tin_add _ _ _ _ W D))].
  - intros z. cbv beta. unfold polyR. rewrite <- rec_lin. f_equal; ring.
  - eapply tin_ext; [|exact D]. intros z. cbv beta. ring.
Qed.
Definition acc_degs : list nat := seq 0 36 ++ seq 37 6.
Lemma acc_all_ok : forallb acc_ok acc_degs = true.
Proof. vm_cast_no_check (eq_refl true). Qed.
