(* The stability polynomial of a ROCK4 method given by a block of a coefficient table
   (integers in units of 10^-19), and the check of |R(z)| <= 1 on [-L4/1000, 0]. *)
From Coq Require Import Bool Reals Lra Lia List ZArith Psatz.
From Verif Require Import Cheb CosSum Rock4Check.
Import ListNotations.
Open Scope R_scope.

Definition T19 : Z := 10 ^ 19.
Definition rl (c : Z) : R := IZR c / IZR T19.
(* v is c*10^-19 with relative error at most 2^-tt *)
Definition tau (tt : Z) : R := / IZR (2 ^ tt).
Definition near (tt : Z) (v : R) (c : Z) : Prop := Rabs (v - rl c) <= Rabs (rl c) * tau tt.
(* three-term recurrence for the test equation, from two consecutive stages *)
Fixpoint rec (z : R) (l : list (R * R)) (w w' : R) : R :=
  match l with
  | [] => w
  | (m, k) :: t => rec z t (m * z * w + (1 + k) * w - k * w') w
  end.
(* the finishing method *)
Record fin (T : Type) := mkFin { a21 : T; a31 : T; a32 : T; a41 : T; a42 : T; a43 : T; b1 : T; b2 : T; b3 : T; b4 : T }.
Arguments mkFin {T}. Arguments a21 {T}. Arguments a31 {T}. Arguments a32 {T}. Arguments a41 {T}. Arguments a42 {T}. Arguments a43 {T}.
Arguments b1 {T}. Arguments b2 {T}. Arguments b3 {T}. Arguments b4 {T}.
Definition p_u2 (F : fin R) z := 1 + a21 F * z.
Definition p_u3 (F : fin R) z := 1 + (a31 F * z + a32 F * z * p_u2 F z).
Definition p_u4 (F : fin R) z := 1 + (a41 F * z + a42 F * z * p_u2 F z + a43 F * z * p_u3 F z).
Definition p_w (F : fin R) z := 1 + (b1 F * z + b2 F * z * p_u2 F z + b3 F * z * p_u3 F z + b4 F * z * p_u4 F z).
Definition polyR (m1 : R) (l : list (R * R)) (F : fin R) (z : R) : R := rec z l (1 + m1 * z) 1 * p_w F z.
Definition near_fin (tt : Z) (F : fin R) (G : fin Z) : Prop :=
  near tt (a21 F) (a21 G) /\ near tt (a31 F) (a31 G) /\ near tt (a32 F) (a32 G) /\ near tt (a41 F) (a41 G) /\ near tt (a42 F) (a42 G) /\ near tt (a43 F) (a43 G) /\
  near tt (b1 F) (b1 G) /\ near tt (b2 F) (b2 G) /\ near tt (b3 F) (b3 G) /\ near tt (b4 F) (b4 G).
Definition near_list (tt : Z) (l : list (R * R)) (l' : list (Z * Z)) : Prop := Forall2 (fun a b => near tt (fst a) (fst b) /\ near tt (snd a) (snd b)) l l'.

Lemma rec_lin z l c : forall w w', rec z l (w * c) (w' * c) = rec z l w w' * c.
Proof.
  induction l as [|[m k] l IH]; intros w w'; cbn [rec]; [reflexivity|].
  rewrite <- IH. f_equal. ring.
Qed.
Lemma rec_0 l : rec 0 l 1 1 = 1.
Proof.
  induction l as [|[m k] l IH]; cbn [rec]; [reflexivity|].
  replace (m * 0 * 1 + (1 + k) * 1 - k * 1) with 1 by ring. exact IH.
Qed.
Lemma polyR_0 m1 l F : polyR m1 l F 0 = 1.
Proof. unfold polyR, p_w. rewrite Rmult_0_r, Rplus_0_r, rec_0. ring. Qed.

(* ---- enclosing boxes ------------------------------------------------------------- *)
Section Boxes.
Variable L4 : Z.
Variable tt : Z.
Hypothesis Htt : (0 <= tt)%Z.
Notation near := (near tt). Notation near_list := (near_list tt). Notation near_fin := (near_fin tt). Notation tau := (tau tt).
Definition zx (x : R) : R := IZR L4 / 2000 * (x - 1).
Definition Den : Z := 4000 * T19.
Lemma T19_pos : 0 < IZR T19. Proof. apply IZR_lt. reflexivity. Qed.
Lemma Den_pos : (0 < Den)%Z. Proof. reflexivity. Qed.
Lemma Den_R : IZR Den = 4000 * IZR T19. Proof. unfold Den. now rewrite mult_IZR. Qed.

Lemma fl_ok a b : (0 < b)%Z -> Rabs (IZR a / IZR b - IZR (a / b)) <= 1.
Proof.
  intros Hb. assert (Hb' : 0 < IZR b) by (apply (IZR_lt 0); assumption).
  assert (H := Z.div_mod a b ltac:(lia)). assert (H' := Z.mod_pos_bound a b Hb).
  replace (IZR a / IZR b - IZR (a / b)) with (IZR (a mod b) / IZR b).
  - rewrite Rabs_right.
    + apply (Rmult_le_reg_r (IZR b)); [assumption|]. unfold Rdiv. rewrite Rmult_assoc, Rinv_l, Rmult_1_r, Rmult_1_l by lra. apply IZR_le. lia.
    + apply Rle_ge, Rmult_le_pos; [apply IZR_le; lia|left; now apply Rinv_0_lt_compat].
  - apply (f_equal IZR) in H. rewrite plus_IZR, mult_IZR in H. rewrite H. field. lra.
Qed.

Definition cz (q c : Z) : Z := (2 ^ q * (c * L4) / Den)%Z.
Definition bz (q c : Z) (X : box) : box := let z := cz q c in bscal z (2 + Z.shiftr (Z.abs z + 1) tt) (badd (btwox X) (bint (-2) X)).
Lemma shr_tau V : IZR V * tau <= IZR (Z.shiftr V tt) + 1.
Proof.
  unfold Rock4Poly.tau. assert (H : 0 < IZR (2 ^ tt)) by (apply IZR_lt; now apply Z.pow_pos_nonneg).
  apply (Rmult_le_reg_r (IZR (2 ^ tt))); [assumption|]. rewrite Rmult_assoc, Rinv_l, Rmult_1_r by lra.
  rewrite <- plus_IZR, <- mult_IZR. apply IZR_le. rewrite Z.shiftr_div_pow2 by assumption.
  pose proof (Z.div_mod V (2 ^ tt)). pose proof (Z.mod_pos_bound V (2 ^ tt)). assert (0 < 2 ^ tt)%Z by (now apply Z.pow_pos_nonneg). lia.
Qed.
Lemma tau_pos : 0 <= tau. Proof. left. apply Rinv_0_lt_compat. apply IZR_lt. now apply Z.pow_pos_nonneg. Qed.
Lemma good_z Sc X f q c v : near v c -> good Sc X f -> good (Sc * IZR (2 ^ q)) (bz q c X) (fun x => v * zx x * f x).
Proof.
  intros Hv H. unfold bz. cbv zeta.
  apply (good_ext _ _ (fun x => v * IZR L4 / 4000 * (2 * x * f x + IZR (-2) * f x))).
  { intros x. unfold zx. change (IZR (-2)) with (-2). field. }
  apply good_scal; [apply good_add; [now apply good_twox|now apply good_int]|].
  assert (HT := T19_pos).
  assert (H1 : Rabs (IZR (2 ^ q) * (rl c * IZR L4 / 4000) - IZR (cz q c)) <= 1).
  { replace (IZR (2 ^ q) * (rl c * IZR L4 / 4000)) with (IZR (2 ^ q * (c * L4)) / IZR Den); [apply fl_ok, Den_pos|].
    rewrite !mult_IZR, Den_R. unfold rl. field. lra. }
  set (u := IZR (2 ^ q) * (rl c * IZR L4 / 4000)) in *.
  assert (H2 : Rabs (IZR (2 ^ q) * (v * IZR L4 / 4000) - u) <= Rabs u * tau).
  { unfold u. replace (IZR (2 ^ q) * (v * IZR L4 / 4000) - IZR (2 ^ q) * (rl c * IZR L4 / 4000)) with ((IZR (2 ^ q) * (IZR L4 / 4000)) * (v - rl c)) by field.
    replace (IZR (2 ^ q) * (rl c * IZR L4 / 4000)) with ((IZR (2 ^ q) * (IZR L4 / 4000)) * rl c) by field.
    rewrite !(Rabs_mult (_ * _)), Rmult_assoc. apply Rmult_le_compat_l; [apply Rabs_pos|exact Hv]. }
  assert (H3 : Rabs u <= IZR (Z.abs (cz q c) + 1)).
  { rewrite plus_IZR, abs_IZR. replace u with (u - IZR (cz q c) + IZR (cz q c)) by ring. eapply Rle_trans; [apply Rabs_triang|]. lra. }
  assert (H4 := shr_tau (Z.abs (cz q c) + 1)).
  assert (H5 : Rabs u * tau <= IZR (Z.abs (cz q c) + 1) * tau) by (apply Rmult_le_compat_r; [apply tau_pos|assumption]).
  rewrite plus_IZR. replace (IZR (2 ^ q) * (v * IZR L4 / 4000) - IZR (cz q c)) with ((IZR (2 ^ q) * (v * IZR L4 / 4000) - u) + (u - IZR (cz q c))) by ring.
  eapply Rle_trans; [apply Rabs_triang|]. lra.
Qed.

Definition bone (p : Z) : box := ([2 ^ p], 0, 2 ^ p)%Z.
Lemma good_one p : (0 <= p)%Z -> good (IZR (2 ^ p)) (bone p) (fun _ => 1).
Proof.
  intros Hp. assert (Hq : (0 < 2 ^ p)%Z) by (now apply Z.pow_pos_nonneg).
  split; [|split; [|split; [lia|lia]]].
  - exists []. split; [cbn; lra|]. split; [cbn; lia|]. intros x. unfold ev. cbn. ring.
  - cbn. rewrite Rabs_right; [lra|]. apply Rle_ge. apply IZR_le. lia.
Qed.
(* 1 + sum of c z u, the c and u given by a list *)
Fixpoint bsum (q : Z) (X : box) (l : list (Z * box)) : box :=
  match l with [] => X | (c, U) :: t => bsum q (badd X (bz q c U)) t end.
Definition bu (p q : Z) (l : list (Z * box)) : box := bshr q (bsum q (bint (2 ^ q) (bone p)) l).
Fixpoint rsm (a : R) (l : list (R * (R -> R))) (x : R) : R :=
  match l with [] => a | (c, u) :: t => rsm (a + c * zx x * u x) t x end.
Lemma good_bsum Sc q : forall l l' X f, Forall2 (fun a b => near (fst b) (fst a) /\ good Sc (snd a) (snd b)) l l' ->
  good (Sc * IZR (2 ^ q)) X f -> good (Sc * IZR (2 ^ q)) (bsum q X l) (fun x => rsm (f x) l' x).
Proof.
  induction l as [|[c U] l IH]; intros l' X f H HX; inversion H; subst; cbn [bsum rsm]; [assumption|].
  destruct y as [c' u]. destruct H2 as [E G]. cbn in E, G. cbn [rsm].
  apply (IH l'0 (badd X (bz q c U)) (fun x => f x + c' * zx x * u x)); [assumption|].
  apply good_add; [assumption|]. now apply good_z.
Qed.
Lemma good_bu p q l l' : (0 <= p)%Z -> (0 <= q)%Z -> Forall2 (fun a b => near (fst b) (fst a) /\ good (IZR (2 ^ p)) (snd a) (snd b)) l l' ->
  good (IZR (2 ^ p)) (bu p q l) (fun x => rsm 1 l' x).
Proof.
  intros Hp Hq H. unfold bu.
  assert (Hq' : (0 < 2 ^ q)%Z) by (now apply Z.pow_pos_nonneg). apply IZR_lt in Hq'.
  apply (good_sc (IZR (2 ^ p) * IZR (2 ^ q) / IZR (2 ^ q))); [field; lra|].
  apply good_shr; [assumption|]. apply (good_bsum (IZR (2 ^ p)) q l l' _ (fun _ => 1) H).
  assert (G := good_int _ _ _ (2 ^ q) (good_one p Hp)).
  assert (G' : good (IZR (2 ^ p)) (bint (2 ^ q) (bone p)) (fun _ => IZR (2 ^ q) * 1)) by exact G. clear G.
  destruct (bint (2 ^ q) (bone p)) as [[P e] n]. destruct G' as ((dl & A1 & A2 & A3) & B). split; [|exact B].
  exists dl. split; [assumption|]. split; [assumption|]. intros x. rewrite <- A3. ring.
Qed.

Definition bw (p q : Z) (F : fin Z) : box :=
  let one := bone p in
  let U2 := bu p q [(a21 F, one)] in
  let U3 := bu p q [(a31 F, one); (a32 F, U2)] in
  let U4 := bu p q [(a41 F, one); (a42 F, U2); (a43 F, U3)] in
  bu p q [(b1 F, one); (b2 F, U2); (b3 F, U3); (b4 F, U4)].
Lemma good_w p q F FR : near_fin FR F -> (0 <= p)%Z -> (0 <= q)%Z -> good (IZR (2 ^ p)) (bw p q F) (fun x => p_w FR (zx x)).
Proof.
  intros (N1 & N2 & N3 & N4 & N5 & N6 & N7 & N8 & N9 & N10) Hp Hq. unfold bw. assert (G1 := good_one p Hp).
  assert (G2 : good (IZR (2 ^ p)) (bu p q [(a21 F, bone p)]) (fun x => p_u2 FR (zx x))).
  { eapply good_ext; [|apply (good_bu p q _ [(a21 FR, fun _ => 1)] Hp Hq)]; [intros x; unfold p_u2; cbn [rsm]; ring|].
    repeat first [apply Forall2_nil | apply Forall2_cons; [split; assumption|]]. }
  set (U2 := bu p q [(a21 F, bone p)]) in *.
  assert (G3 : good (IZR (2 ^ p)) (bu p q [(a31 F, bone p); (a32 F, U2)]) (fun x => p_u3 FR (zx x))).
  { eapply good_ext; [|apply (good_bu p q _ [(a31 FR, fun _ => 1); (a32 FR, fun x => p_u2 FR (zx x))] Hp Hq)];
      [intros x; unfold p_u3; cbn [rsm]; ring|]. repeat first [apply Forall2_nil | apply Forall2_cons; [split; assumption|]]. }
  set (U3 := bu p q [(a31 F, bone p); (a32 F, U2)]) in *.
  assert (G4 : good (IZR (2 ^ p)) (bu p q [(a41 F, bone p); (a42 F, U2); (a43 F, U3)]) (fun x => p_u4 FR (zx x))).
  { eapply good_ext; [|apply (good_bu p q _ [(a41 FR, fun _ => 1); (a42 FR, fun x => p_u2 FR (zx x)); (a43 FR, fun x => p_u3 FR (zx x))] Hp Hq)];
      [intros x; unfold p_u4; cbn [rsm]; ring|]. repeat first [apply Forall2_nil | apply Forall2_cons; [split; assumption|]]. }
  set (U4 := bu p q [(a41 F, bone p); (a42 F, U2); (a43 F, U3)]) in *.
  eapply good_ext; [|apply (good_bu p q _ [(b1 FR, fun _ => 1); (b2 FR, fun x => p_u2 FR (zx x)); (b3 FR, fun x => p_u3 FR (zx x)); (b4 FR, fun x => p_u4 FR (zx x))] Hp Hq)];
    [intros x; unfold p_w; cbn [rsm]; ring|]. repeat first [apply Forall2_nil | apply Forall2_cons; [split; assumption|]].
Qed.

(* ---- the recurrence ------------------------------------------------------------------ *)
(* coefficients P, Q of two consecutive stages with their norms, bounds E, E' of the errors, D of
   the growth of the error; a/Den is the quotient of the scales of Q and P.
   A stage becomes  2x P - Q + (b P + c Q)/2^q  with small b, c. *)
Record rst := mkRst { r_P : list Z; r_nP : Z; r_Q : list Z; r_nQ : Z; r_E : Z; r_E' : Z; r_D : Z; r_a : Z }.
Definition rstage (m k : Z) (s : rst) : rst :=
  let '(mkRst P nP Q nQ E E' D a') := s in
  let a := (m * L4)%Z in
  let q := Z.max 1 (Z.log2 nP - 6) in
  let b := (2 ^ q * (4000 * (T19 + k) - 2 * a) / a)%Z in
  let c := (2 ^ q * (a * a' - 4000 * k * Den) / (a * a'))%Z in
  let N := padd (padd (twox P) (scal (-1) Q)) (map (fun x => Z.shiftr x q) (padd (scal b P) (scal c Q))) in
  let D' := (D + (Z.shiftr ((Z.abs b + 1) * E + (Z.abs c + 1) * E' + nP + nQ) q + 1 + Z.of_nat (length P)
    + (Z.shiftr ((Z.shiftr (Z.abs b + 1) q + 7) * (nP + E) + (Z.shiftr (Z.abs c + 1) q + 2) * (nQ + E')) tt + 1)))%Z in
  mkRst N (zsum N) P nP (E + D') E D' a.
Fixpoint rloop (l : list (Z * Z)) (s : rst) : rst :=
  match l with
  | [] => s
  | (m, k) :: t => rloop t (rstage m k s)
  end.
Definition inv (Sp : R) (s : rst) (w w' : R -> R) : Prop :=
  let '(mkRst P nP Q nQ E E' D a') := s in
  let Sc := Sp / (IZR a' / IZR Den) in
  (0 < a')%Z /\ (0 <= E)%Z /\ (0 <= E')%Z /\ (0 <= D)%Z /\ (0 <= nP)%Z /\ (0 <= nQ)%Z /\ (length Q <= length P)%nat /\
  norm1 (toR P) <= IZR nP /\ norm1 (toR Q) <= IZR nQ /\ enc Sp Q (IZR E') w' /\
  forall k, exists dl, norm1 dl <= IZR E + INR k * IZR D /\ (length dl <= length P + k)%nat /\
    forall x, ev dl x = Vn (S k) x * (Sc * w x - ev (toR P) x) - Vn k x * (Sp * w' x - ev (toR Q) x).

Lemma inv_enc Sp s w w' : inv Sp s w w' -> enc (Sp / (IZR (r_a s) / IZR Den)) (r_P s) (IZR (r_E s)) w.
Proof.
  destruct s as [P nP Q nQ E E' D a']. cbn [inv r_P r_E r_a]. intros (_ & _ & _ & _ & _ & _ & _ & _ & _ & _ & H).
  destruct (H 0%nat) as (dl & A & B & C). exists dl. cbn [INR] in A. rewrite Nat.add_0_r in B.
  split; [lra|]. split; [exact B|]. intros x. rewrite C. cbn [Vn]. ring.
Qed.
Lemma inv_start Sp P nP Q nQ E E' w w' : good Sp (P, E, nP) w -> good Sp (Q, E', nQ) w' -> (length Q <= length P)%nat ->
  inv Sp (mkRst P nP Q nQ E E' (E + E') Den) w w'.
Proof.
  intros (A & B & C & D) (A' & B' & C' & D') Hl. cbn [inv].
  assert (HD : 0 < IZR Den) by (apply IZR_lt, Den_pos).
  repeat (split; [first [assumption|lia|reflexivity]|]).
  intros k. destruct A as (dl & A1 & A2 & A3). destruct A' as (dm & B1 & B2 & B3).
  destruct (umul (S k) dl) as (l1 & U1 & U2 & U3). destruct (umul k dm) as (l2 & W1 & W2' & W3).
  exists (rpadd l1 (rscal (-1) l2)). split; [|split].
  - eapply Rle_trans; [apply norm1_rpadd|]. rewrite norm1_rscal.
    replace (Rabs (-1)) with 1 by (rewrite Rabs_left; lra). rewrite plus_IZR.
    assert (INR (S k) * norm1 dl <= INR (S k) * IZR E) by (apply Rmult_le_compat_l; [apply pos_INR|assumption]).
    assert (INR k * norm1 dm <= INR k * IZR E') by (apply Rmult_le_compat_l; [apply pos_INR|assumption]).
    rewrite S_INR in *. lra.
  - rewrite length_rpadd, length_rscal. lia.
  - intros x. unfold ev in *. rewrite evn_rpadd, evn_rscal, U3, W3.
    replace (Sp / (IZR Den / IZR Den)) with Sp by (field; lra). rewrite A3, B3. ring.
Qed.

Lemma inv_stage Sp s w w' m k mu ka : (0 < m)%Z -> (0 <= k)%Z -> (0 < L4)%Z -> near mu m -> near ka k -> inv Sp s w w' ->
  inv (Sp / (IZR (r_a s) / IZR Den)) (rstage m k s) (fun x => mu * zx x * w x + (1 + ka) * w x - ka * w' x) w.
Proof.
  intros Hm Hk HL Hmu Hka. destruct s as [P nP Q nQ E E' D a']. intros Hi. assert (HE := inv_enc _ _ _ _ Hi). revert Hi HE.
  cbn [r_a r_P r_E]. unfold rstage.
  set (a := (m * L4)%Z). set (q := Z.max 1 (Z.log2 nP - 6)).
  set (b := (2 ^ q * (4000 * (T19 + k) - 2 * a) / a)%Z). set (c := (2 ^ q * (a * a' - 4000 * k * Den) / (a * a'))%Z).
  set (F := map (fun x => Z.shiftr x q) (padd (scal b P) (scal c Q))).
  set (N := padd (padd (twox P) (scal (-1) Q)) F).
  set (gam := (Z.shiftr ((Z.abs b + 1) * E + (Z.abs c + 1) * E' + nP + nQ) q + 1 + Z.of_nat (length P)
    + (Z.shiftr ((Z.shiftr (Z.abs b + 1) q + 7) * (nP + E) + (Z.shiftr (Z.abs c + 1) q + 2) * (nQ + E')) tt + 1))%Z).
  cbn [inv]. intros (Ha' & HE0 & HE0' & HD0 & HnP & HnQ & Hlen & HP & HQ & HencQ & HI) HencP.
  assert (Ha : (0 < a)%Z) by (unfold a; nia).
  assert (Hq : (0 <= q)%Z) by (unfold q; lia).
  assert (H2 : (0 < 2 ^ q)%Z) by (now apply Z.pow_pos_nonneg). assert (H2' := IZR_lt _ _ H2).
  assert (HaR := IZR_lt _ _ Ha). assert (HaR' := IZR_lt _ _ Ha'). assert (HDR := IZR_lt _ _ Den_pos). assert (HT := T19_pos). assert (HDen := Den_R).
  assert (HL' := IZR_lt _ _ HL).
  set (Sc := Sp / (IZR a' / IZR Den)) in *.
  set (Bt := (1 + rl k) / (IZR a / IZR Den) - 2). set (Kt := rl k / (IZR a / IZR Den) / (IZR a' / IZR Den)).
  assert (HB : Rabs (IZR (2 ^ q) * Bt - IZR b) <= 1).
  { replace (IZR (2 ^ q) * Bt) with (IZR (2 ^ q * (4000 * (T19 + k) - 2 * a)) / IZR a); [apply fl_ok, Ha|].
    unfold Bt, rl. rewrite !mult_IZR, minus_IZR, !mult_IZR, plus_IZR, HDen. field. lra. }
  assert (HC : Rabs (IZR (2 ^ q) * (1 - Kt) - IZR c) <= 1).
  { replace (IZR (2 ^ q) * (1 - Kt)) with (IZR (2 ^ q * (a * a' - 4000 * k * Den)) / IZR (a * a')); [apply fl_ok; nia|].
    unfold Kt, rl. rewrite !mult_IZR, minus_IZR, !mult_IZR, HDen. field. lra. }
  set (sb := Z.shiftr (Z.abs b + 1) q) in *. set (sc := Z.shiftr (Z.abs c + 1) q) in *.
  assert (Hsb : (0 <= sb)%Z) by (apply Z.shiftr_nonneg; lia). assert (Hsc : (0 <= sc)%Z) by (apply Z.shiftr_nonneg; lia).
  assert (Hgam : (0 <= gam)%Z).
  { unfold gam. assert (0 <= Z.shiftr ((Z.abs b + 1) * E + (Z.abs c + 1) * E' + nP + nQ) q)%Z by (apply Z.shiftr_nonneg; nia).
    assert (0 <= Z.shiftr ((sb + 7) * (nP + E) + (sc + 2) * (nQ + E')) tt)%Z by (apply Z.shiftr_nonneg; nia). lia. }
  assert (HlenN : length N = S (length P)).
  { unfold N, F. rewrite !length_padd, map_length, length_padd, !length_scal, length_twox. lia. }
  (* the perturbation of the recurrence *)
  assert (HG : exists G, norm1 G <= IZR gam /\ (length G <= S (length P))%nat /\ forall x,
    ev G x = (Sc / (IZR a / IZR Den) * (mu * zx x * w x + (1 + ka) * w x - ka * w' x) - ev (toR N) x)
             - 2 * x * (Sc * w x - ev (toR P) x) + (Sp * w' x - ev (toR Q) x)).
  { destruct HencP as (dl & P1 & P2 & P3). destruct HencQ as (dm & Q1 & Q2 & Q3).
    destruct (rdiv_rest (2 ^ q) (padd (scal b P) (scal c Q)) H2) as (r & R1 & R2 & R3).
    assert (EF : F = rdiv (2 ^ q) (padd (scal b P) (scal c Q))) by (apply shr_map; assumption).
    assert (Hmp : 0 < rl m) by (apply Rmult_lt_0_compat; [now apply IZR_lt|now apply Rinv_0_lt_compat]).
    assert (Hkp : 0 <= rl k) by (apply Rmult_le_pos; [now apply IZR_le|left; now apply Rinv_0_lt_compat]).
    set (al := IZR a / IZR Den). set (al' := IZR a' / IZR Den).
    assert (Hal : 0 < al) by (apply Rmult_lt_0_compat; [assumption|now apply Rinv_0_lt_compat]).
    assert (Hal' : 0 < al') by (apply Rmult_lt_0_compat; [assumption|now apply Rinv_0_lt_compat]).
    assert (Ial := Rinv_0_lt_compat _ Hal). assert (Ial' := Rinv_0_lt_compat _ Hal').
    set (iq := / IZR (2 ^ q)). assert (Hiq : 0 < iq) by (now apply Rinv_0_lt_compat).
    assert (Hiq2 : IZR (2 ^ q) * iq = 1) by (unfold iq; field; lra).
    set (ep := (mu - rl m) / rl m).
    assert (Hep : Rabs ep <= tau).
    { unfold ep, Rdiv. rewrite Rabs_mult, (Rabs_right (/ _)) by (left; now apply Rinv_0_lt_compat).
      apply (Rmult_le_reg_r (rl m)); [assumption|]. rewrite Rmult_assoc, Rinv_l, Rmult_1_r by lra.
      unfold Rock4Poly.near in Hmu. rewrite (Rabs_right (rl m)) in Hmu by lra. lra. }
    assert (Hdk : Rabs (ka - rl k) <= rl k * tau) by (unfold Rock4Poly.near in Hka; rewrite (Rabs_right (rl k)) in Hka by lra; exact Hka).
    set (Bt' := (1 + ka) / al - 2). set (Kt' := ka / al / al').
    assert (HB1 : Rabs (Bt - IZR b * iq) <= iq).
    { replace (Bt - IZR b * iq) with ((IZR (2 ^ q) * Bt - IZR b) * iq) by (unfold iq; field; lra).
      rewrite Rabs_mult, (Rabs_right iq) by lra. rewrite <- (Rmult_1_l iq) at 2. apply Rmult_le_compat_r; lra. }
    assert (HC1 : Rabs (1 - Kt - IZR c * iq) <= iq).
    { replace (1 - Kt - IZR c * iq) with ((IZR (2 ^ q) * (1 - Kt) - IZR c) * iq) by (unfold iq; field; lra).
      rewrite Rabs_mult, (Rabs_right iq) by lra. rewrite <- (Rmult_1_l iq) at 2. apply Rmult_le_compat_r; lra. }
    assert (HBt : Rabs Bt <= (IZR (Z.abs b) + 1) * iq).
    { replace Bt with (IZR b * iq + (Bt - IZR b * iq)) by ring. eapply Rle_trans; [apply Rabs_triang|].
      rewrite Rabs_mult, (Rabs_right iq) by lra. rewrite abs_IZR. lra. }
    assert (HKt : Rabs (1 - Kt) <= (IZR (Z.abs c) + 1) * iq).
    { replace (1 - Kt) with (IZR c * iq + (1 - Kt - IZR c * iq)) by ring. eapply Rle_trans; [apply Rabs_triang|].
      rewrite Rabs_mult, (Rabs_right iq) by lra. rewrite abs_IZR. lra. }
    assert (Hshr : forall V, IZR V * iq <= IZR (Z.shiftr V q) + 1).
    { intros V. unfold iq. apply (Rmult_le_reg_r (IZR (2 ^ q))); [assumption|]. rewrite Rmult_assoc, Rinv_l, Rmult_1_r by lra.
      rewrite <- plus_IZR, <- mult_IZR. apply IZR_le. rewrite Z.shiftr_div_pow2 by assumption.
      pose proof (Z.div_mod V (2 ^ q)). pose proof (Z.mod_pos_bound V (2 ^ q)). lia. }
    assert (Hub := Hshr (Z.abs b + 1)%Z). fold sb in Hub. rewrite plus_IZR in Hub.
    assert (Huc := Hshr (Z.abs c + 1)%Z). fold sc in Huc. rewrite plus_IZR in Huc.
    assert (Htau := tau_pos).
    (* the effect of the uncertainty of kappa *)
    assert (HdB : Rabs (Bt' - Bt) <= tau * (IZR sb + 3)).
    { replace (Bt' - Bt) with ((ka - rl k) * / al) by (unfold Bt', Bt; fold al; field; lra).
      rewrite Rabs_mult, (Rabs_right (/ al)) by lra.
      apply Rle_trans with (rl k * tau * / al); [apply Rmult_le_compat_r; lra|].
      replace (rl k * tau * / al) with (tau * (rl k * / al)) by ring. apply Rmult_le_compat_l; [assumption|].
      assert (X : Bt = / al + rl k * / al - 2) by (unfold Bt; fold al; field; lra).
      pose proof (Rle_abs Bt). lra. }
    assert (HdK : Rabs (Kt' - Kt) <= tau * (IZR sc + 2)).
    { replace (Kt' - Kt) with ((ka - rl k) * (/ al * / al')) by (unfold Kt', Kt; fold al al'; field; lra).
      assert (HP2 : 0 < / al * / al') by (now apply Rmult_lt_0_compat).
      rewrite Rabs_mult, (Rabs_right (/ al * / al')) by lra.
      apply Rle_trans with (rl k * tau * (/ al * / al')); [apply Rmult_le_compat_r; lra|].
      replace (rl k * tau * (/ al * / al')) with (tau * Kt) by (unfold Kt; fold al al'; field; lra). apply Rmult_le_compat_l; [assumption|].
      assert (X : Kt = 1 - (1 - Kt)) by ring. assert (Y := Rle_abs (- (1 - Kt))). rewrite Rabs_Ropp in Y. lra. }
    assert (Hb1 : Rabs (Bt' - IZR b * iq) <= iq + tau * (IZR sb + 3)).
    { replace (Bt' - IZR b * iq) with ((Bt - IZR b * iq) + (Bt' - Bt)) by ring. eapply Rle_trans; [apply Rabs_triang|]. lra. }
    assert (HBt' : Rabs Bt' <= (IZR (Z.abs b) + 1) * iq + tau * (IZR sb + 3)).
    { replace Bt' with (Bt + (Bt' - Bt)) at 1 by ring. eapply Rle_trans; [apply Rabs_triang|]. lra. }
    assert (Hc1 : Rabs (1 - Kt' - IZR c * iq) <= iq + tau * (IZR sc + 2)).
    { replace (1 - Kt' - IZR c * iq) with ((1 - Kt - IZR c * iq) + - (Kt' - Kt)) by ring. eapply Rle_trans; [apply Rabs_triang|]. rewrite Rabs_Ropp. lra. }
    assert (HKt' : Rabs (1 - Kt') <= (IZR (Z.abs c) + 1) * iq + tau * (IZR sc + 2)).
    { replace (1 - Kt') with ((1 - Kt) + - (Kt' - Kt)) by ring. eapply Rle_trans; [apply Rabs_triang|]. rewrite Rabs_Ropp. lra. }
    set (X := rpadd (toR P) dl). set (X2 := rpadd (rtwox X) (rscal (-2) X)).
    assert (HX : norm1 X <= IZR nP + IZR E) by (eapply Rle_trans; [apply norm1_rpadd|]; lra).
    assert (HX2 : norm1 X2 <= 4 * (IZR nP + IZR E)).
    { eapply Rle_trans; [apply norm1_rpadd|]. rewrite norm1_rscal. replace (Rabs (-2)) with 2 by (rewrite Rabs_left; lra).
      pose proof (norm1_rtwox X). lra. }
    exists (rpadd (rpadd (rpadd (rscal (Bt' - IZR b * iq) (toR P)) (rscal Bt' dl)) (rpadd (rpadd (rscal (1 - Kt' - IZR c * iq) (toR Q)) (rscal (1 - Kt') dm)) r)) (rscal ep X2)).
    rewrite length_padd, !length_scal in R1, R2. rewrite Nat.max_l in R1, R2 by assumption.
    split; [|split].
    - apply Rle_trans with ((((iq + tau * (IZR sb + 3)) * IZR nP + ((IZR (Z.abs b) + 1) * iq + tau * (IZR sb + 3)) * IZR E) +
        (((iq + tau * (IZR sc + 2)) * IZR nQ + ((IZR (Z.abs c) + 1) * iq + tau * (IZR sc + 2)) * IZR E') + INR (length P))) + tau * (4 * (IZR nP + IZR E))).
      + assert (forall u v s t, Rabs u <= s -> norm1 v <= t -> norm1 (rscal u v) <= s * t) as HS.
        { intros u v s t Hu Hv. rewrite norm1_rscal. apply Rmult_le_compat; [apply Rabs_pos|apply norm1_pos|assumption|assumption]. }
        eapply Rle_trans; [apply norm1_rpadd|]. apply Rplus_le_compat; [|now apply HS].
        eapply Rle_trans; [apply norm1_rpadd|]. apply Rplus_le_compat.
        * eapply Rle_trans; [apply norm1_rpadd|]. apply Rplus_le_compat; now apply HS.
        * eapply Rle_trans; [apply norm1_rpadd|]. apply Rplus_le_compat; [|assumption].
          eapply Rle_trans; [apply norm1_rpadd|]. apply Rplus_le_compat; now apply HS.
      + unfold gam.
        assert (HV := Hshr ((Z.abs b + 1) * E + (Z.abs c + 1) * E' + nP + nQ)%Z).
        assert (HW := shr_tau ((sb + 7) * (nP + E) + (sc + 2) * (nQ + E'))%Z).
        set (V := Z.shiftr ((Z.abs b + 1) * E + (Z.abs c + 1) * E' + nP + nQ) q) in *.
        set (W := Z.shiftr ((sb + 7) * (nP + E) + (sc + 2) * (nQ + E')) tt) in *.
        clearbody V W sb sc. rewrite !plus_IZR, !mult_IZR, !plus_IZR in HV. rewrite plus_IZR, !mult_IZR, !plus_IZR in HW. rewrite !plus_IZR, <- INR_IZR_INZ. lra.
    - unfold X2, X. rewrite !length_rpadd, !length_rscal, !length_rpadd, length_rtwox, !length_rscal, !length_rpadd, !length_toR. lia.
    - intros x. unfold X2, X. assert (XT := ev_rtwox (rpadd (toR P) dl) x). unfold ev in *. rewrite !evn_rpadd, !evn_rscal, !evn_rpadd, XT, !evn_rscal, !evn_rpadd.
      assert (EN : evn 0 (toR N) x = 2 * x * evn 0 (toR P) x - evn 0 (toR Q) x + ((IZR b * evn 0 (toR P) x + IZR c * evn 0 (toR Q) x) / IZR (2 ^ q) - evn 0 r x)).
      { unfold N. rewrite EF, !toR_padd, !evn_rpadd, toR_twox, toR_scal, evn_rscal.
        assert (X1 := ev_rtwox (toR P) x). unfold ev in X1. rewrite X1.
        specialize (R3 0%nat x). rewrite toR_padd, evn_rpadd, !toR_scal, !evn_rscal in R3. rewrite R3. field. lra. }
      rewrite EN. specialize (P3 x). specialize (Q3 x).
      replace (evn 0 dl x) with (Sc * w x - evn 0 (toR P) x) by lra.
      replace (evn 0 dm x) with (Sp * w' x - evn 0 (toR Q) x) by lra.
      assert (HS : Sp = Sc * al') by (unfold Sc, al'; field; lra).
      assert (Ez : rl m * zx x = al * (2 * x - 2)).
      { unfold rl, zx, al, a. rewrite mult_IZR, HDen. field. lra. }
      assert (Em : mu = rl m * (1 + ep)) by (unfold ep; field; lra).
      replace (mu * zx x * w x + (1 + ka) * w x - ka * w' x) with ((1 + ep) * (al * (2 * x - 2)) * w x + (1 + ka) * w x - ka * w' x) by (rewrite <- Ez, Em; ring).
      unfold Bt', Kt'. rewrite HS. unfold iq. field. lra. }
  destruct HG as (G & G1 & G2 & G3).
  repeat (split; [first [assumption|lia|apply zsum_pos|apply zsum_norm]|]).
  intros j. destruct (HI (S j)) as (dl & D1 & D2 & D3). destruct (umul (S j) G) as (u & U1 & U2 & U3).
  exists (rpadd dl u). split; [|split].
  - eapply Rle_trans; [apply norm1_rpadd|].
    assert (INR (S j) * norm1 G <= INR (S j) * IZR gam) by (apply Rmult_le_compat_l; [apply pos_INR|assumption]).
    rewrite !plus_IZR. rewrite S_INR in *. fold gam. lra.
  - rewrite length_rpadd, HlenN. lia.
  - intros x. unfold ev in *. rewrite evn_rpadd, D3, U3, G3. rewrite (Vn_SS j).
    replace (Sc / (IZR (m * L4) / IZR Den)) with (Sc / (IZR a / IZR Den)) by reflexivity. ring.
Qed.
Lemma rloop_enc l : forall lR Sp s w w', near_list lR l -> (0 < L4)%Z -> Forall (fun x => 0 < fst x /\ 0 <= snd x)%Z l -> 0 < Sp -> inv Sp s w w' ->
  exists Sf, 0 < Sf /\ enc Sf (r_P (rloop l s)) (IZR (r_E (rloop l s))) (fun x => rec (zx x) lR (w x) (w' x)).
Proof.
  assert (HDR := IZR_lt _ _ Den_pos).
  induction l as [|[m k] l IH]; intros lR Sp s w w' HN HL HF HS Hi; inversion HN as [|[mu ka] ? lR' ? [Nm Nk] HN']; subst; cbn [rloop rec].
  - exists (Sp / (IZR (r_a s) / IZR Den)). split; [|now apply (inv_enc Sp s w w')].
    assert (0 < IZR (r_a s)) by (destruct s as [P nP Q nQ E E' D a']; apply IZR_lt, Hi).
    unfold Rdiv. apply Rmult_lt_0_compat; [assumption|]. apply Rinv_0_lt_compat, Rmult_lt_0_compat; [assumption|now apply Rinv_0_lt_compat].
  - inversion HF as [|? ? [H1 H1'] H2]; subst. cbn in H1, H1', Nm, Nk.
    assert (Hi' := inv_stage Sp s w w' m k mu ka H1 H1' HL Nm Nk Hi).
    refine (IH _ _ _ _ _ HN' HL H2 _ Hi').
    assert (0 < IZR (r_a s)) by (destruct s as [P nP Q nQ E E' D a']; apply IZR_lt, Hi).
    unfold Rdiv. apply Rmult_lt_0_compat; [assumption|]. apply Rinv_0_lt_compat, Rmult_lt_0_compat; [assumption|now apply Rinv_0_lt_compat].
Qed.

(* the whole polynomial: the finishing factor and the first stage at scale 2^(p+50), then the loop *)
Definition rinit (p m1 : Z) (F : fin Z) : rst :=
  let q := (p + 60)%Z in
  let Y0 := bw (p + 50) q F in
  let '(X, eX, nX) := bshr (q + 50) (badd (bint (2 ^ q) Y0) (bz q m1 Y0)) in
  let '(Y, eY, nY) := bshr 50 Y0 in
  mkRst X nX Y nY eX eY (eX + eY) Den.
Lemma length_bshr q X : length (fst (fst (bshr q X))) = length (fst (fst X)).
Proof. destruct X as [[P e] n]. cbn. apply map_length. Qed.
Lemma rinit_inv p m1 F mu FR : near mu m1 -> near_fin FR F -> (0 <= p)%Z -> inv (IZR (2 ^ p)) (rinit p m1 F) (fun x => (1 + mu * zx x) * p_w FR (zx x)) (fun x => p_w FR (zx x)).
Proof.
  intros Nm NF Hp. unfold rinit. set (q := (p + 60)%Z). set (Y0 := bw (p + 50) q F).
  assert (HY : good (IZR (2 ^ (p + 50))) Y0 (fun x => p_w FR (zx x))) by (apply good_w; [assumption|lia|lia]).
  assert (H2 : forall n, (0 <= n)%Z -> 0 < IZR (2 ^ n)) by (intros; apply IZR_lt; now apply Z.pow_pos_nonneg).
  assert (HX : good (IZR (2 ^ p)) (bshr (q + 50) (badd (bint (2 ^ q) Y0) (bz q m1 Y0))) (fun x => (1 + mu * zx x) * p_w FR (zx x))).
  { apply (good_sc (IZR (2 ^ (p + 50)) * IZR (2 ^ q) / IZR (2 ^ (q + 50)))).
    { rewrite !Z.pow_add_r, !mult_IZR by (unfold q; lia). field. split; apply Rgt_not_eq, H2; unfold q; lia. }
    apply good_shr; [unfold q; lia|].
    apply (good_ext _ _ (fun x => p_w FR (zx x) + mu * zx x * p_w FR (zx x))); [intros; ring|].
    apply good_add; [|apply good_z; assumption].
    assert (G := good_int _ _ _ (2 ^ q) HY). destruct (bint (2 ^ q) Y0) as [[P e] n]. destruct G as ((dl & A1 & A2 & A3) & B).
    split; [|exact B]. exists dl. split; [assumption|]. split; [assumption|]. intros x. rewrite <- A3. ring. }
  assert (HY' : good (IZR (2 ^ p)) (bshr 50 Y0) (fun x => p_w FR (zx x))).
  { apply (good_sc (IZR (2 ^ (p + 50)) / IZR (2 ^ 50))).
    { rewrite Z.pow_add_r, mult_IZR by lia. field. apply Rgt_not_eq, H2. lia. }
    apply good_shr; [lia|assumption]. }
  assert (Hl : (length (fst (fst (bshr 50 Y0))) <= length (fst (fst (bshr (q + 50) (badd (bint (2 ^ q) Y0) (bz q m1 Y0))))))%nat).
  { rewrite !length_bshr. destruct Y0 as [[P e] n]. cbn. rewrite length_padd, length_scal. lia. }
  destruct (bshr (q + 50) _) as [[X eX] nX]. destruct (bshr 50 Y0) as [[Y eY] nY]. cbn in Hl.
  apply inv_start; assumption.
Qed.

(* points for the cells: tan(phi/2) = i/2^16 in the first half, symmetric in the second; away
   from the ends they are rounded to fewer digits *)
Definition pt0 (i : Z) : Z :=
  let A := (DD * (2 ^ 32 - i * i) / (2 ^ 32 + i * i))%Z in
  if (A <? 4000000)%Z then Z.shiftl (Z.shiftr A 9) 9 else A.
Definition pt (i : Z) : Z := if (i <=? 2 ^ 16)%Z then pt0 i else (- pt0 (2 ^ 17 - i))%Z.
Definition stable_check (p m1 : Z) (l : list (Z * Z)) (F : fin Z) : bool :=
  let s := rloop l (rinit p m1 F) in
  let q := Z.max 0 (Z.log2 (zs0 (r_P s)) - 21) in
  let '(C, e, _) := bshr q (r_P s, r_E s, r_nP s) in
  (0 <=? p)%Z && forallb (fun x => (0 <? fst x) && (0 <=? snd x))%Z l && 
  check C e pt (Z.min 29000 (Z.sqrt (5 * 2 ^ 33 * S2lo C e / W4 C e))).

Lemma stable_sound p m1 l F : (0 < L4)%Z -> stable_check p m1 l F = true ->
  forall mu lR FR, near mu m1 -> near_list lR l -> near_fin FR F -> forall z, - (IZR L4 / 1000) <= z <= 0 -> Rabs (polyR mu lR FR z) <= 1.
Proof.
  intros HL H mu lR FR Nm Nl NF z Hz. unfold stable_check in H. set (s := rloop l (rinit p m1 F)) in *.
  set (q := Z.max 0 (Z.log2 (zs0 (r_P s)) - 21)) in *.
  destruct (bshr q (r_P s, r_E s, r_nP s)) as [[C e] n] eqn:EB.
  apply andb_prop in H. destruct H as [H HC]. apply andb_prop in H. destruct H as [Hp HF].
  apply Z.leb_le in Hp.
  assert (HF' : Forall (fun x => 0 < fst x /\ 0 <= snd x)%Z l).
  { apply Forall_forall. intros x Hx. rewrite forallb_forall in HF. specialize (HF x Hx). apply andb_prop in HF. split; [apply Z.ltb_lt|apply Z.leb_le]; apply HF. }
  destruct (rloop_enc l lR (IZR (2 ^ p)) (rinit p m1 F) _ _ Nl HL HF' (IZR_lt _ _ (Z.pow_pos_nonneg 2 p eq_refl Hp)) (rinit_inv p m1 F mu FR Nm NF Hp)) as (Sf & HSf & G).
  fold s in G.
  assert (HE0 : (0 <= r_E s)%Z).
  { destruct G as (dl & G1 & _). apply le_IZR. eapply Rle_trans; [apply norm1_pos|exact G1]. }
  assert (GG : good Sf (r_P s, r_E s, zsum (r_P s)) (fun x => polyR mu lR FR (zx x))).
  { split; [|split; [apply zsum_norm|split; [assumption|apply zsum_pos]]].
    eapply enc_ext; [|exact G]. intros x. unfold polyR. rewrite <- rec_lin. now rewrite Rmult_1_l. }
  assert (Hq : (0 <= q)%Z) by (unfold q; lia).
  assert (G2 := good_shr Sf _ _ q Hq GG).
  assert (EB' : bshr q (r_P s, r_E s, zsum (r_P s)) = (C, e, n)) by exact EB. rewrite EB' in G2. destruct G2 as [G2 _].
  assert (HL' : 0 < IZR L4) by (apply (IZR_lt 0); assumption).
  set (x := 1 + 2000 * z / IZR L4).
  assert (Ez : z = zx x) by (unfold zx, x; field; lra).
  assert (P1 : polyR mu lR FR (zx 1) = 1) by (replace (zx 1) with 0 by (unfold zx; ring); apply polyR_0).
  rewrite Ez.
  apply (check_sound C e _ (fun x => polyR mu lR FR (zx x)) G2 P1 pt _ HC).
  unfold x. split; apply (Rmult_le_reg_r (IZR L4)); try assumption.
  - replace ((1 + 2000 * z / IZR L4) * IZR L4) with (IZR L4 + 2000 * z) by (field; lra). lra.
  - replace ((1 + 2000 * z / IZR L4) * IZR L4) with (IZR L4 + 2000 * z) by (field; lra). lra.
Qed.
End Boxes.
