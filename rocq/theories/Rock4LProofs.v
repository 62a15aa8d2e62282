(* C37, C38: the kernels of Rock4-L compute the ROCK4 step. *)
From Coq Require Import Reals Lra FunctionalExtensionality Permutation.
From Verif Require Import Base HessModel FieldLU Spec VecFun CMacros Rock4Model Rock4Spec Rock4Proofs Rock4Drive Rock4Step Rock4LModel Rock4LSpec.
Open Scope Z_scope.
Local Arguments Z.mul : simpl never.
Local Arguments Z.add : simpl never.
Local Arguments Z.sub : simpl never.
Notation Rheap := (heap (K := Rnum)).

Section Loop.
Variable Sg : Type.
Variables RECF FPA FPB : Z -> R.
Variable f : vec Rnum -> vec Rnum.
Variable Rel : Z -> Sg -> Prop.
Variable pres : list Z.
Variable H0 : Rheap.
Variable call : Rheap -> Sg -> Z -> Z -> R -> R -> R -> Z -> out (Rheap * Sg).
Hypothesis call_ok : forall H s n pin ps u v w pout, (forall p, In p pres -> H p = H0 p) -> pout <> pin -> pout <> ps -> ~ In pout pres -> Rel n s ->
  exists s', call H s pin ps u v w pout = Ok (hset H pout (v_lc3 (K := Rnum) u (f (H pin)) v (H pin) w (H ps)), s') /\ Rel (n + 1) s'.
Variables (h : R) (r : Z) (y : Z).
Notation G := (G (K := Rnum) RECF f h r (H0 y)).
Lemma l_loop_spec d i H s n g0 g1 g2 : right_block d i r -> NoDup [g0; g1; g2] -> (forall p, In p pres -> p <> g0 /\ p <> g1 /\ p <> g2) -> In y pres ->
  (forall p, In p pres -> H p = H0 p) -> H g1 = G 1 -> Rel n s ->
  wp (l_loop (K := Rnum) RECF call r d h y (H, s, g0, g1, g2)) (fun st => let '(H', s', p0, p1, p2) := st in
    H' p1 = G d /\ (forall p, In p pres -> H' p = H0 p) /\ Permutation [g0; g1; g2] [p0; p1; p2] /\ Rel (n + (d - 1)) s').
Proof.
  intros Hb HN Hpr Hy HH Hg HR. apply right_block_bounds in Hb. destruct Hb as (_ & Bd & Br1 & Br2).
  set (P := fun (j : Z) (st : Rheap * Sg * Z * Z * Z) => let '(H', s', p0, p1, p2) := st in
    H' p1 = G (j - 1) /\ (3 <= j -> H' p0 = G (j - 2)) /\ (forall p, In p pres -> H' p = H0 p) /\ Permutation [g0; g1; g2] [p0; p1; p2] /\ Rel (n + (j - 2)) s').
  assert (HL : wp (l_loop (K := Rnum) RECF call r d h y (H, s, g0, g1, g2)) (P (d + 1))).
  2:{ eapply wp_mono; [exact HL|]. intros [[[[H' s'] p0] p1] p2]. unfold P. replace (d + 1 - 1) with d by lia. replace (d + 1 - 2) with (d - 1) by lia. tauto. }
  unfold l_loop. apply forM_ind; [lia| |].
  - unfold P. change (2 - 1) with 1. replace (n + (2 - 2)) with n by lia. repeat split; auto. lia.
  - intros j [[[[H' s'] p0] p1] p2] Hj (E1 & E0 & Hq & HP & HR').
    assert (HN' : NoDup [p0; p1; p2]) by (eapply Permutation_NoDup; eassumption).
    assert (Hd : p0 <> p1 /\ p0 <> p2 /\ p1 <> p2) by (inversion HN' as [|? ? X1 X2]; inversion X2; simpl in *; intuition congruence).
    assert (Hpr' : forall p, In p pres -> p <> p0 /\ p <> p1 /\ p <> p2).
    { intros p Hp. pose proof (Hpr p Hp) as (Q0 & Q1 & Q2). assert (X : ~ In p [p0; p1; p2]) by (intros X; apply (Permutation_in _ (Permutation_sym HP)) in X; simpl in X; intuition congruence).
      simpl in X. intuition congruence. }
    assert (Hc : wp (if j =? 2 then c1 <- l_recf (K := Rnum) RECF (r + 1) ;; c2 <- l_recf RECF (r + 2) ;; Ok (c1, c2)
      else c1 <- l_recf RECF (r + 2 * (j - 2) + 1) ;; c2 <- l_recf RECF (r + 2 * (j - 2) + 2) ;; Ok (c1, c2)) (fun x => x = (c_mu (K := Rnum) RECF r j, c_ka (K := Rnum) RECF r j))).
    { unfold l_recf, c_mu, c_ka. destruct (Z.eqb_spec j 2) as [->|].
      - apply wp_rd; [lia|]. apply wp_rd; [lia|]. cbn [wp]. change (2 - 2) with 0. change (2 * 0) with 0. rewrite Z.add_0_r. reflexivity.
      - apply wp_rd; [lia|]. apply wp_rd; [lia|]. reflexivity. }
    apply wp_bind. eapply wp_mono; [exact Hc|]. intros [c1 c2] Ec. injection Ec as -> ->. cbv beta iota zeta.
    set (ps := if j =? 2 then y else p0).
    assert (Hps : p2 <> ps) by (unfold ps; destruct (j =? 2); [apply not_eq_sym, Hpr', Hy|intuition congruence]).
    assert (Hg0 : H' ps = G (j - 2)).
    { unfold ps. destruct (Z.eqb_spec j 2) as [->|]; [rewrite Hq by exact Hy; reflexivity|apply E0; lia]. }
    destruct (call_ok H' s' (n + (j - 2)) p1 ps (h * c_mu (K := Rnum) RECF r j)%R (1 - - c_ka (K := Rnum) RECF r j)%R (- c_ka (K := Rnum) RECF r j)%R p2 Hq ltac:(intuition congruence) Hps) as (s2 & Hcall & HR2).
    { intros X. apply Hpr' in X. tauto. }
    { exact HR'. }
    assert (E1' : @nlit Rnum 1 0 = 1%R) by apply Rlit_0. rewrite E1'.
    change (@nmul Rnum h (c_mu (K := Rnum) RECF r j)) with (h * c_mu (K := Rnum) RECF r j)%R.
    change (@nopp Rnum (c_ka (K := Rnum) RECF r j)) with (- c_ka (K := Rnum) RECF r j)%R.
    change (@nsub Rnum 1%R (- c_ka (K := Rnum) RECF r j)%R) with (1 - - c_ka (K := Rnum) RECF r j)%R.
    rewrite Hcall. cbn [bind wp]. unfold P. replace (j + 1 - 1) with j by lia. replace (j + 1 - 2) with (j - 1) by lia.
    split; [|split; [|split; [|split]]].
    + rewrite hset_eq, E1, Hg0, (G_rec _ _ _ _ _ j) by lia. rewrite E1'. reflexivity.
    + intros _. rewrite hset_ne by tauto. exact E1.
    + intros p Hp. rewrite hset_ne by (apply Hpr'; exact Hp). apply Hq. exact Hp.
    + eapply Permutation_trans; [exact HP|]. apply (Permutation_app_comm [p0] [p1; p2]).
    + replace (n + (j - 1)) with (n + (j - 2) + 1) by lia. exact HR2.
Qed.
End Loop.

(* the algebra of the finishing method *)
Section Alg.
Open Scope R_scope.
Variable A : vec Rnum -> vec Rnum.
Hypothesis HA : linear A.
Variable b : vec Rnum.
Notation f := (affine_rhs A b).
Lemma A_scale a x : A (fun i => a * x i) = (fun i => a * A x i).
Proof.
  transitivity (A (fun i => a * x i + 0 * x i)); [f_equal; extensionality i; ring|]. rewrite HA. extensionality i. ring.
Qed.
Lemma f_add x y : f (fun i => x i + y i) = (fun i => f x i + A y i).
Proof.
  unfold affine_rhs. transitivity (fun i => A (fun i => 1 * x i + 1 * y i) i + b i).
  - extensionality i. f_equal. f_equal. extensionality k. ring.
  - rewrite HA. extensionality i. ring.
Qed.
(* what the four stages amount to, P1 = f g, P2 = A P1, P3 = A P2, P4 = A P3 *)
Variables (a21 a31 a32 a41 a42 a43 b1 b2 b3 b4 h : R) (g : vec Rnum).
Definition Q1 := f g.
Definition Q2 := A Q1.
Definition Q3 := A Q2.
Definition Q4 := A Q3.
Lemma fk2 : fin_k2 f a21 h g = (fun i => Q1 i + h * a21 * Q2 i).
Proof.
  unfold fin_k2, fin_k1. rewrite (f_add g (fun i => h * (a21 * f g i))).
  replace (fun i => h * (a21 * f g i)) with (fun i => (h * a21) * f g i) by (extensionality i; ring). rewrite A_scale. reflexivity.
Qed.
Lemma A_comb x y u v : A (fun i => u * x i + v * y i) = (fun i => u * A x i + v * A y i).
Proof. apply HA. Qed.
Lemma fk3 : fin_k3 f a21 a31 a32 h g = (fun i => Q1 i + h * (a31 + a32) * Q2 i + h * h * (a32 * a21) * Q3 i).
Proof.
  unfold fin_k3, fin_k1. rewrite fk2. rewrite (f_add g (fun i => h * (a31 * f g i + a32 * (Q1 i + h * a21 * Q2 i)))).
  replace (fun i => h * (a31 * f g i + a32 * (Q1 i + h * a21 * Q2 i))) with (fun i => (h * (a31 + a32)) * Q1 i + (h * h * (a32 * a21)) * Q2 i)
    by (extensionality i; unfold Q1; ring).
  rewrite HA. extensionality i. unfold Q3, Q2, Q1. ring.
Qed.
Lemma fk4 : fin_k4 f a21 a31 a32 a41 a42 a43 h g = (fun i => Q1 i + h * (a41 + a42 + a43) * Q2 i + h * h * (a42 * a21 + a43 * (a31 + a32)) * Q3 i + h * h * h * (a43 * a32 * a21) * Q4 i).
Proof.
  unfold fin_k4, fin_k1. rewrite fk2, fk3. rewrite (f_add g (fun i => h * (a41 * f g i + a42 * (Q1 i + h * a21 * Q2 i) + a43 * (Q1 i + h * (a31 + a32) * Q2 i + h * h * (a32 * a21) * Q3 i)))).
  replace (fun i => h * (a41 * f g i + a42 * (Q1 i + h * a21 * Q2 i) + a43 * (Q1 i + h * (a31 + a32) * Q2 i + h * h * (a32 * a21) * Q3 i)))
    with (fun i => 1 * ((h * (a41 + a42 + a43)) * Q1 i + (h * h * (a42 * a21 + a43 * (a31 + a32))) * Q2 i) + (h * h * h * (a43 * a32 * a21)) * Q3 i)
    by (extensionality i; unfold Q1; ring).
  rewrite (HA 1 (h * h * h * (a43 * a32 * a21)) (fun i => (h * (a41 + a42 + a43)) * Q1 i + (h * h * (a42 * a21 + a43 * (a31 + a32))) * Q2 i) Q3), HA.
  extensionality i. unfold Q4, Q3, Q2, Q1. ring.
Qed.
Definition H1 := hc1 (K := Rnum) b1 b2 b3 b4.
Definition H2 := hc2 (K := Rnum) a21 a31 a32 a41 a42 a43 b2 b3 b4.
Definition H3 := hc3 (K := Rnum) a21 a31 a32 a42 a43 b3 b4.
Definition H4 := hc4 (K := Rnum) a21 a32 a43 b4.
Lemma fy_horner : fin_y f a21 a31 a32 a41 a42 a43 b1 b2 b3 b4 h g =
  (fun i => g i + h * H1 * Q1 i + h * h * H2 * Q2 i + h * h * h * H3 * Q3 i + h * h * h * h * H4 * Q4 i).
Proof.
  unfold fin_y, fin_k1. rewrite fk2, fk3, fk4. extensionality i. unfold H1, H2, H3, H4, hc1, hc2, hc3, hc4.
  cbn [nadd nmul Rnum]. fold Q1. ring.
Qed.
End Alg.

Lemma rowE (T : Z -> R) w i j : T ((i - 1) * w + j - 1) = row T w i j.
Proof. unfold row. f_equal. lia. Qed.

Section Kernels.
Variable Sg : Type.
Variable A : vec Rnum -> vec Rnum.
Hypothesis HA : linear A.
Variable opL : Sg -> vec Rnum -> vec Rnum -> R -> R -> Sg * vec Rnum.
Hypothesis HL : doc_L Sg A opL.
Variables RECF FPA FPB : Z -> R.
(* Rel n s: the object has applied the operator n times *)
Variable Rel : Z -> Sg -> Prop.
Hypothesis RelL : forall n s x u a b, Rel n s -> Rel (n + 1) (fst (opL s x u a b)).
Lemma callL_ok (H : Rheap) s n pin ps a b pout : pout <> pin -> pout <> ps -> Rel n s ->
  exists s', callL (K := Rnum) opL H s pin ps a b pout = Ok (hset H pout (fun i => (a * A (H pin) i + b * H ps i)%R), s') /\ Rel (n + 1) s'.
Proof.
  intros H1 H2 HR. unfold callL. destruct (Z.eqb_spec pout pin); [contradiction|]. destruct (Z.eqb_spec pout ps); [contradiction|]. cbn [orb].
  pose proof (HL s (H pin) (H ps) a b) as E. pose proof (RelL n s (H pin) (H ps) a b HR) as Er.
  destruct (opL s (H pin) (H ps) a b) as [s' v]. cbn in *. subst v. eauto.
Qed.
Lemma E1R : @nlit Rnum 1 0 = 1%R.
Proof. apply Rlit_0. Qed.

Local Ltac stepL := match goal with HRx : Rel ?n ?s |- context [callL opL ?H ?s ?pin ?ps ?a ?b ?pout] =>
  let s' := fresh "s" in let E := fresh "E" in let Q := fresh "R" in
  destruct (callL_ok H s n pin ps a b pout ltac:(intuition congruence) ltac:(intuition congruence) HRx) as (s' & E & Q);
  rewrite E; clear E HRx; cbn [bind] end.
(* the tail of the linear kernel *)
Section Linear.
Variable opLc : Sg -> vec Rnum -> vec Rnum -> R -> R -> R -> Sg * vec Rnum.
Hypothesis HLc : doc_Lc Sg A opLc.
Hypothesis RelLc : forall n s x u a b c, Rel n s -> Rel (n + 1) (fst (opLc s x u a b c)).
Lemma affine_zero : affine_rhs A (fun _ => 0%R) = A.
Proof. extensionality x. extensionality i. unfold affine_rhs. change (A x i + 0 = A x i)%R. ring. Qed.
Lemma kernel1_spec y k1 g0 g1 g2 d i r (e : lest (K := Rnum) Sg) h n : right_block d i r -> NoDup [y; k1; g0; g1; g2] -> Rel n (l_f e) ->
  wp (kernel1 (K := Rnum) opL opLc RECF FPA FPB y k1 g0 g1 g2 d i r e h) (fun e' =>
    l_H e' y = rock4_step RECF FPA FPB A d i r h (l_H e y) /\ Rel (n + (d + 4)) (l_f e') /\ l_funccal e' = l_funccal e + (d + 4) + 1 /\ l_nsteps e' = l_nsteps e + 1).
Proof.
  intros Hb HN HR. pose proof (right_block_bounds _ _ _ Hb) as (Bi & Bd & Br1 & Br2).
  assert (D : (y <> k1 /\ y <> g0 /\ y <> g1 /\ y <> g2) /\ (k1 <> g0 /\ k1 <> g1 /\ k1 <> g2) /\ NoDup [g0; g1; g2]).
  { inversion HN as [|? ? X1 X2]; subst. inversion X2 as [|? ? X3 X4]; subst. simpl in X1, X3. intuition congruence. }
  destruct D as ((D1 & D2 & D3 & D4) & (D5 & D6 & D7) & HN3).
  destruct e as [H s fc ns]. cbn [l_H l_f l_funccal l_nsteps] in *. unfold kernel1. cbn [l_H l_f l_funccal l_nsteps].
  unfold l_recf at 1. apply wp_rd; [lia|]. rewrite E1R.
  destruct (callL_ok H s n y y (h * RECF (r - 1))%R 1%R g1 ltac:(congruence) ltac:(congruence) HR) as (s1 & E1 & R1).
  change (@nmul Rnum h (RECF (r - 1))) with (h * RECF (r - 1))%R. rewrite E1. cbn [bind].
  set (H1 := hset H g1 _) in *.
  apply wp_bind.
  eapply wp_mono.
  { apply (l_loop_spec Sg RECF FPA FPB A Rel [y] H (callLc (K := Rnum) opLc)) with (n := n + 1) (i := i); try assumption.
    - intros Hx sx nx pin ps u v w pout Hpres N1 N2 N3 HRx. unfold callLc. destruct (Z.eqb_spec pout pin); [contradiction|]. destruct (Z.eqb_spec pout ps); [contradiction|]. cbn [orb].
      pose proof (HLc sx (Hx pin) (Hx ps) u v w) as E. pose proof (RelLc nx sx (Hx pin) (Hx ps) u v w HRx) as Er.
      destruct (opLc sx (Hx pin) (Hx ps) u v w) as [s' vv]. cbn in E, Er. subst vv. exists s'. split; [reflexivity|exact Er].
    - intros p [<-|[]]. intuition congruence.
    - left. reflexivity.
    - intros p [<-|[]]. unfold H1. rewrite hset_ne by congruence. reflexivity.
    - unfold H1. rewrite hset_eq, G_1. extensionality k. unfold v_x_lc1.
      change (h * RECF (r - 1) * A (H y) k + 1 * H y k = H y k + h * RECF (r - 1) * A (H y) k)%R. ring. }
  intros [[[[H2 s2] p0] p1] p2] (Eg & Hpres & HP & R2). cbv beta iota. cbn [bind].
  specialize (Hpres y (or_introl eq_refl)).
  assert (HN' : NoDup [p0; p1; p2]) by (eapply Permutation_NoDup; eassumption).
  assert (HD : p0 <> p1 /\ p0 <> p2 /\ p1 <> p2) by (inversion HN' as [|? ? X1 X2]; inversion X2; simpl in *; intuition congruence).
  assert (Hout : forall p, p <> g0 -> p <> g1 -> p <> g2 -> p <> p0 /\ p <> p1 /\ p <> p2).
  { intros p N0 N1 N2. assert (X : ~ In p [p0; p1; p2]) by (intros X; apply (Permutation_in _ (Permutation_sym HP)) in X; simpl in X; intuition congruence).
    simpl in X. intuition congruence. }
  pose proof (Hout y ltac:(congruence) ltac:(congruence) ltac:(congruence)) as (Y0 & Y1 & Y2).
  pose proof (Hout k1 ltac:(congruence) ltac:(congruence) ltac:(congruence)) as (K0 & K1 & K2).
  clear Hout.
  unfold l_fpa, l_fpb. repeat (apply wp_rd; [clear - Bi; lia|]). cbv zeta.
  do 4 stepL.
  cbn [wp l_H l_f l_funccal l_nsteps]. split; [|split; [|split; lia]].
  - rewrite !hset_eq. repeat (rewrite hset_ne by (intuition congruence); rewrite ?hset_eq).
    unfold rock4_step. rewrite <- affine_zero at 1. rewrite (fy_horner A HA (fun _ => 0%R)).
    set (g := stage _ _ _ _ _ _ _).
    assert (Hg : G (K := Rnum) RECF A h r (H y) d = g) by (rewrite G_stage; reflexivity).
    rewrite Eg, Hg.
    unfold Q4, Q3, Q2, Q1. rewrite affine_zero.
    rewrite !rowE. rewrite !HA. extensionality k.
    unfold Rock4LProofs.H1, Rock4LProofs.H2, H3, H4, hc1, hc2, hc3, hc4. cbn [nadd nmul Rnum]. ring.
  - match goal with X : Rel ?m ?z |- Rel ?m' ?z => replace m' with m by lia; exact X end.
Qed.
End Linear.

Section Affine.
Variable opA : Sg -> vec Rnum -> vec Rnum -> R -> R -> vec Rnum -> Sg * vec Rnum.
Variable opAc : Sg -> vec Rnum -> vec Rnum -> R -> R -> R -> vec Rnum -> Sg * vec Rnum.
Hypothesis HAf : imp_A Sg A opA.
Hypothesis HAc : imp_Ac Sg A opAc.
Hypothesis RelA : forall n s x u a b g, Rel n s -> Rel (n + 1) (fst (opA s x u a b g)).
Hypothesis RelAc : forall n s x u a b c g, Rel n s -> Rel (n + 1) (fst (opAc s x u a b c g)).
Lemma callA_ok (H : Rheap) s n pin ps a b pg pout : pout <> pin -> pout <> ps -> pout <> pg -> Rel n s ->
  exists s', callA (K := Rnum) opA H s pin ps a b pg pout = Ok (hset H pout (fun i => (a * (A (H pin) i + H pg i) + b * H ps i)%R), s') /\ Rel (n + 1) s'.
Proof.
  intros H1 H2 H3 HR. unfold callA. destruct (Z.eqb_spec pout pin); [contradiction|]. destruct (Z.eqb_spec pout ps); [contradiction|].
  destruct (Z.eqb_spec pout pg); [contradiction|]. cbn [orb].
  pose proof (HAf s (H pin) (H ps) a b (H pg)) as E. pose proof (RelA n s (H pin) (H ps) a b (H pg) HR) as Er.
  destruct (opA s (H pin) (H ps) a b (H pg)) as [s' v]. cbn in *. subst v. eauto.
Qed.
Lemma kernel2_spec y b k1 g0 g1 g2 d i r (e : lest (K := Rnum) Sg) h n : right_block d i r -> NoDup [y; b; k1; g0; g1; g2] -> Rel n (l_f e) ->
  wp (kernel2 (K := Rnum) opL opA opAc RECF FPA FPB y b k1 g0 g1 g2 d i r e h) (fun e' =>
    l_H e' y = rock4_step RECF FPA FPB (affine_rhs A (l_H e b)) d i r h (l_H e y) /\ l_H e' b = l_H e b /\
    Rel (n + (d + 4)) (l_f e') /\ l_funccal e' = l_funccal e + (d + 4) + 1 /\ l_nsteps e' = l_nsteps e + 1).
Proof.
  intros Hb HN HR. pose proof (right_block_bounds _ _ _ Hb) as (Bi & Bd & Br1 & Br2).
  assert (D : (y <> b /\ y <> k1 /\ y <> g0 /\ y <> g1 /\ y <> g2) /\ (b <> k1 /\ b <> g0 /\ b <> g1 /\ b <> g2) /\ (k1 <> g0 /\ k1 <> g1 /\ k1 <> g2) /\ NoDup [g0; g1; g2]).
  { inversion HN as [|? ? X1 X2]; subst. inversion X2 as [|? ? X3 X4]; subst. inversion X4 as [|? ? X5 X6]; subst. simpl in X1, X3, X5. intuition congruence. }
  destruct D as ((D0 & D1 & D2 & D3 & D4) & (D8 & D9 & D10 & D11) & (D5 & D6 & D7) & HN3).
  destruct e as [H s fc ns]. cbn [l_H l_f l_funccal l_nsteps] in *. unfold kernel2. cbn [l_H l_f l_funccal l_nsteps].
  unfold l_recf at 1. apply wp_rd; [lia|]. rewrite E1R.
  destruct (callA_ok H s n y y (h * RECF (r - 1))%R 1%R b g1 ltac:(congruence) ltac:(congruence) ltac:(congruence) HR) as (s1 & E1 & R1).
  change (@nmul Rnum h (RECF (r - 1))) with (h * RECF (r - 1))%R. rewrite E1. cbn [bind].
  set (H1 := hset H g1 _) in *.
  apply wp_bind.
  eapply wp_mono.
  { apply (l_loop_spec Sg RECF FPA FPB (affine_rhs A (H b)) Rel [y; b] H) with (n := n + 1) (i := i); try assumption.
    - intros Hx sx nx pin ps u v w pout Hpres N1 N2 N3 HRx. unfold callAc. destruct (Z.eqb_spec pout pin); [contradiction|]. destruct (Z.eqb_spec pout ps); [contradiction|].
      destruct (Z.eqb_spec pout b); [exfalso; apply N3; subst; simpl; tauto|]. cbn [orb].
      pose proof (HAc sx (Hx pin) (Hx ps) u v w (Hx b)) as E. pose proof (RelAc nx sx (Hx pin) (Hx ps) u v w (Hx b) HRx) as Er.
      destruct (opAc sx (Hx pin) (Hx ps) u v w (Hx b)) as [s' vv]. cbn in E, Er. subst vv. exists s'. split; [|exact Er].
      rewrite (Hpres b) by (simpl; tauto). reflexivity.
    - intros p [<-|[<-|[]]]; intuition congruence.
    - left. reflexivity.
    - intros p [<-|[<-|[]]]; unfold H1; rewrite hset_ne by congruence; reflexivity.
    - unfold H1. rewrite hset_eq, G_1. extensionality k. unfold v_x_lc1, affine_rhs.
      change (h * RECF (r - 1) * (A (H y) k + H b k) + 1 * H y k = H y k + h * RECF (r - 1) * (A (H y) k + H b k))%R. ring. }
  intros [[[[H2 s2] p0] p1] p2] (Eg & Hpres & HP & R2). cbv beta iota. cbn [bind].
  assert (Hy : H2 y = H y) by (apply Hpres; simpl; tauto). assert (HB : H2 b = H b) by (apply Hpres; simpl; tauto). clear Hpres.
  assert (HN' : NoDup [p0; p1; p2]) by (eapply Permutation_NoDup; eassumption).
  assert (HD : p0 <> p1 /\ p0 <> p2 /\ p1 <> p2) by (inversion HN' as [|? ? X1 X2]; inversion X2; simpl in *; intuition congruence).
  assert (Hout : forall p, p <> g0 -> p <> g1 -> p <> g2 -> p <> p0 /\ p <> p1 /\ p <> p2).
  { intros p N0 N1 N2. assert (X : ~ In p [p0; p1; p2]) by (intros X; apply (Permutation_in _ (Permutation_sym HP)) in X; simpl in X; intuition congruence).
    simpl in X. intuition congruence. }
  pose proof (Hout y ltac:(congruence) ltac:(congruence) ltac:(congruence)) as (Y0 & Y1 & Y2).
  pose proof (Hout k1 ltac:(congruence) ltac:(congruence) ltac:(congruence)) as (K0 & K1 & K2).
  pose proof (Hout b ltac:(congruence) ltac:(congruence) ltac:(congruence)) as (B0 & B1 & B2).
  clear Hout.
  unfold l_fpa, l_fpb. repeat (apply wp_rd; [clear - Bi; lia|]). cbv zeta.
  do 4 stepL.
  cbn [wp l_H l_f l_funccal l_nsteps]. split; [|split; [|split; [|split; lia]]].
  - rewrite !hset_eq. repeat (rewrite hset_ne by (intuition congruence); rewrite ?hset_eq).
    unfold rock4_step. rewrite (fy_horner A HA (H b)).
    set (g := stage _ _ _ _ _ _ _).
    assert (Hg : G (K := Rnum) RECF (affine_rhs A (H b)) h r (H y) d = g) by (rewrite G_stage; reflexivity).
    rewrite Eg, Hg, HB.
    unfold Q4, Q3, Q2, Q1.
    assert (A_add : forall x z, A (fun k => (x k + z k)%R) = (fun k => (A x k + A z k)%R)).
    { intros x z. transitivity (A (fun k => (1 * x k + 1 * z k)%R)); [f_equal; extensionality k; ring|]. rewrite HA. extensionality k. ring. }
    unfold affine_rhs. rewrite !rowE. repeat (rewrite ?(A_scale A HA), ?A_add). extensionality k.
    unfold Rock4LProofs.H1, Rock4LProofs.H2, H3, H4, hc1, hc2, hc3, hc4. cbn [nadd nmul Rnum]. match goal with |- @eq _ ?a ?b => change (@eq R a b) end. ring.
  - repeat (rewrite hset_ne by (intuition congruence)). exact HB.
  - match goal with X : Rel ?m ?z |- Rel ?m' ?z => replace m' with m by lia; exact X end.
Qed.
End Affine.
End Kernels.
