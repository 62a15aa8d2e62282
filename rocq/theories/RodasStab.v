(* The coefficients of RodasModel.rocoe as exact decimals; the stability function of the
   six-stage method as a quotient of polynomials with decimal coefficients. *)
From Coq Require Import Reals Lra Psatz Ring.
From Verif Require Import Base Spec HessModel HessPathProofs SympQuad Dec RodasModel RodasSpec RodasStep.
Open Scope R_scope.

Definition rmap (C : rcoef DNum) : rcoef Rnum := @mkRcoef Rnum
  (D2R (rC2 C))
  (D2R (rC3 C))
  (D2R (rC4 C))
  (D2R (rD1 C))
  (D2R (rD2 C))
  (D2R (rD3 C))
  (D2R (rD4 C))
  (D2R (rA21 C))
  (D2R (rA31 C))
  (D2R (rA32 C))
  (D2R (rA41 C))
  (D2R (rA42 C))
  (D2R (rA43 C))
  (D2R (rA51 C))
  (D2R (rA52 C))
  (D2R (rA53 C))
  (D2R (rA54 C))
  (D2R (rC21 C))
  (D2R (rC31 C))
  (D2R (rC32 C))
  (D2R (rC41 C))
  (D2R (rC42 C))
  (D2R (rC43 C))
  (D2R (rC51 C))
  (D2R (rC52 C))
  (D2R (rC53 C))
  (D2R (rC54 C))
  (D2R (rC61 C))
  (D2R (rC62 C))
  (D2R (rC63 C))
  (D2R (rC64 C))
  (D2R (rC65 C))
  (D2R (rGAMMA C)).
Lemma rocoe_dec meth : @rocoe Rnum meth = match @rocoe DNum meth with Ok C => Ok (rmap C) | Throw s => Throw s | UB s => UB s | Diverge => Diverge end.
Proof.
  unfold rocoe. destruct (meth =? 1)%Z; [|destruct (meth =? 2)%Z; [|destruct (meth =? 3)%Z; [|reflexivity]]];
  unfold rmap; cbn [rC2 rC3 rC4 rD1 rD2 rD3 rD4 rA21 rA31 rA32 rA41 rA42 rA43 rA51 rA52 rA53 rA54 rC21 rC31 rC32 rC41 rC42 rC43 rC51 rC52 rC53 rC54 rC61 rC62 rC63 rC64 rC65 rGAMMA]; cbn [nlit nopp nmul DNum Rnum]; rewrite ?D2R_opp, ?D2R_mul; unfold D2R; cbn [fst snd]; reflexivity.
Qed.

Definition rtrim (C : rcoef DNum) : rcoef DNum := let t := dtrim 20 in @mkRcoef DNum
  (t (rC2 C)) (t (rC3 C)) (t (rC4 C)) (t (rD1 C)) (t (rD2 C)) (t (rD3 C)) (t (rD4 C)) (t (rA21 C)) (t (rA31 C)) (t (rA32 C)) (t (rA41 C)) (t (rA42 C)) (t (rA43 C)) (t (rA51 C)) (t (rA52 C)) (t (rA53 C)) (t (rA54 C)) (t (rC21 C)) (t (rC31 C)) (t (rC32 C)) (t (rC41 C)) (t (rC42 C)) (t (rC43 C)) (t (rC51 C)) (t (rC52 C)) (t (rC53 C)) (t (rC54 C)) (t (rC61 C)) (t (rC62 C)) (t (rC63 C)) (t (rC64 C)) (t (rC65 C)) (t (rGAMMA C)).
Lemma rmap_trim C : rmap (rtrim C) = rmap C.
Proof. unfold rmap, rtrim. cbn [rC2 rC3 rC4 rD1 rD2 rD3 rD4 rA21 rA31 rA32 rA41 rA42 rA43 rA51 rA52 rA53 rA54 rC21 rC31 rC32 rC41 rC42 rC43 rC51 rC52 rC53 rC54 rC61 rC62 rC63 rC64 rC65 rGAMMA]. rewrite !D2R_trim. reflexivity. Qed.
Definition dcoef (m : Z) : out (rcoef DNum) := match @rocoe DNum m with Ok C => Ok (rtrim C) | Throw s => Throw s | UB s => UB s | Diverge => Diverge end.
Lemma rocoe_dcoef meth C : @rocoe Rnum meth = Ok C -> exists D, dcoef meth = Ok D /\ C = rmap D.
Proof.
  rewrite rocoe_dec. unfold dcoef. destruct (rocoe meth) as [D| | |]; try discriminate. intros E. injection E as <-.
  exists (rtrim D). split; [reflexivity|symmetry; apply rmap_trim].
Qed.

(* ---- complex numbers as pairs ---------------------------------------------------- *)
Definition cx := (R * R)%type.
Definition c0 : cx := (0, 0).
Definition c1 : cx := (1, 0).
Definition cadd (a b : cx) : cx := (fst a + fst b, snd a + snd b).
Definition cmul (a b : cx) : cx := (fst a * fst b - snd a * snd b, fst a * snd b + snd a * fst b).
Definition copp (a : cx) : cx := (- fst a, - snd a).
Definition csub (a b : cx) : cx := cadd a (copp b).
Definition cr (r : R) : cx := (r, 0).
Definition norm2 (a : cx) : R := fst a * fst a + snd a * snd a.
Lemma cx_eq (a b : cx) : fst a = fst b -> snd a = snd b -> a = b.
Proof. destruct a, b. cbn. intros -> ->. reflexivity. Qed.
Lemma cx_ring : ring_theory c0 c1 cadd cmul csub copp (@eq cx).
Proof. constructor; intros; apply cx_eq; unfold csub, cadd, cmul, copp, c0, c1; cbn [fst snd]; ring. Qed.
Add Ring cx_ring : cx_ring.
Lemma norm2_mul a b : norm2 (cmul a b) = norm2 a * norm2 b.
Proof. unfold norm2, cmul. cbn [fst snd]. ring. Qed.
Lemma norm2_pos a : 0 <= norm2 a.
Proof. unfold norm2. pose proof (Rle_0_sqr (fst a)). pose proof (Rle_0_sqr (snd a)). unfold Rsqr in *. lra. Qed.
Lemma cr_mul a b : cr (a * b) = cmul (cr a) (cr b).
Proof. unfold cr, cmul; cbn [fst snd]. f_equal; ring. Qed.
Lemma cr_add a b : cr (a + b) = cadd (cr a) (cr b).
Proof. unfold cr, cadd; cbn [fst snd]. f_equal; ring. Qed.

(* ---- polynomials with decimal coefficients ----------------------------------------- *)
Fixpoint peval (p : list dec) (z : cx) : cx :=
  match p with nil => c0 | a :: p => cadd (cr (D2R a)) (cmul z (peval p z)) end.
Fixpoint padd (p q : list dec) : list dec :=
  match p, q with nil, _ => q | _, nil => p | a :: p', b :: q' => dadd a b :: padd p' q' end.
Definition pscal (a : dec) (p : list dec) : list dec := List.map (dmul a) p.
Fixpoint pmul (p q : list dec) : list dec :=
  match p with nil => nil | a :: p' => padd (pscal a q) (dz :: pmul p' q) end.
Lemma peval_add p : forall q z, peval (padd p q) z = cadd (peval p z) (peval q z).
Proof.
  induction p as [|a p IH]; intros [|b q] z; cbn [padd peval]; try ring.
  rewrite IH, D2R_add, cr_add. ring.
Qed.
Lemma peval_scal a p z : peval (pscal a p) z = cmul (cr (D2R a)) (peval p z).
Proof. induction p as [|b p IH]; cbn [pscal List.map peval]; [ring|]. unfold pscal in IH. rewrite IH, D2R_mul, cr_mul. ring. Qed.
Lemma peval_mul p : forall q z, peval (pmul p q) z = cmul (peval p z) (peval q z).
Proof.
  induction p as [|a p IH]; intros q z; cbn [pmul peval]; [ring|].
  rewrite peval_add, peval_scal. cbn [peval]. rewrite IH, D2R_z. change (cr 0) with c0. ring.
Qed.

(* ---- the stability function --------------------------------------------------------- *)
Section Poly.
Variable C : rcoef DNum.
Definition pX : list dec := [dz; d1].
Definition pq : list dec := [d1; dopp (rGAMMA C)].
Definition pq2 := pmul pq pq.
Definition pq3 := pmul pq pq2.
Definition pq4 := pmul pq pq3.
Definition pq5 := pmul pq pq4.
Definition pq6 := pmul pq pq5.
Definition lin (a c : dec) : list dec := [c; a].
Notation "p + q" := (padd p q). Notation "p * q" := (pmul p q).
Notation g := (pscal (rGAMMA C)).
Definition N1 := g pX.
Definition N2 (n1 : list dec) := g (pX * pq + lin (rA21 C) (rC21 C) * n1).
Definition N3 (n1 n2 : list dec) := g (pX * pq2 + lin (rA31 C) (rC31 C) * (pq * n1) + lin (rA32 C) (rC32 C) * n2).
Definition N4 (n1 n2 n3 : list dec) := g (pX * pq3 + lin (rA41 C) (rC41 C) * (pq2 * n1) + lin (rA42 C) (rC42 C) * (pq * n2) + lin (rA43 C) (rC43 C) * n3).
Definition N5 (n1 n2 n3 n4 : list dec) := g (pX * pq4 + lin (rA51 C) (rC51 C) * (pq3 * n1) + lin (rA52 C) (rC52 C) * (pq2 * n2)
   + lin (rA53 C) (rC53 C) * (pq * n3) + lin (rA54 C) (rC54 C) * n4).
Definition N6 (n1 n2 n3 n4 n5 : list dec) := g (pX * pq5 + lin (rA51 C) (rC61 C) * (pq4 * n1) + lin (rA52 C) (rC62 C) * (pq3 * n2)
   + lin (rA53 C) (rC63 C) * (pq2 * n3) + lin (rA54 C) (rC64 C) * (pq * n4) + lin d1 (rC65 C) * n5).
Definition PP (n1 n2 n3 n4 n5 n6 : list dec) :=
  pq6 + pscal (rA51 C) (pq5 * n1) + pscal (rA52 C) (pq4 * n2) + pscal (rA53 C) (pq3 * n3) + pscal (rA54 C) (pq2 * n4) + pq * n5 + n6.
Definition numer : list dec :=
  let n1 := N1 in let n2 := N2 n1 in let n3 := N3 n1 n2 in let n4 := N4 n1 n2 n3 in let n5 := N5 n1 n2 n3 n4 in
  PP n1 n2 n3 n4 n5 (N6 n1 n2 n3 n4 n5).
Definition denom : list dec := pq6.
End Poly.

(* |p(z)|^2 for a polynomial of degree at most 6 at z = -w + i y: coefficient of
   w^a y^(2b), as a quadratic form in the coefficients of p *)
Definition form : list ((nat * nat) * list (Z * nat * nat)) :=
  [ ((0%nat, 0%nat), [((1)%Z, 0%nat, 0%nat)]);
  ((0%nat, 1%nat), [((-2)%Z, 0%nat, 2%nat); ((1)%Z, 1%nat, 1%nat)]);
  ((0%nat, 2%nat), [((2)%Z, 0%nat, 4%nat); ((-2)%Z, 1%nat, 3%nat); ((1)%Z, 2%nat, 2%nat)]);
  ((0%nat, 3%nat), [((-2)%Z, 0%nat, 6%nat); ((2)%Z, 1%nat, 5%nat); ((-2)%Z, 2%nat, 4%nat); ((1)%Z, 3%nat, 3%nat)]);
  ((0%nat, 4%nat), [((2)%Z, 2%nat, 6%nat); ((-2)%Z, 3%nat, 5%nat); ((1)%Z, 4%nat, 4%nat)]);
  ((0%nat, 5%nat), [((-2)%Z, 4%nat, 6%nat); ((1)%Z, 5%nat, 5%nat)]);
  ((0%nat, 6%nat), [((1)%Z, 6%nat, 6%nat)]);
  ((1%nat, 0%nat), [((-2)%Z, 0%nat, 1%nat)]);
  ((1%nat, 1%nat), [((6)%Z, 0%nat, 3%nat); ((-2)%Z, 1%nat, 2%nat)]);
  ((1%nat, 2%nat), [((-10)%Z, 0%nat, 5%nat); ((6)%Z, 1%nat, 4%nat); ((-2)%Z, 2%nat, 3%nat)]);
  ((1%nat, 3%nat), [((-10)%Z, 1%nat, 6%nat); ((6)%Z, 2%nat, 5%nat); ((-2)%Z, 3%nat, 4%nat)]);
  ((1%nat, 4%nat), [((6)%Z, 3%nat, 6%nat); ((-2)%Z, 4%nat, 5%nat)]);
  ((1%nat, 5%nat), [((-2)%Z, 5%nat, 6%nat)]);
  ((2%nat, 0%nat), [((2)%Z, 0%nat, 2%nat); ((1)%Z, 1%nat, 1%nat)]);
  ((2%nat, 1%nat), [((-12)%Z, 0%nat, 4%nat); ((2)%Z, 2%nat, 2%nat)]);
  ((2%nat, 2%nat), [((30)%Z, 0%nat, 6%nat); ((-10)%Z, 1%nat, 5%nat); ((-2)%Z, 2%nat, 4%nat); ((3)%Z, 3%nat, 3%nat)]);
  ((2%nat, 3%nat), [((-8)%Z, 2%nat, 6%nat); ((-4)%Z, 3%nat, 5%nat); ((4)%Z, 4%nat, 4%nat)]);
  ((2%nat, 4%nat), [((-6)%Z, 4%nat, 6%nat); ((5)%Z, 5%nat, 5%nat)]);
  ((2%nat, 5%nat), [((6)%Z, 6%nat, 6%nat)]);
  ((3%nat, 0%nat), [((-2)%Z, 0%nat, 3%nat); ((-2)%Z, 1%nat, 2%nat)]);
  ((3%nat, 1%nat), [((20)%Z, 0%nat, 5%nat); ((4)%Z, 1%nat, 4%nat); ((-4)%Z, 2%nat, 3%nat)]);
  ((3%nat, 2%nat), [((10)%Z, 1%nat, 6%nat); ((10)%Z, 2%nat, 5%nat); ((-6)%Z, 3%nat, 4%nat)]);
  ((3%nat, 3%nat), [((16)%Z, 3%nat, 6%nat); ((-8)%Z, 4%nat, 5%nat)]);
  ((3%nat, 4%nat), [((-10)%Z, 5%nat, 6%nat)]);
  ((4%nat, 0%nat), [((2)%Z, 0%nat, 4%nat); ((2)%Z, 1%nat, 3%nat); ((1)%Z, 2%nat, 2%nat)]);
  ((4%nat, 1%nat), [((-30)%Z, 0%nat, 6%nat); ((-10)%Z, 1%nat, 5%nat); ((2)%Z, 2%nat, 4%nat); ((3)%Z, 3%nat, 3%nat)]);
  ((4%nat, 2%nat), [((-20)%Z, 2%nat, 6%nat); ((6)%Z, 4%nat, 4%nat)]);
  ((4%nat, 3%nat), [((-4)%Z, 4%nat, 6%nat); ((10)%Z, 5%nat, 5%nat)]);
  ((4%nat, 4%nat), [((15)%Z, 6%nat, 6%nat)]);
  ((5%nat, 0%nat), [((-2)%Z, 0%nat, 5%nat); ((-2)%Z, 1%nat, 4%nat); ((-2)%Z, 2%nat, 3%nat)]);
  ((5%nat, 1%nat), [((18)%Z, 1%nat, 6%nat); ((2)%Z, 2%nat, 5%nat); ((-6)%Z, 3%nat, 4%nat)]);
  ((5%nat, 2%nat), [((12)%Z, 3%nat, 6%nat); ((-12)%Z, 4%nat, 5%nat)]);
  ((5%nat, 3%nat), [((-20)%Z, 5%nat, 6%nat)]);
  ((6%nat, 0%nat), [((2)%Z, 0%nat, 6%nat); ((2)%Z, 1%nat, 5%nat); ((2)%Z, 2%nat, 4%nat); ((1)%Z, 3%nat, 3%nat)]);
  ((6%nat, 1%nat), [((-8)%Z, 2%nat, 6%nat); ((4)%Z, 3%nat, 5%nat); ((4)%Z, 4%nat, 4%nat)]);
  ((6%nat, 2%nat), [((4)%Z, 4%nat, 6%nat); ((10)%Z, 5%nat, 5%nat)]);
  ((6%nat, 3%nat), [((20)%Z, 6%nat, 6%nat)]);
  ((7%nat, 0%nat), [((-2)%Z, 1%nat, 6%nat); ((-2)%Z, 2%nat, 5%nat); ((-2)%Z, 3%nat, 4%nat)]);
  ((7%nat, 1%nat), [((-8)%Z, 4%nat, 5%nat)]);
  ((7%nat, 2%nat), [((-20)%Z, 5%nat, 6%nat)]);
  ((8%nat, 0%nat), [((2)%Z, 2%nat, 6%nat); ((2)%Z, 3%nat, 5%nat); ((1)%Z, 4%nat, 4%nat)]);
  ((8%nat, 1%nat), [((6)%Z, 4%nat, 6%nat); ((5)%Z, 5%nat, 5%nat)]);
  ((8%nat, 2%nat), [((15)%Z, 6%nat, 6%nat)]);
  ((9%nat, 0%nat), [((-2)%Z, 3%nat, 6%nat); ((-2)%Z, 4%nat, 5%nat)]);
  ((9%nat, 1%nat), [((-10)%Z, 5%nat, 6%nat)]);
  ((10%nat, 0%nat), [((2)%Z, 4%nat, 6%nat); ((1)%Z, 5%nat, 5%nat)]);
  ((10%nat, 1%nat), [((6)%Z, 6%nat, 6%nat)]);
  ((11%nat, 0%nat), [((-2)%Z, 5%nat, 6%nat)]);
  ((12%nat, 0%nat), [((1)%Z, 6%nat, 6%nat)]) ].
Definition fval (prod : nat -> nat -> R) (w t : R) : R :=
  List.fold_right (fun e acc => (let '((a, b), l) := e in
     List.fold_right (fun q s => (let '(v, i, j) := q in IZR v * prod i j) + s) 0 l * (w ^ a * t ^ b)) + acc) 0 form.
Definition re1 (w y : R) : R := (-1) * w ^ 1 * y ^ 0.
Definition im1 (w y : R) : R := (1) * w ^ 0 * y ^ 1.
Definition re2 (w y : R) : R := (1) * w ^ 2 * y ^ 0 + (-1) * w ^ 0 * y ^ 2.
Definition im2 (w y : R) : R := (-2) * w ^ 1 * y ^ 1.
Definition re3 (w y : R) : R := (-1) * w ^ 3 * y ^ 0 + (3) * w ^ 1 * y ^ 2.
Definition im3 (w y : R) : R := (3) * w ^ 2 * y ^ 1 + (-1) * w ^ 0 * y ^ 3.
Definition re4 (w y : R) : R := (1) * w ^ 4 * y ^ 0 + (-6) * w ^ 2 * y ^ 2 + (1) * w ^ 0 * y ^ 4.
Definition im4 (w y : R) : R := (-4) * w ^ 3 * y ^ 1 + (4) * w ^ 1 * y ^ 3.
Definition re5 (w y : R) : R := (-1) * w ^ 5 * y ^ 0 + (10) * w ^ 3 * y ^ 2 + (-5) * w ^ 1 * y ^ 4.
Definition im5 (w y : R) : R := (5) * w ^ 4 * y ^ 1 + (-10) * w ^ 2 * y ^ 3 + (1) * w ^ 0 * y ^ 5.
Definition re6 (w y : R) : R := (1) * w ^ 6 * y ^ 0 + (-15) * w ^ 4 * y ^ 2 + (15) * w ^ 2 * y ^ 4 + (-1) * w ^ 0 * y ^ 6.
Definition im6 (w y : R) : R := (-6) * w ^ 5 * y ^ 1 + (20) * w ^ 3 * y ^ 3 + (-6) * w ^ 1 * y ^ 5.
Lemma zpow w y : let z : cx := (- w, y) in z = (re1 w y, im1 w y) /\
  cmul z (re1 w y, im1 w y) = (re2 w y, im2 w y) /\ cmul z (re2 w y, im2 w y) = (re3 w y, im3 w y) /\
  cmul z (re3 w y, im3 w y) = (re4 w y, im4 w y) /\ cmul z (re4 w y, im4 w y) = (re5 w y, im5 w y) /\
  cmul z (re5 w y, im5 w y) = (re6 w y, im6 w y).
Proof.
  cbv zeta. unfold cmul, re1, re2, re3, re4, re5, re6, im1, im2, im3, im4, im5, im6. cbn [fst snd].
  repeat split; f_equal; ring.
Qed.
Lemma peval7 p0 p1 p2 p3 p4 p5 p6 w y (a := D2R p0) (b := D2R p1) (c := D2R p2) (d := D2R p3) (e := D2R p4) (f := D2R p5) (g := D2R p6) :
  peval [p0; p1; p2; p3; p4; p5; p6] (- w, y) =
  (a + b * re1 w y + c * re2 w y + d * re3 w y + e * re4 w y + f * re5 w y + g * re6 w y,
   b * im1 w y + c * im2 w y + d * im3 w y + e * im4 w y + f * im5 w y + g * im6 w y).
Proof.
  cbn [peval]. destruct (zpow w y) as (E1 & E2 & E3 & E4 & E5 & E6). fold a b c d e f g.
  set (z := (- w, y) : cx) in *.
  transitivity (cadd (cr a) (cadd (cmul (cr b) z) (cadd (cmul (cr c) (cmul z z)) (cadd (cmul (cr d) (cmul z (cmul z z))) (cadd (cmul (cr e) (cmul z (cmul z (cmul z z)))) (cadd (cmul (cr f) (cmul z (cmul z (cmul z (cmul z z))))) (cmul (cr g) (cmul z (cmul z (cmul z (cmul z (cmul z z)))))))))))).
  { ring. }
  replace (cmul z z) with (cmul z (re1 w y, im1 w y)) by (rewrite <- E1; reflexivity). rewrite E2, E3, E4, E5, E6.
  rewrite E1. unfold cadd, cmul, cr. cbn [fst snd]. f_equal; ring.
Qed.
Lemma norm2_form p0 p1 p2 p3 p4 p5 p6 w y :
  norm2 (peval [p0; p1; p2; p3; p4; p5; p6] (- w, y)) =
  fval (fun i j => D2R (List.nth i [p0; p1; p2; p3; p4; p5; p6] dz) * D2R (List.nth j [p0; p1; p2; p3; p4; p5; p6] dz)) w (y * y).
Proof.
  rewrite peval7. unfold norm2. cbn [fst snd].
  unfold fval, form. cbn [List.fold_right List.nth].
  unfold re1, re2, re3, re4, re5, re6, im1, im2, im3, im4, im5, im6.
  generalize (D2R p0) (D2R p1) (D2R p2) (D2R p3) (D2R p4) (D2R p5) (D2R p6). intros. ring.
Qed.
