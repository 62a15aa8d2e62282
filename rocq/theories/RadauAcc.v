(* C98: one step of Radau5 on y' = lambda y, in complex numbers; z = h lambda with Re z <= 0. *)
From Coq Require Import ZArith Reals Lra Lia Psatz Ring List.
From Verif Require Import Base Spec HessModel Dec RodasStab Conv ConvPoly.
From Verif Require SdirkConvTop.
Import ListNotations.
Open Scope R_scope.

(* ---- the linear systems of the Newton iteration, in the transformed variables ---- *)
Lemma row1 (U : R) (z W g : cx) : 3 <= U <= 4 -> fst z <= 0 -> csub (cmul (cr U) W) (cmul z W) = cmul z g ->
  cn W <= cn z * cn g /\ cn W <= 12 * cn g.
Proof.
  intros HU Hz E. pose proof (cn_pos W) as P. pose proof (cn_pos g) as Pg. pose proof (cn_pos z) as Pz.
  assert (A : cn W <= cn z * cn g).
  { assert (E1 : U * norm2 W <= cn (cmul z g) * cn W).
    { eapply Rle_trans; [|apply (cauchy (cmul z g) W)]. rewrite <- E. destruct z as [zr zi], W as [a b].
      unfold norm2, csub, cadd, copp, cmul, cr in *. cbn [fst snd] in *. nra. }
    rewrite cn_mul, <- cn_sq in E1. destruct P as [P|P]; [|rewrite <- P; nra]. set (s := cn z * cn g) in *. assert (0 <= s) by (unfold s; nra). nra. }
  split; [exact A|]. destruct (Rle_lt_dec (cn z) 12) as [H|H]; [nra|].
  assert (B : cn z * cn W <= U * cn W + cn z * cn g).
  { rewrite <- !cn_mul. replace (cmul z W) with (csub (cmul (cr U) W) (cmul z g)) by (rewrite <- E; ring).
    eapply Rle_trans; [apply cn_sub|]. rewrite cn_scal, (Rabs_pos_eq U) by lra. lra. }
  nra.
Qed.
Lemma row23 (A B : R) (z W V g k : cx) : 5 / 2 <= A <= 3 -> 0 <= B <= 4 -> fst z <= 0 ->
  csub (csub (cmul (cr A) W) (cmul (cr B) V)) (cmul z W) = cmul z g ->
  csub (cadd (cmul (cr B) W) (cmul (cr A) V)) (cmul z V) = cmul z k ->
  cn W + cn V <= cn z * (cn g + cn k) /\ cn W + cn V <= 14 * (cn g + cn k).
Proof.
  intros HA HB Hz E F. pose proof (cn_pos W) as P. pose proof (cn_pos V) as Q. pose proof (cn_pos g) as Pg. pose proof (cn_pos k) as Pk. pose proof (cn_pos z) as Pz.
  assert (X : cn W + cn V <= cn z * (cn g + cn k)).
  { assert (E1 : A * (norm2 W + norm2 V) <= cn (cmul z g) * cn W + cn (cmul z k) * cn V).
    { eapply Rle_trans; [|apply Rplus_le_compat; [apply (cauchy (cmul z g) W)|apply (cauchy (cmul z k) V)]]. rewrite <- E, <- F.
      destruct z as [zr zi], W as [a b], V as [c d].
      unfold norm2, csub, cadd, copp, cmul, cr in *. cbn [fst snd] in *. clear E F.
      match goal with |- _ <= ?r => replace r with ((A - zr) * (a * a + b * b + (c * c + d * d))) by ring end.
      apply Rmult_le_compat_r; [nra|lra]. }
    rewrite !cn_mul in E1. rewrite <- !cn_sq in E1. set (w := cn W) in *. set (v := cn V) in *. set (r := cn z) in *. set (G := cn g) in *. set (K := cn k) in *.
    destruct (Rle_lt_dec (w + v) 0) as [H0|H0]; [assert (0 <= r * (G + K)) by nra; lra|].
    apply (Rmult_le_reg_r (w + v)); [exact H0|].
    assert (0 <= (w - v) * (w - v)) by apply Rle_0_sqr.
    assert (0 <= r * G * v) by (apply Rmult_le_pos; [nra|exact Q]). assert (0 <= r * K * w) by (apply Rmult_le_pos; [nra|exact P]). nra. }
  split; [exact X|]. destruct (Rle_lt_dec (cn z) 14) as [H|H]; [nra|].
  assert (Y1 : cn z * cn W <= A * cn W + B * cn V + cn z * cn g).
  { rewrite <- !cn_mul. replace (cmul z W) with (csub (csub (cmul (cr A) W) (cmul (cr B) V)) (cmul z g)) by (rewrite <- E; ring).
    eapply Rle_trans; [apply cn_sub|]. apply Rplus_le_compat_r. eapply Rle_trans; [apply cn_sub|]. rewrite !cn_scal, (Rabs_pos_eq A), (Rabs_pos_eq B) by lra. lra. }
  assert (Y2 : cn z * cn V <= B * cn W + A * cn V + cn z * cn k).
  { rewrite <- !cn_mul. replace (cmul z V) with (csub (cadd (cmul (cr B) W) (cmul (cr A) V)) (cmul z k)) by (rewrite <- F; ring).
    eapply Rle_trans; [apply cn_sub|]. apply Rplus_le_compat_r. eapply Rle_trans; [apply cn_add|]. rewrite !cn_scal, (Rabs_pos_eq A), (Rabs_pos_eq B) by lra. lra. }
  set (w := cn W) in *. set (v := cn V) in *. set (r := cn z) in *. set (G := cn g) in *. set (K := cn k) in *.
  assert (r * (w + v) <= 7 * (w + v) + r * (G + K)) by nra. nra.
Qed.

(* ---- the stability function (60 + 24 z + 3 z^2) / (60 - 36 z + 9 z^2 - z^3) ---- *)
Notation di := SdirkConvTop.di.
Definition pN : list dec := [di 60; di 24; di 3].
Definition pD : list dec := [di 60; di (-36); di 9; di (-1)].
Lemma di_R k : D2R (di k) = IZR k.
Proof. unfold D2R, SdirkConvTop.di, Rlit. cbn [fst snd]. cbn [powerRZ]. ring. Qed.
Definition NN (z : cx) : cx := cadd (cr 60) (cmul z (cadd (cr 24) (cmul z (cr 3)))).
Definition DD (z : cx) : cx := cadd (cr 60) (cmul z (cadd (cr (-36)) (cmul z (cadd (cr 9) (cmul z (cr (-1))))))).
Lemma pN_eval z : peval pN z = NN z.
Proof. unfold pN, NN. cbn [peval]. rewrite !di_R. ring. Qed.
Lemma pD_eval z : peval pD z = DD z.
Proof. unfold pD, DD. cbn [peval]. rewrite !di_R. ring. Qed.
Lemma DD_big z : fst z <= 0 -> norm2 (NN z) + norm2 z * norm2 z * norm2 z <= norm2 (DD z) /\ 3600 <= norm2 (DD z).
Proof.
  intros Hz. destruct z as [x v]. cbn [fst] in Hz. set (w := - x). assert (Hw : 0 <= w) by (unfold w; lra). replace x with (- w) by (unfold w; ring). clearbody w. clear x Hz.
  set (s := v * v). assert (Hs : 0 <= s) by (unfold s; nra).
  assert (ED : norm2 (DD (- w, v)) = 3600 + w * (4320 + 2376 * w + 768 * (w * w) + 153 * (w * w * w) + 18 * (w * w * w * w) + w * w * w * w * w
      + s * (288 + 162 * w + 36 * (w * w) + 3 * (w * w * w)) + s * s * (18 + 3 * w)) + s * (216 + 9 * s + s * s)).
  { unfold DD, norm2, cadd, cmul, cr, s. cbn [fst snd]. ring. }
  assert (EE : norm2 (DD (- w, v)) = norm2 (NN (- w, v)) + norm2 (- w, v) * norm2 (- w, v) * norm2 (- w, v)
     + w * (7200 + 1440 * w + 912 * (w * w) + 144 * (w * w * w) + 18 * (w * w * w * w) + s * (432 + 144 * w + 36 * (w * w)) + 18 * (s * s))).
  { unfold DD, NN, norm2, cadd, cmul, cr, s. cbn [fst snd]. ring. }
  assert (M : forall a b, 0 <= a -> 0 <= b -> 0 <= a * b) by (intros; apply Rmult_le_pos; assumption).
  assert (A : forall a b, 0 <= a -> 0 <= b -> 0 <= a + b) by (intros; lra).
  split.
  - rewrite EE. match goal with |- _ <= _ + ?q => assert (0 <= q); [|lra] end. repeat first [assumption|lra|apply M|apply A].
  - rewrite ED. match goal with |- _ <= _ + ?p + ?q => assert (0 <= p) by (repeat first [assumption|lra|apply M|apply A]); assert (0 <= q) by (repeat first [assumption|lra|apply M|apply A]); lra end.
Qed.
Lemma DD_facts z : fst z <= 0 -> cn (NN z) <= cn (DD z) /\ 60 <= cn (DD z) /\ cn z * cn z * cn z <= cn (DD z).
Proof.
  intros Hz. destruct (DD_big z Hz) as [H1 H2]. pose proof (norm2_pos (NN z)). pose proof (norm2_pos z). pose proof (cn_pos z) as P.
  assert (Q : 0 <= norm2 z * norm2 z * norm2 z) by (repeat apply Rmult_le_pos; assumption).
  split; [|split].
  - apply sqrt_le_1_alt. lra.
  - unfold cn. rewrite <- (sqrt_square 60) by lra. apply sqrt_le_1_alt. lra.
  - rewrite <- (sqrt_square (cn z * cn z * cn z)) by (repeat apply Rmult_le_pos; assumption). apply sqrt_le_1_alt.
    replace (cn z * cn z * cn z * (cn z * cn z * cn z)) with ((cn z * cn z) * (cn z * cn z) * (cn z * cn z)) by ring. rewrite cn_sq. lra.
Qed.
Definition T5 : list dec := [di 120; di 120; di 60; di 20; di 5; di 1].
Lemma tay5 : is_tay 5 1 (di 120) T5.
Proof.
  unfold T5. intros z; cbn [tay]; rewrite !SdirkConvTop.distr, SdirkConvTop.cmul_c0, SdirkConvTop.D2R_di.
  repeat first [SdirkConvTop.sc 120%Z|SdirkConvTop.sc 60%Z|SdirkConvTop.sc 20%Z|SdirkConvTop.sc 5%Z|SdirkConvTop.sc 1%Z]. cbn [peval cpow]; rewrite !SdirkConvTop.D2R_di; ring.
Qed.
Lemma radau_acc_check : acc_check pN pD 5 (di 120) T5 = true.
Proof. vm_compute. reflexivity. Qed.
Lemma radau_acc z : fst z <= 0 -> cn (csub (NN z) (cmul (DD z) (cexp (tz z 1)))) <= cn (DD z) * delta 5 (cn z).
Proof.
  intros Hz. destruct (DD_facts z Hz) as (H1 & H2 & _). rewrite <- pN_eval, <- pD_eval in *.
  apply (acc_all pN pD 5 (di 120) T5 1 z radau_acc_check tay5); try lra; assumption.
Qed.
(* the cubic y + a t + b t^2 + d t^3 collocates y' = z y at the nodes up to s0 + s1 t + s2 t^2 *)
Lemma colloc (z y a b d s0 s1 s2 : cx) : fst z <= 0 ->
  s0 = csub (csub a (cmul z y)) (cmul (cr (1 / 10)) (cmul z d)) ->
  s1 = cadd (csub (cmul (cr 2) b) (cmul z a)) (cmul (cr (9 / 10)) (cmul z d)) ->
  s2 = csub (csub (cmul (cr 3) d) (cmul z b)) (cmul (cr (9 / 5)) (cmul z d)) ->
  cn (csub (cmul (DD z) (cadd y (cadd a (cadd b d)))) (cmul (NN z) y)) <= cn (DD z) * (2 * (cn s0 + cn s1 + cn s2)).
Proof.
  intros Hz Ea Eb Ed. destruct (DD_facts z Hz) as (_ & H60 & H3). 
  set (q0 := cadd (cr 60) (cmul z (cadd (cr (-6)) z))). set (q1 := cadd (cr 30) (cmul z (cadd (cr (-8)) z))). set (q2 := cadd (cr 20) (cmul z (cadd (cr (-7)) z))).
  assert (EQ : csub (cmul (DD z) (cadd y (cadd a (cadd b d)))) (cmul (NN z) y) = cadd (cadd (cmul q0 s0) (cmul q1 s1)) (cmul q2 s2)).
  { rewrite Ea, Eb, Ed. unfold DD, NN, q0, q1, q2. clear.
    destruct z as [z1 z2], y as [y1 y2], a as [a1 a2], b as [b1 b2], d as [d1 d2]. unfold csub, cadd, cmul, copp, cr. cbn [fst snd]. apply cx_eq; cbn [fst snd]; field. }
  rewrite EQ. pose proof (cn_pos z) as P. set (r := cn z) in *.
  assert (Q : forall (k l : R) , 0 <= k <= 60 -> 0 <= l <= 8 -> cn (cadd (cr k) (cmul z (cadd (cr (- l)) z))) <= 2 * cn (DD z)).
  { intros k l Hk Hl. eapply Rle_trans; [apply cn_add|]. rewrite cn_cr, cn_mul, Rabs_pos_eq by lra. fold r.
    assert (X : cn (cadd (cr (- l)) z) <= l + r) by (eapply Rle_trans; [apply cn_add|]; rewrite cn_cr, Rabs_Ropp, Rabs_pos_eq by lra; fold r; lra).
    destruct (Rle_lt_dec r 4) as [H|H]; [|]; set (DZ := cn (DD z)) in *; clearbody DZ; nra. }
  pose proof (Q 60 6 ltac:(lra) ltac:(lra)) as Q0. pose proof (Q 30 8 ltac:(lra) ltac:(lra)) as Q1. pose proof (Q 20 7 ltac:(lra) ltac:(lra)) as Q2.
  change (- (6)) with (-6) in Q0. change (- (8)) with (-8) in Q1.  change (- (7)) with (-7) in Q2.
  fold q0 in Q0. fold q1 in Q1. fold q2 in Q2.
  eapply Rle_trans; [apply cn_add|]. eapply Rle_trans; [apply Rplus_le_compat_r, cn_add|]. rewrite !cn_mul.
  pose proof (cn_pos s0). pose proof (cn_pos s1). pose proof (cn_pos s2). nra.
Qed.
