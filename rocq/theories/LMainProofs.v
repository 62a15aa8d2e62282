(* C103: the main program of Rock4-L/test. *)
From Coq Require Import Reals Lra Lia List.
From Verif Require Import Base FieldLU HessModel Spec HessPathProofs SdirkModel SdirkSpec LaplSpec LaplTop ExModel TestModel TestProofs LMainModel.
Import ListNotations.
Open Scope R_scope.
Ltac run E := match type of E with ?X = Ok ?r => match goal with |- context [bind ?Y _] => replace Y with (Ok r) by (symmetry; exact E) end end; cbn [bind].

(* the step function of the initial condition *)
Definition front (n : Z) : Z -> R := fun i => if (i <=? n / 2)%Z then 9999999 / 10 ^ 7 else 0.
Lemma fill n lo hi (c : R) (x : vec Rnum) : (0 <= lo)%Z -> (lo <= hi + 1)%Z -> (hi < n)%Z ->
  exists r, forM lo hi (fun i x => wr 0 (n - 1) x i c) x = Ok r /\ (forall j, (lo <= j <= hi)%Z -> r j = c) /\ forall j, (j < lo \/ hi < j)%Z -> r j = x j.
Proof.
  intros H0 H1 H2.
  assert (W : wp (forM lo hi (fun i x => wr 0 (n - 1) x i c) x) (fun r => (forall j, (lo <= j < hi + 1)%Z -> r j = c) /\ forall j, (j < lo \/ hi + 1 <= j)%Z -> r j = x j)).
  { apply (forM_ind (fun k (r : Z -> car Rnum) => (forall j, (lo <= j < k)%Z -> r j = c) /\ forall j, (j < lo \/ k <= j)%Z -> r j = x j)); [lia|split; [intros; lia|reflexivity]|].
    intros i r Hi [G1 G2]. arr. split; intros j Hj.
    - destruct (Z.eq_dec j i) as [->|]; [apply upd_same|]. rewrite upd_other by assumption. apply G1. lia.
    - rewrite upd_other by lia. apply G2. lia. }
  apply wp_ok in W. destruct W as (r & E & G1 & G2). exists r. split; [exact E|]. split; intros j Hj; [apply G1|apply G2]; lia.
Qed.
Section Prog.
Variable n : Z.
Hypothesis Hn : (2 <= n)%Z.
Lemma init_ok (y : vec Rnum) : exists r, fradau5_init (K := Rnum) n y = Ok r /\ veq n r (front n).
Proof.
  assert (Q : (0 <= n / 2 <= n - 1)%Z) by (pose proof (Z.div_lt n 2); pose proof (Z.div_pos n 2); lia).
  unfold fradau5_init. destruct (fill n 0 (n / 2) (Rlit 9999999 (-7)) y) as (r & E & G1 & G2); [lia|lia|lia|].
  run E. destruct (fill n (n / 2 + 1) (n - 1) (Rlit 0 0) r) as (r2 & E2 & G3 & G4); [lia|lia|lia|]. exists r2. split; [exact E2|].
  intros i Hi. unfold front. destruct (Z.leb_spec i (n / 2)).
  - rewrite G4, G1 by lia. unfold Rlit, powerRZ. simpl. field.
  - rewrite G3 by lia. apply Rlit_0.
Qed.
(* the two right-hand sides *)
Lemma same_problem (b0 y res s o : vec Rnum) : exists r r',
  fradau5_rhs (K := Rnum) n (IZR n) b0 y res = Ok r /\ f_L (K := Rnum) n y s 1 0 o = Ok r' /\ veq n r (laplace n y) /\ veq n r' (laplace n y).
Proof.
  destruct (fL_ok n Hn y s 1 0 o) as (r' & E' & H' & _).
  destruct (fill n 0 (n - 1) (Rlit 0 0) b0) as (b & Eb & Hb & _); [lia|lia|lia|].
  unfold fradau5_rhs, binit. run Eb. unfold grid_rhs.
  pose proof (nm1 n Hn) as Hm. assert (EH : grid_eh2 (K := Rnum) (nlit 1 0) (nlit 1 0) (IZR n) = 1 / (1 / IZR (n - 1)) ^ 2).
  { unfold grid_eh2. rlit. cbv zeta. replace (IZR n - 1) with (IZR (n - 1)) by (rewrite minus_IZR; reflexivity). cbn [car Rnum]. field. lra. }
  rewrite EH. set (e := 1 / (1 / IZR (n - 1)) ^ 2).
  arr. match goal with |- context [forM 1 (n - 2) ?f ?o1] => destruct (inner_loop n Hn f (laplace n y) o1) as (o' & Qe & Qa & Qb) end.
  { rewrite upd_same, (lap_0 n Hn), (Hb 0%Z) by lia. rlit. unfold e. unfold vec in *; cbn [car Rnum] in *. field. lra. }
  { intros i x Hi. arr. eexists. split; [reflexivity|]. split; [|intros j Hj; now rewrite upd_other].
    rewrite upd_same, (lap_mid n y i Hi), (Hb i) by lia. rlit. unfold e. unfold vec in *; cbn [car Rnum] in *. field. lra. }
  rewrite Qe. cbn [bind]. arr. eexists _, r'. split; [reflexivity|]. split; [exact E'|]. split.
  - intros i Hi. match goal with |- upd o' (n - 1) ?v i = _ => destruct (fin n Hn o' o' (laplace n y) v Qa) as [F1 _] end; [reflexivity| |apply F1; exact Hi].
    rewrite (lap_n n Hn), (Hb (n - 1)%Z) by lia. rlit. unfold e. unfold vec in *; cbn [car Rnum] in *. field. lra.
  - intros i Hi. rewrite (H' i Hi). unfold vec in *; cbn [car Rnum] in *. ring.
Qed.
(* the search of the tolerances; what a call does to the n elements depends on the n elements only *)
Definition agree {n0 : Z} (a b : out (vec Rnum)) : Prop :=
  match a, b with Ok x, Ok y => veq n0 x y | Throw _, Throw _ => True | UB _, UB _ => True | Diverge, Diverge => True | _, _ => False end.
Variable rad : R -> R -> vec Rnum -> out (vec Rnum).
Hypothesis Hext : forall a r x y, veq n x y -> agree (n0 := n) (rad a r x) (rad a r y).
Definition fails (a r : R) : Prop := exists s, rad a r (front n) = Throw s.
Lemma search_fail fuel junk a r y : fails a r -> search (K := Rnum) n rad (S fuel) junk a r y = search (K := Rnum) n rad fuel junk (a * 2) (r * 2) (junk fuel).
Proof.
  intros [s Es]. cbn [search]. destruct (init_ok y) as (y0 & E & H). rewrite E. cbn [bind]. pose proof (Hext a r y0 (front n) H) as A. rewrite Es in A.
  destruct (rad a r y0); try contradiction A. cbn [nmul nlit Rnum]. rewrite Rlit_0. reflexivity.
Qed.
Lemma search_stop fuel junk a r y z : rad a r (front n) = Ok z -> exists z', search (K := Rnum) n rad (S fuel) junk a r y = Ok (a, r, z') /\ veq n z' z.
Proof.
  intros Es. cbn [search]. destruct (init_ok y) as (y0 & E & H). rewrite E. cbn [bind]. pose proof (Hext a r y0 (front n) H) as A. rewrite Es in A.
  destruct (rad a r y0) as [z'| | |]; try contradiction A. exists z'. split; [reflexivity|exact A].
Qed.
Lemma search_finds k : forall fuel junk a r y z, (k < fuel)%nat -> (forall j, (j < k)%nat -> fails (a * 2 ^ j) (r * 2 ^ j)) -> rad (a * 2 ^ k) (r * 2 ^ k) (front n) = Ok z ->
  exists z', search (K := Rnum) n rad fuel junk a r y = Ok (a * 2 ^ k, r * 2 ^ k, z') /\ veq n z' z.
Proof.
  induction k as [|k IH]; intros fuel junk a r y z Hf Hj Hz; (destruct fuel as [|fuel]; [lia|]).
  - cbn [pow] in *. rewrite !Rmult_1_r in *. apply search_stop. exact Hz.
  - pose proof (Hj O ltac:(lia)) as F0. cbn [pow] in F0. rewrite !Rmult_1_r in F0. rewrite (search_fail _ _ _ _ _ F0). cbn [pow]. rewrite <- !Rmult_assoc. apply IH; [lia| |].
    + intros j Hj2. specialize (Hj (S j) ltac:(lia)). cbn [pow] in Hj. rewrite <- !Rmult_assoc in Hj. exact Hj.
    + cbn [pow] in Hz. rewrite <- !Rmult_assoc in Hz. exact Hz.
Qed.
Lemma search_endless fuel : forall junk a r y, (forall j, fails (a * 2 ^ j) (r * 2 ^ j)) -> search (K := Rnum) n rad fuel junk a r y = Diverge.
Proof.
  induction fuel as [|fuel IH]; intros junk a r y H; [reflexivity|]. pose proof (H O) as F0. cbn [pow] in F0. rewrite !Rmult_1_r in F0. rewrite (search_fail _ _ _ _ _ F0).
  apply IH. intros j. specialize (H (S j)). cbn [pow] in H. rewrite <- !Rmult_assoc in H. exact H.
Qed.
(* the rows *)
Variable rock : R -> vec Rnum -> out (vec Rnum).
Hypothesis Rext : forall d x y, veq n x y -> agree (n0 := n) (rock d x) (rock d y).
Lemma rows_ok (w : R -> vec Rnum) (y : vec Rnum) k : forall dt yR, (forall d, rock d (front n) = Ok (w d)) ->
  wp (rows (K := Rnum) n rock k dt yR y) (fun r => Datatypes.length r = k /\ forall l, (l < k)%nat ->
    nth l r (0, 0) = (dt / (5 / 4) ^ S l, Rabs (w (dt / (5 / 4) ^ S l) (n - 1)%Z - y (n - 1)%Z))).
Proof.
  induction k as [|k IH]; intros dt yR Hz; cbn [rows].
  - cbn [wp]. split; [reflexivity|intros; lia].
  - destruct (init_ok yR) as (y0 & E & H). rewrite E. cbn [bind].
    assert (E4 : (dt / nlit 125 (-2))%num = dt / (5 / 4)) by (cbn [ndiv nlit Rnum]; f_equal; unfold Rlit, powerRZ; simpl; field). rewrite E4.
    pose proof (Rext (dt / (5 / 4)) y0 (front n) H) as A. rewrite Hz in A. destruct (rock (dt / (5 / 4)) y0) as [z| | |]; try contradiction A. cbn [bind]. rewrite normdiff_last by lia. cbn [bind].
    apply wp_bind. eapply wp_mono; [apply (IH (dt / (5 / 4)) z Hz)|]. intros r [L G]. cbn [wp]. split; [cbn [Datatypes.length]; f_equal; exact L|].
    assert (PW : forall m, dt / (5 / 4) / (5 / 4) ^ m = dt / (5 / 4) ^ S m) by (intros m; cbn [pow]; field; apply pow_nonzero; lra).
    intros [|l] Hl.
    + cbn [nth pow]. rewrite Rmult_1_r. rewrite (A (n - 1)%Z ltac:(lia)). reflexivity.
    + specialize (G l ltac:(lia)). cbn [nth]. rewrite PW in G. exact G.
Qed.
Lemma main_ok (w : R -> vec Rnum) (z : vec Rnum) m k fuel junk T y yR : (m < fuel)%nat -> (forall j, (j < m)%nat -> fails (/ 10 ^ 8 * 2 ^ j) (/ 10 ^ 8 * 2 ^ j)) -> rad (/ 10 ^ 8 * 2 ^ m) (/ 10 ^ 8 * 2 ^ m) (front n) = Ok z ->
  (forall d, rock d (front n) = Ok (w d)) ->
  exists r, l_main (K := Rnum) n rad rock fuel junk T k y yR = Ok r /\ Datatypes.length r = k /\ forall l, (l < k)%nat ->
    nth l r (0, 0) = (T / 2 / (5 / 4) ^ S l, Rabs (w (T / 2 / (5 / 4) ^ S l) (n - 1)%Z - z (n - 1)%Z)).
Proof.
  intros Hm Hj Hz Hw. unfold l_main.
  assert (E8 : @nlit Rnum 1 (-8) = / 10 ^ 8) by (cbn [nlit Rnum]; unfold Rlit, powerRZ; simpl; field). rewrite E8.
  destruct (search_finds m fuel junk _ _ y z Hm Hj Hz) as (z' & E & A).
  match goal with |- context [search ?a ?b ?c ?d ?e ?f ?g] => assert (E' : search a b c d e f g = Ok (/ 10 ^ 8 * 2 ^ m, / 10 ^ 8 * 2 ^ m, z')) by exact E end. rewrite E'. cbn [bind].
  assert (E2 : (T / nlit 2 0)%num = T / 2) by (cbn [ndiv nlit Rnum]; rewrite Rlit_0; reflexivity). rewrite E2.
  pose proof (rows_ok w z' k (T / 2) yR Hw) as W. destruct (rows n rock k (T / 2) yR z') as [r| | |]; try contradiction W. exists r. destruct W as [L G]. split; [reflexivity|]. split; [exact L|].
  intros l Hl. rewrite (G l Hl). rewrite (A (n - 1)%Z ltac:(lia)). reflexivity.
Qed.
End Prog.
Lemma main_endless n (Hn : (2 <= n)%Z) rad (Hext : forall a r x y, veq n x y -> agree (n0 := n) (rad a r x) (rad a r y)) rock fuel junk T k y yR :
  (forall j, exists s, rad (/ 10 ^ 8 * 2 ^ j) (/ 10 ^ 8 * 2 ^ j) (front n) = Throw s) -> l_main (K := Rnum) n rad rock fuel junk T k y yR = Diverge.
Proof.
  intros H. unfold l_main.
  assert (E8 : @nlit Rnum 1 (-8) = / 10 ^ 8) by (cbn [nlit Rnum]; unfold Rlit, powerRZ; simpl; field). rewrite E8.
  pose proof (search_endless n Hn rad Hext fuel junk _ _ y H) as E.
  match goal with |- context [search ?a ?b ?c ?d ?e ?f ?g] => assert (E' : search a b c d e f g = Diverge) by exact E end. rewrite E'. reflexivity.
Qed.
Lemma distance_zero n (Hn : (2 <= n)%Z) M k T y yR : exists rad rock (z u : vec Rnum) r,
  (forall a b x, rad a b x = Ok z) /\ (forall d x, rock d x = Ok u) /\ M <= Rabs (u 0%Z - z 0%Z) /\
  l_main (K := Rnum) n rad rock 1 (fun _ => y) T k y yR = Ok r /\ Datatypes.length r = k /\ forall l, (l < k)%nat -> snd (nth l r (0, 0)) = 0.
Proof.
  set (u := (fun i => if (i =? 0)%Z then M else 0) : vec Rnum). set (z := (fun _ => 0) : vec Rnum).
  destruct (main_ok n Hn (fun _ _ _ => Ok z)) with (rock := fun (_ : R) (_ : vec Rnum) => Ok u) (w := fun _ : R => u) (z := z) (m := 0%nat) (k := k) (fuel := 1%nat)
    (junk := fun _ : nat => y) (T := T) (y := y) (yR := yR) as (r & E & L & G).
  - intros; intros i Hi; reflexivity.
  - intros; intros i Hi; reflexivity.
  - lia.
  - intros; lia.
  - reflexivity.
  - reflexivity.
  - exists (fun _ _ _ => Ok z), (fun _ _ => Ok u), z, u, r. split; [reflexivity|]. split; [reflexivity|]. split.
    { unfold u, z. cbn. rewrite Rminus_0_r. apply Rle_abs. }
    split; [exact E|]. split; [exact L|]. intros l Hl. rewrite (G l Hl). cbn [snd]. unfold u, z. destruct (Z.eqb_spec (n - 1) 0); [lia|]. rewrite Rminus_0_r. apply Rabs_R0.
Qed.
