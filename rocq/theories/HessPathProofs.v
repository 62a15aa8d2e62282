(* Proofs: householder and the Hessenberg path of Matrices.hpp, over the reals. *)
From Verif Require Import Base Spec HessModel HessPathModel FieldLU HessProofs HessCProofs.
From Coq Require Import Reals Lra.
Open Scope Z_scope.

Notation Rrth := (F_R Rfth).
Lemma rsum_ext lo hi f g : (forall i, lo <= i <= hi -> f i = g i) -> rsum lo hi f = rsum lo hi g.
Proof. apply sum_ext. Qed.
Lemma rsum_add lo hi f g : rsum lo hi (fun i => f i + g i)%R = (rsum lo hi f + rsum lo hi g)%R.
Proof. apply (sum_add _ _ _ _ _ _ _ Rrth). Qed.
Lemma rsum_scal lo hi c f : rsum lo hi (fun i => c * f i)%R = (c * rsum lo hi f)%R.
Proof. apply (sum_scal _ _ _ _ _ _ _ Rrth). Qed.
Lemma rsum_sub lo hi f g : rsum lo hi (fun i => f i - g i)%R = (rsum lo hi f - rsum lo hi g)%R.
Proof. apply (sum_sub _ _ _ _ _ _ _ Rrth). Qed.
Lemma rsum_split mid lo hi f : lo <= mid + 1 -> mid <= hi ->
  rsum lo hi f = (rsum lo mid f + rsum (mid + 1) hi f)%R.
Proof. apply (sum_split _ _ _ _ _ _ _ Rrth). Qed.
Lemma rsum_zero lo hi f : (forall i, lo <= i <= hi -> f i = 0%R) -> rsum lo hi f = 0%R.
Proof. apply (sum_zero _ _ _ _ _ _ _ Rrth). Qed.
Lemma rsum_lo lo hi f : lo <= hi -> rsum lo hi f = (f lo + rsum (lo + 1) hi f)%R.
Proof. apply sum_lo. Qed.
Lemma rsum_hi lo hi f : lo <= hi -> rsum lo hi f = (rsum lo (hi - 1) f + f hi)%R.
Proof. apply (sum_hi _ _ _ _ _ _ _ Rrth). Qed.
Lemma rsum_empty lo hi f : hi < lo -> rsum lo hi f = 0%R.
Proof. apply sum_empty. Qed.

(* the scalar product in a reflector *)
Definition hw (j : Z) (v : Rvec) : Rvec :=
  fun i => if i <=? j then 0%R else if i =? j + 1 then 1%R else v i.
Lemma reflector_hw n j v t y i : reflector n j v t y i = (y i - t * rsum 1 n (fun q => hw j v q * y q) * hw j v i)%R.
Proof. reflexivity. Qed.
Lemma hw_lo j v i : i <= j -> hw j v i = 0%R.
Proof. intros. unfold hw. destruct (Z.leb_spec i j); [reflexivity|lia]. Qed.
Lemma hw_1 j v : hw j v (j + 1) = 1%R.
Proof. unfold hw. destruct (Z.leb_spec (j + 1) j); [lia|]. rewrite Z.eqb_refl. reflexivity. Qed.
Lemma hw_hi j v i : j + 1 < i -> hw j v i = v i.
Proof. intros. unfold hw. destruct (Z.leb_spec i j); [lia|]. destruct (Z.eqb_spec i (j + 1)); [lia|reflexivity]. Qed.
Lemma hw_sum n j v (y : Rvec) : 1 <= j < n ->
  rsum 1 n (fun q => hw j v q * y q)%R = (y (j + 1)%Z + rsum (j + 2) n (fun q => v q * y q))%R.
Proof.
  intros Hj. rewrite (rsum_split j) by lia. rewrite (rsum_zero 1 j).
  2:{ intros i Hi. rewrite hw_lo by lia. ring. }
  rewrite rsum_lo by lia. rewrite hw_1. replace (j + 1 + 1) with (j + 2) by lia.
  rewrite (rsum_ext (j + 2) n _ (fun q => v q * y q)%R). { ring. }
  intros i Hi. rewrite hw_hi by lia. reflexivity.
Qed.

Lemma hh_body_spec n (A : Rmat) (tau : Rvec) j (Y : Rvec) : 1 <= j < n ->
  wp (@hh_body Rnum n A tau j Y)
     (fun Y' => forall i, Y' i = if (1 <=? i) && (i <=? n) then reflector n j (fun i => A i j) (tau (j - 1)) Y i else Y i).
Proof.
  intros Hj. unfold hh_body. step. apply wp_bind.
  eapply (wp_mono _ (fun s : R => s = (Y (j + 1)%Z + rsum (j + 2) n (fun q => A q j * Y q))%R)).
  { refine (wp_mono _ _ _ (forM_ind (fun i (s : R) => s = (Y (j + 1)%Z + rsum (j + 2) (i - 1) (fun q => A q j * Y q))%R) _ _ _ _ _ _ _) _).
    - lia.
    - cbv beta. rewrite rsum_empty by lia. cbn. ring.
    - intros i s Hi ->. repeat step. cbn [wp]. cbn [nadd nmul Rnum].
      replace (i + 1 - 1) with i by lia. rewrite (rsum_hi (j + 2) i) by lia. rring.
    - intros s ->. replace (n + 1 - 1) with n by lia. reflexivity. }
  intros s Hs. repeat step. cbn [nadd nmul nsub Rnum].
  assert (Hsp : rsum 1 n (fun q => hw j (fun i => A i j) q * Y q)%R = s) by (rewrite hw_sum by lia; auto).
  clear Hs.
  eapply wp_mono.
  { apply (forM_ind (fun i (C : Rvec) => forall q,
       C q = if (j + 1 <=? q) && (q <? i) then (Y q - s * tau (j - 1)%Z * hw j (fun i => A i j) q)%R else Y q)).
    - lia.
    - intros q. unfold upd. destruct (Z.eqb_spec q (j + 1)) as [->|].
      + destruct (Z.leb_spec (j + 1) (j + 1)); [|lia]. destruct (Z.ltb_spec (j + 1) (j + 2)); [|lia].
        cbn [andb]. rewrite hw_1. rring.
      + destruct (Z.leb_spec (j + 1) q), (Z.ltb_spec q (j + 2)); try lia; reflexivity.
    - intros i C Hi HC. repeat step. cbn [wp]. intros q. unfold upd.
      destruct (Z.eqb_spec q i) as [->|].
      + rewrite HC. destruct (Z.leb_spec (j + 1) i), (Z.ltb_spec i i), (Z.ltb_spec i (i + 1)); try lia.
        cbn [andb]. rewrite hw_hi by lia. reflexivity.
      + rewrite HC. destruct (Z.leb_spec (j + 1) q), (Z.ltb_spec q i), (Z.ltb_spec q (i + 1)); try lia; reflexivity. }
  intros C HC i. rewrite HC. rewrite reflector_hw, Hsp.
  destruct (Z.leb_spec (j + 1) i), (Z.ltb_spec i (n + 1)), (Z.leb_spec 1 i), (Z.leb_spec i n); try lia; cbn [andb]; try reflexivity; try rring.
  rewrite hw_lo by lia. rring.
Qed.

Definition on (n : Z) (x y : Rvec) : Prop := forall i, 1 <= i <= n -> x i = y i.
Lemma reflector_on n j v t x y : on n x y -> on n (reflector n j v t x) (reflector n j v t y).
Proof.
  intros H i Hi. rewrite !reflector_hw. rewrite (H i Hi). f_equal. f_equal. f_equal.
  apply rsum_ext. intros q Hq. rewrite (H q Hq). reflexivity.
Qed.
Lemma apply_Q_on n A tau k : forall x y, on n x y -> on n (apply_Q n A tau k x) (apply_Q n A tau k y).
Proof. induction k; intros x y H; [exact H|]. cbn [apply_Q]. apply IHk, reflector_on, H. Qed.
Lemma apply_Qt_on n A tau k : forall x y, on n x y -> on n (apply_Qt n A tau k x) (apply_Qt n A tau k y).
Proof. induction k; intros x y H; [exact H|]. cbn [apply_Qt]. apply reflector_on, IHk, H. Qed.

Lemma reflector_lin n j v t a b x y i :
  reflector n j v t (fun q => a * x q + b * y q)%R i =
  (a * reflector n j v t x i + b * reflector n j v t y i)%R.
Proof.
  rewrite !reflector_hw.
  rewrite (rsum_ext 1 n _ (fun q => a * (hw j v q * x q) + b * (hw j v q * y q))%R) by (intros; ring).
  rewrite rsum_add, !rsum_scal. ring.
Qed.
Lemma reflector_ext n j v t x y i : (forall q, x q = y q) -> reflector n j v t x i = reflector n j v t y i.
Proof. intros H. rewrite !reflector_hw. rewrite H. f_equal. f_equal. f_equal. apply rsum_ext. intros. rewrite H. reflexivity. Qed.
Lemma apply_Q_ext n A tau k : forall x y i, (forall q, x q = y q) -> apply_Q n A tau k x i = apply_Q n A tau k y i.
Proof.
  induction k; intros x y i H; [apply H|]. cbn [apply_Q]. apply IHk. intros. apply reflector_ext, H.
Qed.
Lemma apply_Q_lin n A tau k : forall a b x y i,
  apply_Q n A tau k (fun q => a * x q + b * y q)%R i =
  (a * apply_Q n A tau k x i + b * apply_Q n A tau k y i)%R.
Proof.
  induction k; intros a b x y i; [reflexivity|]. cbn [apply_Q].
  rewrite <- IHk. apply apply_Q_ext. intros q. apply reflector_lin.
Qed.

(* a reflector is an involution *)
Lemma reflector_invol n j v t x : 1 <= j < n -> is_reflector n j v t ->
  forall i, reflector n j v t (reflector n j v t x) i = x i.
Proof.
  intros Hj Hr i.
  assert (Hww : rsum 1 n (fun q => hw j v q * hw j v q)%R = (1 + rsum (j + 2) n (fun q => v q * v q))%R).
  { rewrite (hw_sum n j v (hw j v)) by lia. rewrite hw_1. f_equal. apply rsum_ext. intros q Hq. rewrite hw_hi by lia. reflexivity. }
  rewrite reflector_hw. rewrite (rsum_ext 1 n (fun q => hw j v q * reflector n j v t x q)%R (fun q => hw j v q * (x q - t * rsum 1 n (fun q => hw j v q * x q) * hw j v q))%R) by reflexivity. rewrite reflector_hw. set (s := rsum 1 n (fun q => hw j v q * x q)%R).
  rewrite (rsum_ext 1 n _ (fun q => hw j v q * x q - (t * s) * (hw j v q * hw j v q))%R) by (intros; ring).
  rewrite rsum_sub, rsum_scal. fold s. rewrite Hww.
  destruct Hr as [-> | Hr]; [ring|].
  set (S2 := rsum (j + 2) n (fun i => v i * v i)%R) in *.
  replace (x i - t * s * hw j v i - t * (s - t * s * (1 + S2)) * hw j v i)%R
    with (x i - t * s * hw j v i * (2 - t * (1 + S2)))%R by ring.
  rewrite Hr. ring.
Qed.
Lemma Q_Qt n A tau k x : Z.of_nat k < n ->
  (forall j, 1 <= j <= Z.of_nat k -> is_reflector n j (fun i => A i j) (tau (j - 1))) ->
  forall i, apply_Q n A tau k (apply_Qt n A tau k x) i = x i.
Proof.
  revert x. induction k as [|k IH]; intros x Hk Hr i; [reflexivity|].
  cbn [apply_Q apply_Qt].
  rewrite (apply_Q_ext n A tau k _ (apply_Qt n A tau k x)).
  - apply IH; [lia|]. intros j Hj. apply Hr. lia.
  - intros q. apply reflector_invol; [lia|]. apply Hr. lia.
Qed.

(* the loops of householder *)
Lemma hh_direct n (A : Rmat) (tau : Rvec) (X : Rvec) : forall d fuel (Y : Rvec) k,
  Z.of_nat k + Z.of_nat d = n - 2 -> (d < fuel)%nat -> on n Y (apply_Qt n A tau k X) ->
  wp (@hh_loop Rnum fuel n A tau (Z.of_nat k + 1) (n - 1) 1 Y)
     (fun Y' => on n Y' (apply_Qt n A tau (k + d) X)).
Proof.
  induction d as [|d IH]; intros fuel Y k Hk Hf HY; (destruct fuel as [|fuel]; [lia|]); cbn [hh_loop].
  - destruct (Z.eqb_spec (Z.of_nat k + 1) (n - 1)); [|lia]. cbn [wp]. rewrite Nat.add_0_r. exact HY.
  - destruct (Z.eqb_spec (Z.of_nat k + 1) (n - 1)); [lia|].
    apply wp_bind. eapply wp_mono; [apply hh_body_spec; lia|].
    intros Y1 HY1. replace (Z.of_nat k + 1 + 1) with (Z.of_nat (S k) + 1) by lia.
    replace (k + S d)%nat with (S k + d)%nat by lia. apply IH; [lia|lia|].
    cbn [apply_Qt]. intros i Hi. rewrite HY1.
    destruct (Z.leb_spec 1 i), (Z.leb_spec i n); try lia. cbn [andb].
    replace (Z.of_nat k + 1) with (Z.of_nat (S k)) by lia.
    apply reflector_on; [exact HY|lia].
Qed.
Lemma hh_reverse n (A : Rmat) (tau : Rvec) : forall k fuel (X Y : Rvec),
  Z.of_nat k <= n - 2 -> (k < fuel)%nat -> on n Y X ->
  wp (@hh_loop Rnum fuel n A tau (Z.of_nat k) 0 (-1) Y)
     (fun Y' => on n Y' (apply_Q n A tau k X)).
Proof.
  induction k as [|k IH]; intros fuel X Y Hk Hf HY; (destruct fuel as [|fuel]; [lia|]); cbn [hh_loop].
  - cbn. exact HY.
  - destruct (Z.eqb_spec (Z.of_nat (S k)) 0); [lia|].
    apply wp_bind. eapply wp_mono; [apply hh_body_spec; lia|].
    intros Y1 HY1. replace (Z.of_nat (S k) + -1) with (Z.of_nat k) by lia.
    cbn [apply_Q]. apply IH; [lia|lia|]. intros i Hi. rewrite HY1.
    destruct (Z.leb_spec 1 i), (Z.leb_spec i n); try lia. cbn [andb].
    apply reflector_on; [exact HY|lia].
Qed.
Lemma householder_direct n (A : Rmat) (tau X : Rvec) fuel : 2 <= n -> (Z.to_nat n <= fuel)%nat ->
  wp (@householder Rnum fuel n A tau X true) (fun Y => on n Y (apply_Qt n A tau (Z.to_nat (n - 2)) X)).
Proof.
  intros Hn Hf. unfold householder.
  apply (hh_direct n A tau X (Z.to_nat (n - 2)) fuel X O); [lia|lia|]. intros i Hi. reflexivity.
Qed.
Lemma householder_reverse n (A : Rmat) (tau X : Rvec) fuel : 2 <= n -> (Z.to_nat n <= fuel)%nat ->
  wp (@householder Rnum fuel n A tau X false) (fun Y => on n Y (apply_Q n A tau (Z.to_nat (n - 2)) X)).
Proof.
  intros Hn Hf. unfold householder.
  replace (n - 2) with (Z.of_nat (Z.to_nat (n - 2))) at 1 by lia.
  apply hh_reverse; [lia|lia|]. intros i Hi. reflexivity.
Qed.

Lemma householder_inverse_lemma n fuel (A : Rmat) (tau X : Rvec) :
  2 <= n -> (Z.to_nat n <= fuel)%nat ->
  (forall j, 1 <= j <= n - 2 -> is_reflector n j (fun i => A i j) (tau (j - 1))) ->
  exists Y Z, @householder Rnum fuel n A tau X true = Ok Y /\
              @householder Rnum fuel n A tau Y false = Ok Z /\
              on n Y (apply_Qt n A tau (Z.to_nat (n - 2)) X) /\ on n Z X.
Proof.
  intros Hn Hf Hr.
  pose proof (householder_direct n A tau X fuel Hn Hf) as H1. apply wp_ok in H1. destruct H1 as [Y [E1 H1]].
  pose proof (householder_reverse n A tau Y fuel Hn Hf) as H2. apply wp_ok in H2. destruct H2 as [W [E2 H2]].
  exists Y, W. split; [exact E1|]. split; [exact E2|]. split; [exact H1|].
  intros i Hi. rewrite (H2 i Hi).
  rewrite (apply_Q_on n A tau _ Y (apply_Qt n A tau (Z.to_nat (n - 2)) X) H1 i Hi).
  apply Q_Qt; [lia|]. intros j Hj. apply Hr. lia.
Qed.
Lemma householder_n1_ub fuel (A : mat Rnum) (tau X : vec Rnum) dir :
  exists msg, householder (S fuel) 1 A tau X dir = UB msg.
Proof. destruct dir; eexists; reflexivity. Qed.

(* ---- statements in terms of Spec.v --------------------------------------- *)
Lemma effR_hess n A : upper_hessenberg n A -> forall i j, 1 <= i <= n -> 1 <= j <= n -> effR 1 A i j = A i j.
Proof.
  intros H i j Hi Hj. unfold eff. destruct (Z.ltb_spec (j + 1) i).
  - symmetry. apply H; lia.
  - destruct (Z.ltb_spec j 1); [lia|]. rewrite andb_false_r. reflexivity.
Qed.
Lemma dech_solh_lemma n (A : Rmat) ip A' ip' (b : Rvec) : 1 <= n -> upper_hessenberg n A ->
  @dech Rnum n A ip = Ok (A', ip', 0) ->
  exists x, @solh Rnum n A' ip' b = Ok x /\ solution n A x b.
Proof.
  intros Hn HA E. pose proof (dech_spec n A ip Hn) as H. rewrite E in H. cbn [wp] in H.
  destruct H as (_ & H & _). destruct (H eq_refl) as [Hinv Hnn].
  pose proof (solh_spec n _ A' ip' b Hn Hinv Hnn) as Hs. apply wp_ok in Hs. destruct Hs as [x [Ex Hx]].
  exists x. split; [exact Ex|]. eapply (fsat_ext R 0%R Rplus Rmult).
  3:{ exact Hx. } { apply effR_hess. exact HA. } reflexivity.
Qed.
Lemma dech_singular_lemma n (A : Rmat) ip : 1 <= n -> upper_hessenberg n A ->
  exists A' ip' ret, @dech Rnum n A ip = Ok (A', ip', ret) /\ 0 <= ret <= n /\
    (ret = 0 <-> nonsingular n A).
Proof.
  intros Hn HA. pose proof (dech_spec n A ip Hn) as H. apply wp_ok in H.
  destruct H as [[[A' ip'] ret] [E (Hr & H0 & H1)]]. exists A', ip', ret. split; [exact E|]. split; [exact Hr|].
  assert (Hsat : forall x b, solution n A x b <-> Rsat n (effR 1 A) x b).
  { intros x b. split; intros H; (eapply (fsat_ext R 0%R Rplus Rmult); [| |exact H]); try reflexivity;
    intros i j Hi Hj; [symmetry|]; apply (effR_hess n); auto. }
  split.
  - intros ->. destruct (H0 eq_refl) as [Hinv Hnn]. intros x Hx i Hi. apply Hsat in Hx.
    apply (solve_unique R 0%R 1%R Rplus Rmult Rminus Ropp Rdiv Rinv Rfth n _ A' ip' Hn Hinv Hnn x (fun _ => 0%R) (fun _ => 0%R)); auto.
    intros q Hq. apply (sum_zero _ _ _ _ _ _ _ Rrth). intros. ring.
  - intros Hns. destruct (Z.eq_dec ret 0) as [|Hne]; [assumption|].
    destruct (H1 Hne) as [x [[i [Hi Hxi]] Hx]]. exfalso. apply Hxi, (Hns x); [|exact Hi]. apply Hsat. exact Hx.
Qed.

(* complex systems *)
Lemma sumC_pair lo hi f : sumC lo hi f = (rsum lo hi (fun i => fst (f i)), rsum lo hi (fun i => snd (f i))).
Proof.
  unfold rsum, sum. generalize (Z.to_nat (hi - lo + 1)) as k. intros k. revert lo.
  induction k as [|k IH]; intros lo; [reflexivity|]. cbn [sumn]. rewrite IH. reflexivity.
Qed.
Lemma csolution_Csat n Mr Mi xr xi br bi :
  csolution n Mr Mi xr xi br bi <-> Csat n (cmat Mr Mi) (cvec xr xi) (cvec br bi).
Proof.
  unfold csolution, fsat. split; intros H i Hi; specialize (H i Hi).
  - rewrite sumC_pair. unfold cmat, cvec, Cmul in *; cbn [fst snd]. destruct H as [H1 H2]. rewrite H1, H2. reflexivity.
  - rewrite sumC_pair in H. unfold cmat, cvec, Cmul in H; cbn [fst snd] in H. injection H as H1 H2. auto.
Qed.
Lemma effC_hess n Ar Ai : upper_hessenberg n Ar -> upper_hessenberg n Ai ->
  forall i j, 1 <= i <= n -> 1 <= j <= n -> effC 1 (cmat Ar Ai) i j = cmat Ar Ai i j.
Proof.
  intros H1 H2 i j Hi Hj. unfold eff. destruct (Z.ltb_spec (j + 1) i).
  - unfold cmat. rewrite H1, H2 by lia. reflexivity.
  - destruct (Z.ltb_spec j 1); [lia|]. rewrite andb_false_r. reflexivity.
Qed.
Lemma dechc_solhc_lemma n (Ar Ai : Rmat) ip Ar' Ai' ip' (br bi : Rvec) : 1 <= n ->
  upper_hessenberg n Ar -> upper_hessenberg n Ai -> dechc_clean n Ar Ai ip ->
  @dechc Rnum n Ar Ai ip = Ok (Ar', Ai', ip', 0) ->
  exists xr xi, @solhc Rnum n Ar' Ai' ip' (br, bi) = Ok (xr, xi) /\ csolution n Ar Ai xr xi br bi.
Proof.
  intros Hn H1 H2 Hc E. pose proof (dechc_spec n Ar Ai ip Hn Hc) as H. rewrite E in H. cbn [wp] in H.
  destruct H as (_ & H & _). destruct (H eq_refl) as [Hinv Hnn].
  pose proof (solhc_spec n _ Ar' Ai' ip' br bi Hn Hinv Hnn) as Hs. apply wp_ok in Hs.
  destruct Hs as [[xr xi] [Ex Hx]]. exists xr, xi. split; [exact Ex|].
  apply csolution_Csat. eapply (fsat_ext CC Czero Cadd Cmul).
  3:{ exact Hx. } { apply effC_hess; assumption. } reflexivity.
Qed.
Lemma dechc_singular_lemma n (Ar Ai : Rmat) ip : 1 <= n ->
  upper_hessenberg n Ar -> upper_hessenberg n Ai -> dechc_clean n Ar Ai ip ->
  exists Ar' Ai' ip' ret, @dechc Rnum n Ar Ai ip = Ok (Ar', Ai', ip', ret) /\ 0 <= ret <= n /\
    (ret = 0 <-> cnonsingular n Ar Ai).
Proof.
  intros Hn H1 H2 Hc. pose proof (dechc_spec n Ar Ai ip Hn Hc) as H. apply wp_ok in H.
  destruct H as [[[[Ar' Ai'] ip'] ret] [E (Hr & G0 & G1)]]. exists Ar', Ai', ip', ret.
  split; [exact E|]. split; [exact Hr|].
  assert (Hsat : forall x b, Csat n (cmat Ar Ai) x b <-> Csat n (effC 1 (cmat Ar Ai)) x b).
  { intros x b. split; intros H; (eapply (fsat_ext CC Czero Cadd Cmul); [| |exact H]); try reflexivity;
    intros i j Hi Hj; [symmetry|]; apply (effC_hess n); auto. }
  split.
  - intros ->. destruct (G0 eq_refl) as [Hinv Hnn]. intros xr xi Hx i Hi. apply csolution_Csat, Hsat in Hx.
    assert (X : cvec xr xi i = Czero).
    { apply (solve_unique CC Czero Cone Cadd Cmul Csub Copp Cdiv Cinv Cfth n _ (cmat Ar' Ai') ip' Hn Hinv Hnn _ (fun _ => Czero) _ Hx); auto.
      intros q Hq. apply (sum_zero _ _ _ _ _ _ _ (F_R Cfth)). intros. unfold Cmul, Czero; cbn; f_equal; ring. }
    unfold cvec, Czero in X. injection X as X1 X2. auto.
  - intros Hns. destruct (Z.eq_dec ret 0) as [|Hne]; [assumption|].
    destruct (G1 Hne) as [x [[i [Hi Hxi]] Hx]]. exfalso. apply Hxi.
    destruct (Hns (fun i => fst (x i)) (fun i => snd (x i))) with (i := i) as [X1 X2]; [|exact Hi|].
    + apply csolution_Csat. apply Hsat in Hx. intros q Hq. transitivity (sumC 1 n (fun j => Cmul (cmat Ar Ai q j) (x j))); [|exact (Hx q Hq)]. apply sum_ext.
      intros j Hj. unfold cvec. destruct (x j); reflexivity.
    + destruct (x i) as [a b]. cbn in X1, X2. rewrite X1, X2. reflexivity.
Qed.

(* ---- the whole Hessenberg path ------------------------------------------- *)
Lemma matvec_on n M x y : on n x y -> forall i, matvec n M x i = matvec n M y i.
Proof. intros H i. apply rsum_ext. intros j Hj. rewrite (H j Hj). reflexivity. Qed.

Definition assembled (fac : R) (A : Rmat) : Rmat := @add_diag Rnum (@equal_minus Rnum A) fac.
Lemma newton_sum n fac J x i : 1 <= i <= n ->
  rsum 1 n (fun j => newton_matrix fac J i j * x j)%R = (fac * x i - matvec n J x i)%R.
Proof.
  intros Hi. unfold newton_matrix, matvec.
  rewrite (rsum_ext 1 n _ (fun j => (if (i =? j)%Z then fac else 0) * x j - J i j * x j)%R) by (intros; ring).
  rewrite rsum_sub. f_equal.
  rewrite (rsum_split (i - 1)) by lia. rewrite (rsum_zero 1 (i - 1)).
  2:{ intros j Hj. destruct (Z.eqb_spec i j); [lia|ring]. }
  replace (i - 1 + 1) with i by lia. rewrite rsum_lo by lia. rewrite Z.eqb_refl.
  rewrite (rsum_zero (i + 1) n). { ring. } intros j Hj. destruct (Z.eqb_spec i j); [lia|ring].
Qed.
Lemma eff_assembled fac A i j : 1 <= i -> 1 <= j -> effR 1 (assembled fac A) i j = newton_matrix fac (hess_part A) i j.
Proof.
  intros Hi Hj. unfold eff, assembled, add_diag, equal_minus, newton_matrix, hess_part.
  destruct (Z.ltb_spec (j + 1) i).
  - destruct (Z.eqb_spec i j); [lia|]. ring.
  - destruct (Z.ltb_spec j 1); [lia|]. rewrite andb_false_r. cbn [nadd nopp Rnum].
    destruct (Z.eqb_spec i j); ring.
Qed.
Lemma solution_assembled n fac A x b :
  Rsat n (effR 1 (assembled fac A)) x b <-> solution n (newton_matrix fac (hess_part A)) x b.
Proof.
  unfold solution, fsat, rsum. split; intros H i Hi; rewrite <- (H i Hi); apply sum_ext;
    intros j Hj; rewrite eff_assembled by lia; reflexivity.
Qed.

(* conjugation of the Newton matrix by Q *)
Lemma newton_conj n fac J A tau y c : 2 <= n -> reduction n J A tau ->
  solution n (newton_matrix fac (hess_part A)) y c ->
  solution n (newton_matrix fac J) (apply_Q n A tau (Z.to_nat (n - 2)) y)
             (apply_Q n A tau (Z.to_nat (n - 2)) c).
Proof.
  intros Hn [Hr Hred] Hs i Hi. rewrite newton_sum by lia. rewrite (Hred y i Hi).
  set (k := Z.to_nat (n - 2)).
  transitivity (apply_Q n A tau k (fun q => fac * y q + (-1) * matvec n (hess_part A) y q)%R i).
  { rewrite apply_Q_lin. ring. }
  apply apply_Q_on; [|exact Hi]. intros q Hq. rewrite <- (Hs q Hq), newton_sum by lia. ring.
Qed.

Section PathR.
Variable dgehrd : Rmat -> Rmat * Rvec * Z.
Notation decomr := (@h_decomr Rnum dgehrd).
Notation solvereal := (@h_solvereal Rnum).

(* the state after a successful decomr represents the factorisation of fac*I-J *)
Definition factored (n : Z) (fac : R) (J : Rmat) (s : @hst Rnum) (A : Rmat) : Prop :=
  reduction n J A (htau s) /\
  elimR_inv n n (effR 1 (assembled fac A)) (hE1 s) (ipr s) /\ hE1 s n n <> 0%R.

Lemma decomr_spec n (fac : R) J A0 (s s' : @hst Rnum) A : 2 <= n ->
  (calhes s = true -> A0 = J /\ forall A1 t1, dgehrd J = (A1, t1, 0) -> reduction n J A1 t1) ->
  (calhes s = false -> reduction n J A0 (htau s)) ->
  decomr n fac s A0 = Ok (s', A) -> calhes s' = false /\ factored n fac J s' A.
Proof.
  intros Hn H1 H2 E. unfold h_decomr in E.
  match type of E with bind ?e ?f = _ =>
    assert (Hred : exists A1 t1, e = Ok (A1, t1, false) /\ reduction n J A1 t1) end.
  { destruct (calhes s).
    - destruct (H1 eq_refl) as [-> Hd]. destruct (dgehrd J) as [[A1 t1] info] eqn:Ed.
      destruct (Z.eqb_spec info 0) as [->|]; cbn [negb] in *.
      + exists A1, t1. split; [reflexivity|]. apply Hd. reflexivity.
      + discriminate E.
    - exists A0, (htau s). auto. }
  destruct Hred as (A1 & t1 & Eq & Hred). rewrite Eq in E. clear Eq. cbn [bind] in E.
  match type of E with bind ?e _ = _ => change e with (@dech Rnum n (assembled fac A1) (ipr s)) in E end.
  pose proof (dech_spec n (assembled fac A1) (ipr s) ltac:(lia)) as Hd.
  apply wp_ok in Hd. destruct Hd as [[[B ipb] info] [Eq Hd]].
  match type of E with bind ?e ?f = _ => assert (E2 : f (B, ipb, info) = Ok (s', A)) end.
  { match type of E with bind ?e ?f = _ => change (bind (@dech Rnum n (assembled fac A1) (ipr s)) f = Ok (s', A)) in E end.
    rewrite Eq in E. exact E. }
  clear E. rename E2 into E. cbv beta iota in E.
  destruct (Z.eqb_spec info 0) as [->|]; cbn [negb] in E; [|discriminate].
  destruct Hd as (_ & Hd & _). destruct (Hd eq_refl) as [Hinv Hnn].
  injection E as <- <-. cbn. split; [reflexivity|]. split; [exact Hred|]. split; [exact Hinv|exact Hnn].
Qed.

Lemma solvereal_spec n fac J (s : @hst Rnum) A (b : Rvec) : 2 <= n -> factored n fac J s A ->
  exists x, solvereal n s A b = Ok x /\ solution n (newton_matrix fac J) x b.
Proof.
  intros Hn (Hred & Hinv & Hnn). unfold h_solvereal.
  set (t := htau s) in *. set (k := Z.to_nat (n - 2)).
  pose proof (householder_direct n A t b (S (Z.to_nat n)) Hn ltac:(lia)) as H1.
  apply wp_ok in H1. destruct H1 as [c [Ec Hc]]. cbn [car Rnum] in *. rewrite Ec. cbn [bind].
  pose proof (solh_spec n _ (hE1 s) (ipr s) c ltac:(lia) Hinv Hnn) as H2.
  apply wp_ok in H2. destruct H2 as [y [Ey Hy]]. cbn [car Rnum] in *. rewrite Ey. cbn [bind].
  pose proof (householder_reverse n A t y (S (Z.to_nat n)) Hn ltac:(lia)) as H3.
  apply wp_ok in H3. destruct H3 as [x [Ex Hx]]. cbn [car Rnum] in *. exists x. split; [exact Ex|].
  apply solution_assembled in Hy.
  pose proof (newton_conj n fac J A t y c Hn Hred Hy) as Hf.
  intros i Hi. rewrite newton_sum by lia. rewrite (Hx i Hi), (matvec_on n J x _ Hx).
  rewrite <- newton_sum by lia. rewrite (Hf i Hi).
  rewrite (apply_Q_on n A t _ c _ Hc i Hi). apply Q_Qt; [lia|]. intros j Hj. apply Hred. lia.
Qed.
(* a second factorisation for another factor, without reduction, keeps the property *)
Lemma factored_again n fac (fac' : R) J (s : @hst Rnum) A (s' : @hst Rnum) A' : 2 <= n -> factored n fac J s A -> calhes s = false ->
  decomr n fac' s A = Ok (s', A') -> factored n fac' J s' A' /\ calhes s' = false.
Proof.
  intros Hn (Hred & _) Hc E. destruct (decomr_spec n fac' J A s s' A' Hn) as [G1 G2]; auto; congruence.
Qed.
End PathR.

Lemma hessenberg_path_lemma (dgehrd : Rmat -> Rmat * Rvec * Z) n (fac fac' : R) (J : Rmat)
    (s s' s'' : @hst Rnum) A A' (b b' : Rvec) :
  2 <= n -> calhes s = true ->
  (forall A1 t1, dgehrd J = (A1, t1, 0) -> reduction n J A1 t1) ->
  @h_decomr Rnum dgehrd n fac s J = Ok (s', A) ->
  (exists x, @h_solvereal Rnum n s' A b = Ok x /\ solution n (newton_matrix fac J) x b) /\
  (@h_decomr Rnum dgehrd n fac' s' A = Ok (s'', A') ->
   exists x, @h_solvereal Rnum n s'' A' b' = Ok x /\ solution n (newton_matrix fac' J) x b').
Proof.
  intros Hn Hc Hd E.
  destruct (decomr_spec dgehrd n fac J J s s' A Hn) as [Hc' Hf]; auto; [congruence|].
  split; [apply solvereal_spec; assumption|]. intros E'.
  destruct (factored_again dgehrd n fac fac' J s' A s'' A' Hn Hf Hc' E') as [Hf' _].
  apply solvereal_spec; assumption.
Qed.
