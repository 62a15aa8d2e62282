(* C84: stability of the steps of Sdirkl with the tables as printed.  The polynomials and the check
   are those of RodasStab.v and RodasStab2.v. *)
From Coq Require Import Reals Lra Lia Psatz Ring.
From Verif Require Import Base FieldLU HessModel Spec HessPathProofs SympQuad Dec RodasStab RodasStab2 CMacros SdirkModel SdirkSpec SdirkProofs SdirkAlg SdirkTop SdirkTabSpec SdirkTab.
Open Scope R_scope.

(* ---- the polynomials ---- *)
Section Poly.
Variable M : method DNum.
Definition sq : list dec := [d1; dopp (m_A M 0%Z 0%Z)].
Fixpoint csum (c : Z -> dec) (j : Z) (Ns : list (list dec)) : list dec :=
  match Ns with nil => nil | N :: t => padd (pscal (c j) N) (csum c (j + 1) t) end.
(* the common denominator, and the numerators of the first k stages *)
Fixpoint spolys (k : nat) : list dec * list (list dec) :=
  match k with
  | O => ([d1], nil)
  | S k => let '(den, Ns) := spolys k in
    (pmul sq den, List.app (List.map (pmul sq) Ns) [pmul pX (padd (pscal (m_S M (Z.of_nat k)) den) (csum (m_A M (Z.of_nat k)) 0 Ns))])
  end.
Definition sden : list dec := fst (spolys (Z.to_nat (m_s M))).
Definition snum : list dec := let '(den, Ns) := spolys (Z.to_nat (m_s M)) in padd den (csum (m_D M) 0 Ns).
End Poly.

(* ---- what the stages compute ---- *)
Section Rel.
Variable M : method DNum.
Variables (z U : cx) (F : Z -> cx).
Fixpoint fsum (c : Z -> dec) (j : Z) (k : nat) : cx :=
  match k with O => c0 | S k => cadd (cmul (cr (D2R (c j))) (F j)) (fsum c (j + 1) k) end.
Fixpoint srel (den : list dec) (j : Z) (Ns : list (list dec)) : Prop :=
  match Ns with nil => True | N :: t => cmul (peval den z) (F j) = cmul (peval N z) U /\ srel den (j + 1) t end.
Lemma csum_ok den c Ns : forall j, srel den j Ns -> cmul (peval den z) (fsum c j (Datatypes.length Ns)) = cmul (peval (csum c j Ns) z) U.
Proof.
  induction Ns as [|N t IH]; intros j H; cbn [csum fsum Datatypes.length].
  - cbn [peval]. ring.
  - destruct H as [H1 H2]. rewrite peval_add, peval_scal. specialize (IH _ H2).
    transitivity (cadd (cmul (cr (D2R (c j))) (cmul (peval den z) (F j))) (cmul (peval den z) (fsum c (j + 1) (Datatypes.length t)))); [ring|]. rewrite H1, IH. ring.
Qed.
Lemma srel_mul q den Ns : forall j, srel den j Ns -> srel (pmul q den) j (List.map (pmul q) Ns).
Proof.
  induction Ns as [|N t IH]; intros j; cbn [srel List.map]; [trivial|]. intros [H1 H2]. split; [|apply IH, H2].
  rewrite !peval_mul. transitivity (cmul (peval q z) (cmul (peval den z) (F j))); [ring|]. rewrite H1. ring.
Qed.
Lemma srel_app den Ns N : forall j, srel den j Ns -> cmul (peval den z) (F (j + Z.of_nat (Datatypes.length Ns))%Z) = cmul (peval N z) U -> srel den j (List.app Ns [N]).
Proof.
  induction Ns as [|N1 t IH]; intros j; cbn [srel List.app Datatypes.length].
  - intros _ H. rewrite Z.add_0_r in H. split; [exact H|trivial].
  - intros [H1 H2] H. split; [exact H1|]. apply IH; [exact H2|]. replace (j + 1 + Z.of_nat (Datatypes.length t))%Z with (j + Z.of_nat (S (Datatypes.length t)))%Z by lia. exact H.
Qed.
Notation q := (csub c1 (cmul (cr (D2R (m_A M 0%Z 0%Z))) z)).
Hypothesis Hst : forall i, (0 <= i < m_s M)%Z ->
  cmul q (F i) = cmul z (cadd (cmul (cr (D2R (m_S M i))) U) (fsum (m_A M i) 0 (Z.to_nat i))).
Lemma sq_eval : peval (sq M) z = q.
Proof. unfold sq. cbn [peval]. rewrite D2R_1, D2R_opp. apply cx_eq; unfold csub, cadd, cmul, copp, c1, c0, cr; cbn [fst snd]; ring. Qed.
Lemma pX_eval : peval pX z = z.
Proof. unfold pX. cbn [peval]. rewrite D2R_1, D2R_z. apply cx_eq; unfold csub, cadd, cmul, copp, c1, c0, cr; cbn [fst snd]; ring. Qed.
Lemma spolys_len k : Datatypes.length (snd (spolys M k)) = k.
Proof.
  induction k as [|k IH]; cbn [spolys]; [reflexivity|]. destruct (spolys M k) as [den Ns]. cbn [snd] in *.
  rewrite List.app_length, List.map_length, IH. cbn. lia.
Qed.
Lemma spolys_ok k : (Z.of_nat k <= m_s M)%Z -> srel (fst (spolys M k)) 0 (snd (spolys M k)).
Proof.
  induction k as [|k IH]; intros Hk; cbn [spolys]; [exact I|]. specialize (IH ltac:(lia)). pose proof (spolys_len k) as HL.
  destruct (spolys M k) as [den Ns]. cbn [fst snd] in *. apply srel_app; [apply srel_mul, IH|].
  rewrite List.map_length, HL, Z.add_0_l. rewrite !peval_mul, peval_add, peval_scal, sq_eval, pX_eval.
  transitivity (cmul (peval den z) (cmul q (F (Z.of_nat k)))); [ring|]. rewrite (Hst (Z.of_nat k) ltac:(lia)), Nat2Z.id.
  pose proof (csum_ok den (m_A M (Z.of_nat k)) Ns 0 IH) as HC. rewrite HL in HC.
  transitivity (cmul z (cadd (cmul (cmul (cr (D2R (m_S M (Z.of_nat k)))) (peval den z)) U) (cmul (peval den z) (fsum (m_A M (Z.of_nat k)) 0 k)))); [ring|].
  rewrite HC. ring.
Qed.
Lemma snum_ok U' : (0 <= m_s M)%Z -> U' = cadd U (fsum (m_D M) 0 (Z.to_nat (m_s M))) -> cmul (peval (sden M) z) U' = cmul (peval (snum M) z) U.
Proof.
  intros Hs ->. unfold sden, snum. pose proof (spolys_ok (Z.to_nat (m_s M)) ltac:(lia)) as H. pose proof (spolys_len (Z.to_nat (m_s M))) as HL.
  destruct (spolys M (Z.to_nat (m_s M))) as [den Ns]. cbn [fst snd] in *. rewrite peval_add.
  pose proof (csum_ok den (m_D M) Ns 0 H) as HC. rewrite HL in HC.
  transitivity (cadd (cmul (peval den z) U) (cmul (peval den z) (fsum (m_D M) 0 (Z.to_nat (m_s M))))); [ring|]. rewrite HC. ring.
Qed.
Lemma fsum_rsum (c : Z -> dec) k : forall j, fsum c j k =
  (rsum j (j + Z.of_nat k - 1) (fun i => D2R (c i) * fst (F i)), rsum j (j + Z.of_nat k - 1) (fun i => D2R (c i) * snd (F i))).
Proof.
  induction k as [|k IH]; intros j; cbn [fsum].
  - rewrite !rsum_empty by lia. reflexivity.
  - rewrite IH. rewrite (rsum_lo j (j + Z.of_nat (S k) - 1)), (rsum_lo j (j + Z.of_nat (S k) - 1) (fun i => D2R (c i) * snd (F i))) by lia.
    replace (j + 1 + Z.of_nat k - 1)%Z with (j + Z.of_nat (S k) - 1)%Z by lia.
    apply cx_eq; unfold cadd, cmul, cr; cbn [fst snd]; ring.
Qed.
(* the denominator does not vanish on the left half plane *)
Lemma q_pos : 0 <= D2R (m_A M 0%Z 0%Z) -> fst z <= 0 -> 1 <= norm2 q.
Proof. intros Hg Hz. unfold norm2, csub, cadd, cmul, copp, c1, cr. cbn [fst snd]. pose proof (Rle_0_sqr (D2R (m_A M 0 0)%Z * snd z)). unfold Rsqr in *. nra. Qed.
Lemma sden_pos : 0 <= D2R (m_A M 0%Z 0%Z) -> fst z <= 0 -> 1 <= norm2 (peval (sden M) z).
Proof.
  intros Hg Hz. unfold sden. induction (Z.to_nat (m_s M)) as [|k IH]; cbn [spolys].
  - cbn [fst peval]. rewrite D2R_1. unfold norm2, cadd, cmul, cr, c0. cbn [fst snd]. lra.
  - destruct (spolys M k) as [den Ns]. cbn [fst] in *. rewrite peval_mul, norm2_mul, sq_eval. pose proof (q_pos Hg Hz). nra.
Qed.
End Rel.

(* ---- the check ---- *)
Definition zeros7 : list dec := [dz; dz; dz; dz; dz; dz; dz].
Definition pad7 (p : list dec) : list dec := padd p zeros7.
Lemma pad7_eval p z : peval (pad7 p) z = peval p z.
Proof. unfold pad7. rewrite peval_add. unfold zeros7. cbn [peval]. rewrite D2R_z. change (cr 0) with c0. ring. Qed.
Definition len7 (p : list dec) : bool := Nat.eqb (Datatypes.length p) 7.
Definition qs (M : method DNum) : dec := List.nth (Z.to_nat (m_s M)) (sden M) dz.
Definition ps (M : method DNum) : dec := List.nth (Z.to_nat (m_s M)) (snum M) dz.
Definition rem (M : method DNum) : list dec := padd (pscal (qs M) (pad7 (snum M))) (pscal (dopp (ps M)) (pad7 (sden M))).
Definition scheck (M : method DNum) (c : dec) : bool :=
  (len7 (pad7 (sden M)) && len7 (pad7 (snum M)) && good (cfs (table (pad7 (sden M)) (pad7 (snum M)))) &&
   len7 (rem M) && (fst (List.nth 6 (rem M) dz) =? 0)%Z && negb (fst (qs M) =? 0)%Z && dnonneg (m_A M 0%Z 0%Z) &&
   good (cfs (table (pscal (dmul c (qs M)) (pad7 (sden M))) (dz :: List.firstn 6 (rem M)))))%bool.
Lemma D2R_nz a : negb (fst a =? 0)%Z = true -> D2R a <> 0.
Proof.
  intros H. apply Bool.negb_true_iff, Z.eqb_neq in H. unfold D2R, Rlit. apply Rmult_integral_contrapositive. split; [apply not_0_IZR, H|].
  apply powerRZ_NOR. lra.
Qed.
Lemma scheck_ok M c z : scheck M c = true -> fst z <= 0 ->
  norm2 (peval (snum M) z) <= norm2 (peval (sden M) z) /\ 0 <= D2R (m_A M 0%Z 0%Z) /\ D2R (qs M) <> 0 /\
  norm2 z * norm2 (csub (cmul (cr (D2R (qs M))) (peval (snum M) z)) (cmul (cr (D2R (ps M))) (peval (sden M) z))) <= (D2R c * D2R (qs M)) ^ 2 * norm2 (peval (sden M) z).
Proof.
  intros H Hz. unfold scheck in H. apply andb_prop in H. destruct H as [H HL]. apply andb_prop in H. destruct H as [H Hg]. apply andb_prop in H. destruct H as [H Hq].
  apply andb_prop in H. destruct H as [H Hr]. apply andb_prop in H. destruct H as [H H7]. apply andb_prop in H. destruct H as [H HA]. apply andb_prop in H. destruct H as [HD HN].
  unfold len7 in *. apply Nat.eqb_eq in HD, HN, H7.
  split; [pose proof (norm2_le _ _ z HD HN HA Hz) as E; rewrite !pad7_eval in E; exact E|]. split; [apply D2R_nonneg, Hg|]. split; [apply D2R_nz, Hq|].
  assert (ER : csub (cmul (cr (D2R (qs M))) (peval (snum M) z)) (cmul (cr (D2R (ps M))) (peval (sden M) z)) = peval (rem M) z).
  { unfold rem. rewrite peval_add, !peval_scal, !pad7_eval, D2R_opp. apply cx_eq; unfold csub, cadd, cmul, copp, cr; cbn [fst snd]; ring. }
  rewrite ER. clear ER. rewrite <- norm2_mul.
  replace (cmul z (peval (rem M) z)) with (peval (dz :: List.firstn 6 (rem M)) z).
  - replace ((D2R c * D2R (qs M)) ^ 2 * norm2 (peval (sden M) z)) with (norm2 (peval (pscal (dmul c (qs M)) (pad7 (sden M))) z)).
    + apply (norm2_le _ _ z); [unfold pscal; rewrite List.map_length; exact HD| |exact HL|exact Hz].
      destruct (seven _ H7) as (p0 & p1 & p2 & p3 & p4 & p5 & p6 & ->). reflexivity.
    + rewrite peval_scal, norm2_mul, pad7_eval, D2R_mul. f_equal. unfold norm2, cr. cbn [fst snd]. ring.
  - revert Hr. destruct (seven _ H7) as (p0 & p1 & p2 & p3 & p4 & p5 & [m e] & ->). cbn [List.nth fst]. intros Hr. apply Z.eqb_eq in Hr. subst m.
    cbn [List.firstn peval]. rewrite D2R_z, D2R_zero. change (cr 0) with c0. ring.
Qed.

(* ---- the steps ---- *)
Definition dec_of (RK : method Rnum) (M : method DNum) : Prop :=
  m_s RK = m_s M /\ (forall i j, (0 <= j <= i)%Z -> (i < m_s M)%Z -> m_A RK i j = D2R (m_A M i j)) /\
  (forall i, (0 <= i < m_s M)%Z -> m_S RK i = D2R (m_S M i)) /\ (forall i, (0 <= i < m_s M)%Z -> m_D RK i = D2R (m_D M i)).
Lemma dot0_ext n l v w : veq n v w -> dot0 n l v = dot0 n l w.
Proof. intros H. unfold dot0. apply rsum_ext. intros k Hk. rewrite H by lia. reflexivity. Qed.
Lemma dot0_add n l v w : dot0 n l (fun k => v k + w k) = dot0 n l v + dot0 n l w.
Proof. unfold dot0. rewrite <- rsum_add. apply rsum_ext. intros. ring. Qed.
Lemma dot0_scal n l c v : dot0 n l (fun k => c * v k) = c * dot0 n l v.
Proof. unfold dot0. rewrite <- rsum_scal. apply rsum_ext. intros. ring. Qed.
Lemma dot0_comb n l m (c : Z -> R) (u : Z -> Z -> R) : dot0 n l (fun k => rsum 0 m (fun j => c j * u j k)) = rsum 0 m (fun j => c j * dot0 n l (u j)).
Proof.
  unfold dot0. transitivity (rsum 0 (n - 1) (fun k => rsum 0 m (fun j => c j * (l k * u j k)))).
  - apply rsum_ext. intros k _. rewrite <- rsum_scal. apply rsum_ext. intros. ring.
  - rewrite rsum_swap. apply rsum_ext. intros j _. rewrite rsum_scal. reflexivity.
Qed.
Definition Lc (n : Z) (lr li v : Z -> R) : cx := (dot0 n lr v, dot0 n li v).
Lemma Lc_norm n lr li v : norm2 (Lc n lr li v) = component0 n lr li v.
Proof. unfold norm2, Lc, component0. cbn [fst snd]. ring. Qed.

Section Step.
Variable RK : method Rnum.
Variable n : Z.
Variable dt : R.
Variables op A : vec Rnum -> vec Rnum.
Hypothesis HA : linear_op n A.
Hypothesis Hdia : diagonal RK.
Hypothesis Hinv : inverts n (dt * m_A RK 0%Z 0%Z) A op.
Notation g := (m_A RK 0%Z 0%Z).
(* the equations of a step *)
Definition estep (phi u u' : vec Rnum) : Prop := exists F : Z -> vec Rnum,
  (forall i, (0 <= i < m_s RK)%Z -> veq n (F i) (fun p => dt * g * A (fun q => F i q + comb RK u F i q) p + m_S RK i * dt * phi p)) /\
  veq n u' (fun p => u p + rsum 0 (m_s RK - 1) (fun i => m_D RK i * F i p)).
Inductive esteps (phi : vec Rnum) : nat -> vec Rnum -> vec Rnum -> Prop :=
| es_0 u : esteps phi 0 u u
| es_S k u u' u'' : estep phi u u' -> esteps phi k u' u'' -> esteps phi (S k) u u''.
Lemma stage_eq phi u F i : stage_rel RK n dt op phi u F i -> veq n (F i) (fun p => dt * g * A (fun q => F i q + comb RK u F i q) p + m_S RK i * dt * phi p).
Proof.
  intros Hst. destruct Hinv as [H1 _]. destruct HA as [HL _]. set (V := fun q => m_S RK i * dt * phi q + comb RK u F i q) in *.
  specialize (H1 (mask n V)). intros p Hp. specialize (H1 p Hp). cbv beta in H1. rewrite (mask_veq n V p Hp) in H1.
  assert (Hx : veq n (op (mask n V)) (fun q => F i q + comb RK u F i q)) by (intros q Hq; rewrite (Hst q Hq); fold V; apply Rsub_add).
  rewrite (Hx p Hp), (HL _ _ Hx p Hp) in H1. unfold V in H1. unfold vec in *; cbn [car Rnum] in *. lra.
Qed.
Lemma linear_esteps k dloc Zused aloc zc0 (m : smem (K := Rnum)) : (0 <= n)%Z ->
  wp (bind (construct RK n dloc Zused aloc zc0) (fun o => run_linear RK n false op k (o, m))) (fun x => esteps (fun _ => 0) k (io m) (io (snd x))).
Proof.
  intros Hn. pose proof Hdia as (Hs & _). apply wp_bind. eapply wp_mono; [apply construct_ok; assumption|]. intros o Ho.
  revert o m Ho. induction k as [|k IH]; intros o m Ho; cbn [run_linear].
  - cbn [wp snd]. constructor.
  - cbn [fst snd]. apply wp_bind. eapply wp_mono; [apply (linear_computed RK n dt op Hn Hs o m Ho)|].
    intros [[o' m'] e] (-> & Hsame & F & HF & Hu). eapply wp_mono; [apply IH; eapply same_ok; eassumption|].
    intros x Hx. econstructor; [|exact Hx]. exists F. split; [|exact Hu]. intros i Hi. apply stage_eq, HF, Hi.
Qed.
Lemma affine_esteps phi k dloc Zused aloc zc0 (m : smem (K := Rnum)) : (0 <= n)%Z ->
  wp (bind (construct RK n dloc Zused aloc zc0) (fun o => run_affine RK n dt true op phi k (o, m))) (fun x => esteps phi k (io m) (io (snd x))).
Proof.
  intros Hn. pose proof Hdia as (Hs & _). apply wp_bind. eapply wp_mono; [apply construct_ok; assumption|]. intros o Ho.
  revert o m Ho. induction k as [|k IH]; intros o m Ho; cbn [run_affine].
  - cbn [wp snd]. constructor.
  - cbn [fst snd]. apply wp_bind. eapply wp_mono; [apply (affine_computed RK n dt op Hn Hs phi o m Ho)|].
    intros [[o' m'] e] (-> & Hsame & F & HF & Hu). eapply wp_mono; [apply IH; eapply same_ok; eassumption|].
    intros x Hx. econstructor; [|exact Hx]. exists F. split; [|exact Hu]. intros i Hi. apply stage_eq, HF, Hi.
Qed.
(* the difference of two steps *)
Definition vsub (x y : vec Rnum) : vec Rnum := fun p => x p - y p.
Lemma comb_sub u v F G i q : comb RK (vsub u v) (fun j => vsub (F j) (G j)) i q = comb RK u F i q - comb RK v G i q.
Proof.
  unfold comb, vsub. rewrite (rsum_ext 0 (i - 1) _ (fun j => m_A RK i j / diag RK * F j q - m_A RK i j / diag RK * G j q)) by (intros; ring).
  rewrite rsum_sub. unfold vec in *; cbn [car Rnum] in *. ring.
Qed.
Lemma estep_sub phi u u' v v' : estep phi u u' -> estep phi v v' -> estep (fun _ => 0) (vsub u v) (vsub u' v').
Proof.
  intros (F & HF & Hu) (G & HG & Hv). exists (fun j => vsub (F j) (G j)). destruct HA as [HL HC]. split.
  - intros i Hi p Hp. rewrite Rmult_0_r, Rplus_0_r. unfold vsub at 1. rewrite (HF i Hi p Hp), (HG i Hi p Hp).
    assert (E : A (fun q => vsub (F i) (G i) q + comb RK (vsub u v) (fun j => vsub (F j) (G j)) i q) p =
      1 * A (fun q => F i q + comb RK u F i q) p + (-1) * A (fun q => G i q + comb RK v G i q) p).
    { etransitivity; [|apply (HC 1 (-1) (fun q => F i q + comb RK u F i q) (fun q => G i q + comb RK v G i q) p Hp)]. apply HL; [|exact Hp].
      intros q _. rewrite comb_sub. unfold vsub. unfold vec in *; cbn [car Rnum] in *. ring. }
    rewrite E. unfold vec in *; cbn [car Rnum] in *. ring.
  - intros p Hp. unfold vsub at 1. rewrite (Hu p Hp), (Hv p Hp). unfold vsub.
    rewrite (rsum_ext 0 (m_s RK - 1) (fun i => m_D RK i * (F i p - G i p)) (fun i => m_D RK i * F i p - m_D RK i * G i p)) by (intros; ring).
    rewrite rsum_sub. unfold vec in *; cbn [car Rnum] in *. ring.
Qed.
Lemma esteps_sub phi k : forall u u' v v', esteps phi k u u' -> esteps phi k v v' -> esteps (fun _ => 0) k (vsub u v) (vsub u' v').
Proof.
  induction k as [|k IH]; intros u u' v v' H1 H2; inversion H1; subst; inversion H2; subst; [constructor|].
  econstructor; [eapply estep_sub; eassumption|]. apply IH; assumption.
Qed.

(* one component *)
Variable M : method DNum.
Hypothesis HM : dec_of RK M.
Variables (lr li : Z -> R) (a b : R).
Hypothesis He : left_eigen_op n A lr li a b.
Notation L := (Lc n lr li).
Definition zc : cx := (dt * a, dt * b).
Lemma stage_eigen (u : vec Rnum) F i : (0 <= i < m_s M)%Z ->
  veq n (F i) (fun p => dt * g * A (fun q => F i q + comb RK u F i q) p + m_S RK i * dt * 0) ->
  cmul (csub c1 (cmul (cr (D2R (m_A M 0%Z 0%Z))) zc)) (L (F i)) =
  cmul zc (cadd (cmul (cr (D2R (m_S M i))) (L u)) (fsum (fun j => L (F j)) (m_A M i) 0 (Z.to_nat i))).
Proof.
  intros Hi E. destruct HM as (Es & Ea & ES & _). pose proof Hdia as (Hs & Hg & Hd).
  set (W := fun q => F i q + comb RK u F i q) in *. set (gg := m_A RK 0%Z 0%Z) in *.
  assert (EF : forall l, dot0 n l (F i) = dt * gg * dot0 n l (A W)).
  { intros l. rewrite (dot0_ext n l (F i) (fun p => dt * gg * A W p)), dot0_scal; [reflexivity|]. intros p Hp. rewrite (E p Hp), Rmult_0_r, Rplus_0_r. reflexivity. }
  assert (EW : forall l, gg * dot0 n l W = gg * dot0 n l (F i) + (m_S RK i * dot0 n l u + rsum 0 (i - 1) (fun j => m_A RK i j * dot0 n l (F j)))).
  { intros l. unfold W. rewrite dot0_add. unfold comb. change (diag RK) with gg. rewrite dot0_add, dot0_scal.
    rewrite (dot0_comb n l (i - 1) (fun j => m_A RK i j / gg) F). rewrite !Rmult_plus_distr_l. f_equal. f_equal; [field; exact Hg|].
    rewrite <- rsum_scal. apply rsum_ext. intros j _. field. exact Hg. }
  destruct (He W) as [W1 W2].
  pose proof (EF lr) as F1. pose proof (EF li) as F2. rewrite W1 in F1. rewrite W2 in F2.
  pose proof (EW lr) as G1. pose proof (EW li) as G2.
  rewrite fsum_rsum. rewrite Z2Nat.id by lia. rewrite Z.add_0_l.
  assert (Er : forall h : Z -> R, rsum 0 (i - 1) (fun j => m_A RK i j * h j) = rsum 0 (i - 1) (fun j => D2R (m_A M i j) * h j)) by (intros h; apply rsum_ext; intros j Hj; rewrite Ea by lia; reflexivity).
  rewrite !Er in *. rewrite (ES i Hi) in *.
  replace (D2R (m_A M 0%Z 0%Z)) with gg by (apply Ea; lia).
  unfold L. unfold zc. apply cx_eq; unfold csub, cadd, cmul, copp, c1, cr; cbn [fst snd].
  - set (X := dot0 n lr (F i)) in *. set (Y := dot0 n li (F i)) in *. set (w1 := dot0 n lr W) in *. set (w2 := dot0 n li W) in *.
    match type of G1 with _ = _ + ?r => set (R1 := r) in * end. match type of G2 with _ = _ + ?r => set (R2 := r) in * end.
    assert (X = dt * a * (gg * w1) - dt * b * (gg * w2)) as EX by (rewrite F1; ring). rewrite G1, G2 in EX. unfold R1, R2 in *. lra.
  - set (X := dot0 n lr (F i)) in *. set (Y := dot0 n li (F i)) in *. set (w1 := dot0 n lr W) in *. set (w2 := dot0 n li W) in *.
    match type of G1 with _ = _ + ?r => set (R1 := r) in * end. match type of G2 with _ = _ + ?r => set (R2 := r) in * end.
    assert (Y = dt * b * (gg * w1) + dt * a * (gg * w2)) as EX by (rewrite F2; ring). rewrite G1, G2 in EX. unfold R1, R2 in *. lra.
Qed.
Lemma step_eigen u u' : estep (fun _ => 0) u u' -> cmul (peval (sden M) zc) (L u') = cmul (peval (snum M) zc) (L u).
Proof.
  intros (F & HF & Hu). destruct HM as (Es & Ea & ES & ED). pose proof Hdia as (Hs & _). apply (snum_ok M zc (L u) (fun j => L (F j))).
  - intros i Hi. apply stage_eigen; [exact Hi|]. apply HF. lia.
  - lia.
  - rewrite fsum_rsum. rewrite Z2Nat.id by lia. rewrite Z.add_0_l. rewrite <- Es.
    assert (G : forall l, dot0 n l u' = dot0 n l u + rsum 0 (m_s RK - 1) (fun i => D2R (m_D M i) * dot0 n l (F i))).
    { intros l. rewrite (dot0_ext n l _ _ Hu), dot0_add, dot0_comb. f_equal. apply rsum_ext. intros j Hj. rewrite ED by lia. reflexivity. }
    unfold L, cadd. cbn [fst snd]. rewrite !G. reflexivity.
Qed.
Variable c : dec.
Hypothesis HC : scheck M c = true.
Hypothesis Hz : dt * a <= 0.
Lemma step_stable u u' : estep (fun _ => 0) u u' -> component0 n lr li u' <= component0 n lr li u.
Proof.
  intros H. apply step_eigen in H. apply (f_equal norm2) in H. rewrite !norm2_mul in H. rewrite <- !Lc_norm.
  destruct (scheck_ok M c zc HC Hz) as (H1 & Hg & _). pose proof (sden_pos M zc Hg Hz) as HP.
  pose proof (norm2_pos (L u)). pose proof (norm2_pos (L u')). fold (L u) (L u'). nra.
Qed.
Lemma esteps_stable k : forall u u', esteps (fun _ => 0) k u u' -> component0 n lr li u' <= component0 n lr li u.
Proof.
  induction k as [|k IH]; intros u u' H; inversion H; subst; [lra|]. eapply Rle_trans; [apply IH; eassumption|]. apply step_stable. assumption.
Qed.
Definition limit : R := D2R (ps M) / D2R (qs M).
Lemma step_stiff u u' : estep (fun _ => 0) u u' ->
  dt ^ 2 * (a ^ 2 + b ^ 2) * component0 n lr li (fun p => u' p - limit * u p) <= (D2R c) ^ 2 * component0 n lr li u.
Proof.
  intros H. apply step_eigen in H. destruct (scheck_ok M c zc HC Hz) as (_ & Hg & Hq & H1). pose proof (sden_pos M zc Hg Hz) as HP.
  set (d := peval (sden M) zc) in *. set (nn := peval (snum M) zc) in *.
  set (V := fun p => u' p - limit * u p).
  assert (EV : cmul (cr (D2R (qs M))) (L V) = csub (cmul (cr (D2R (qs M))) (L u')) (cmul (cr (D2R (ps M))) (L u))).
  { assert (G : forall l, dot0 n l V = dot0 n l u' - limit * dot0 n l u).
    { intros l. unfold V. rewrite (dot0_ext n l _ (fun p => u' p + (- limit) * u p)) by (intros p _; unfold vec in *; cbn [car Rnum] in *; ring). rewrite dot0_add, dot0_scal. ring. }
    unfold L. rewrite !G. unfold limit. apply cx_eq; unfold csub, cadd, cmul, copp, cr; cbn [fst snd]; field; exact Hq. }
  assert (ED : cmul d (cmul (cr (D2R (qs M))) (L V)) = cmul (csub (cmul (cr (D2R (qs M))) nn) (cmul (cr (D2R (ps M))) d)) (L u)).
  { rewrite EV. transitivity (csub (cmul (cr (D2R (qs M))) (cmul d (L u'))) (cmul (cr (D2R (ps M))) (cmul d (L u)))); [ring|]. rewrite H. ring. }
  apply (f_equal norm2) in ED. rewrite !norm2_mul in ED.
  assert (Hn1 : norm2 (cr (D2R (qs M))) = (D2R (qs M)) ^ 2) by (unfold norm2, cr; cbn [fst snd]; ring). rewrite Hn1 in ED.
  assert (Hn2 : norm2 zc = dt ^ 2 * (a ^ 2 + b ^ 2)) by (unfold norm2, zc; cbn [fst snd]; ring). rewrite Hn2 in H1.
  rewrite <- (Lc_norm n lr li u). fold V. rewrite <- (Lc_norm n lr li V). fold (L V) (L u).
  set (T := norm2 (csub (cmul (cr (D2R (qs M))) nn) (cmul (cr (D2R (ps M))) d))) in *.
  pose proof (norm2_pos (L u)) as Pu.
  assert (Hq2 : 0 < (D2R (qs M)) ^ 2) by (rewrite <- Rsqr_pow2; apply Rsqr_pos_lt; exact Hq).
  apply (Rmult_le_reg_l (norm2 d * (D2R (qs M)) ^ 2)); [apply Rmult_lt_0_compat; [lra|exact Hq2]|].
  replace (norm2 d * (D2R (qs M)) ^ 2 * (dt ^ 2 * (a ^ 2 + b ^ 2) * norm2 (L V))) with (dt ^ 2 * (a ^ 2 + b ^ 2) * (norm2 d * ((D2R (qs M)) ^ 2 * norm2 (L V)))) by ring.
  rewrite ED. replace (dt ^ 2 * (a ^ 2 + b ^ 2) * (T * norm2 (L u))) with (dt ^ 2 * (a ^ 2 + b ^ 2) * T * norm2 (L u)) by ring.
  eapply Rle_trans; [apply Rmult_le_compat_r; [exact Pu|exact H1]|]. apply Req_le. ring.
Qed.
End Step.

(* ---- the five methods ---- *)
Definition ten : dec := (10%Z, 0%Z).
Lemma all_checked : scheck (EulerImp (K := DNum) dz) ten && scheck (CrN (K := DNum) dz) ten && scheck (RKRS (K := DNum) dz) ten && scheck (RKMethod1 (K := DNum) dz) ten && scheck (RKMethod2 (K := DNum) dz) ten = true.
Proof. vm_cast_no_check (eq_refl true). Qed.
Lemma dec_cases (RK : method Rnum) (M : method DNum) : m_s RK = m_s M -> (0 < m_s M <= 5)%Z ->
  (forall i, In i [0;1;2;3;4]%Z -> (i <? m_s M)%Z = true ->
    (forall j, In j [0;1;2;3;4]%Z -> (j <=? i)%Z = true -> m_A RK i j = D2R (m_A M i j)) /\ m_S RK i = D2R (m_S M i) /\ m_D RK i = D2R (m_D M i)) -> dec_of RK M.
Proof.
  intros Hs H5 H. split; [exact Hs|].
  assert (HI : forall i, (0 <= i < m_s M)%Z -> In i [0;1;2;3;4]%Z) by (intros i Hi; cbn [In]; lia).
  split; [intros i j Hj Hi; apply (H i (HI i ltac:(lia))); [lia|apply HI; lia|lia]|]. split; intros i Hi; apply (H i (HI i Hi)); lia.
Qed.
Ltac dcases := apply dec_cases; [reflexivity|cbn; lia|];
  let i := fresh in let Hi := fresh in let B := fresh in intros i Hi B; cbn [In] in Hi;
  repeat (destruct Hi as [<-|Hi]; [first [discriminate B|split; [let j := fresh in let Hj := fresh in let C := fresh in intros j Hj C; cbn [In] in Hj; repeat (destruct Hj as [<-|Hj]; [first [discriminate C|reflexivity]|]); destruct Hj|split; reflexivity]]|]); destruct Hi.
Lemma supplied_dec RK : supplied RK -> exists M, dec_of RK M /\ scheck M ten = true.
Proof.
  pose proof all_checked as H. apply andb_prop in H. destruct H as [H H5]. apply andb_prop in H. destruct H as [H H4]. apply andb_prop in H. destruct H as [H H3].
  apply andb_prop in H. destruct H as [H1 H2].
  intros (w & E). destruct E as [->|[->|[->|[->| ->]]]];
  [exists (EulerImp (K := DNum) dz)|exists (CrN (K := DNum) dz)|exists (RKRS (K := DNum) dz)|exists (RKMethod1 (K := DNum) dz)|exists (RKMethod2 (K := DNum) dz)]; (split; [dcases|assumption]).
Qed.
(* between two decimals *)
Definition lim_in (M : method DNum) (lo hi : dec) : bool :=
  dnonneg (dmul (dsub (ps M) (dmul lo (qs M))) (qs M)) && dnonneg (dmul (dsub (dmul hi (qs M)) (ps M)) (qs M)).
Lemma lim_in_ok M lo hi : D2R (qs M) <> 0 -> lim_in M lo hi = true -> D2R lo <= limit M <= D2R hi.
Proof.
  intros Hq H. apply andb_prop in H. destruct H as [H1 H2]. apply D2R_nonneg in H1, H2. rewrite D2R_mul, D2R_sub, D2R_mul in H1, H2. unfold limit.
  set (q := D2R (qs M)) in *. set (p := D2R (ps M)) in *.
  assert (Q : 0 < q * q) by nra. split; apply (Rmult_le_reg_r (q * q)); try exact Q; replace (p / q * (q * q)) with (p * q) by (field; exact Hq); nra.
Qed.
Lemma damped_checked : lim_in (EulerImp (K := DNum) dz) (-1, -13)%Z (1, -13)%Z && lim_in (CrN (K := DNum) dz) (-1, -13)%Z (1, -13)%Z &&
  lim_in (RKRS (K := DNum) dz) (-1, -13)%Z (1, -13)%Z && lim_in (RKMethod1 (K := DNum) dz) (-1, -13)%Z (1, -13)%Z = true.
Proof. vm_cast_no_check (eq_refl true). Qed.
Lemma not_damped_checked : lim_in (RKMethod2 (K := DNum) dz) (-6305, -4)%Z (-6303, -4)%Z = true.
Proof. vm_cast_no_check (eq_refl true). Qed.

(* ---- runs ---- *)
Section Top.
Variable RK : method Rnum.
Hypothesis HS : supplied RK.
Variable n : Z.
Hypothesis Hn : (0 <= n)%Z.
Variable dt : R.
Variables op A : vec Rnum -> vec Rnum.
Hypothesis HA : linear_op n A.
Hypothesis Hinv : inverts n (dt * m_A RK 0%Z 0%Z) A op.
Variables (lr li : Z -> R) (a b : R).
Hypothesis He : left_eigen_op n A lr li a b.
Hypothesis Hz : dt * a <= 0.
Lemma runs_stable k dloc Zused aloc zc0 (m : smem (K := Rnum)) :
  wp (bind (construct RK n dloc Zused aloc zc0) (fun o => run_linear RK n false op k (o, m)))
     (fun x => component0 n lr li (io (snd x)) <= component0 n lr li (io m)).
Proof.
  destruct (supplied_dec RK HS) as (M & HM & HC). pose proof (supplied_diagonal RK HS) as HD.
  eapply wp_mono; [apply (linear_esteps RK n dt op A HA HD Hinv); exact Hn|]. intros x Hx. cbv beta in Hx.
  exact (esteps_stable RK n dt A HD M HM lr li a b He ten HC Hz k _ _ Hx).
Qed.
Lemma runs_contract phi k dloc Zused aloc zc0 (m : smem (K := Rnum)) dloc' Zused' aloc' zc0' (m' : smem (K := Rnum)) :
  wp (bind (construct RK n dloc Zused aloc zc0) (fun o => run_affine RK n dt true op phi k (o, m)))
     (fun x => wp (bind (construct RK n dloc' Zused' aloc' zc0') (fun o => run_affine RK n dt true op phi k (o, m')))
       (fun y => component0 n lr li (fun p => io (snd x) p - io (snd y) p) <= component0 n lr li (fun p => io m p - io m' p))).
Proof.
  destruct (supplied_dec RK HS) as (M & HM & HC). pose proof (supplied_diagonal RK HS) as HD.
  eapply wp_mono; [apply (affine_esteps RK n dt op A HA HD Hinv); exact Hn|]. intros x Hx. cbv beta in Hx.
  eapply wp_mono; [apply (affine_esteps RK n dt op A HA HD Hinv); exact Hn|]. intros y Hy. cbv beta in Hy.
  pose proof (esteps_sub RK n dt A HA phi k _ _ _ _ Hx Hy) as H.
  exact (esteps_stable RK n dt A HD M HM lr li a b He ten HC Hz k _ _ H).
Qed.
Lemma step_limit M r dloc Zused aloc zc0 (m : smem (K := Rnum)) : dec_of RK M -> scheck M ten = true -> limit M = r ->
  wp (bind (construct RK n dloc Zused aloc zc0) (fun o => run_linear RK n false op 1 (o, m)))
     (fun x => dt ^ 2 * (a ^ 2 + b ^ 2) * component0 n lr li (fun p => io (snd x) p - r * io m p) <= 100 * component0 n lr li (io m)).
Proof.
  intros HM HC Hr. pose proof (supplied_diagonal RK HS) as HD.
  eapply wp_mono; [apply (linear_esteps RK n dt op A HA HD Hinv); exact Hn|]. intros x Hx. cbv beta in Hx.
  inversion Hx as [|k u u' u'' H1 H2]; subst. inversion H2; subst.
  pose proof (step_stiff RK n dt A HD M HM lr li a b He ten HC Hz _ _ H1) as G.
  replace (D2R ten ^ 2) with 100 in G by (unfold D2R, ten, Rlit; cbn [fst snd powerRZ]; lra). exact G.
Qed.
End Top.
Definition limits (RK : method Rnum) (lo hi : R) : Prop := exists r, lo <= r <= hi /\
  forall n dt (op A : vec Rnum -> vec Rnum), (0 <= n)%Z -> linear_op n A -> inverts n (dt * m_A RK 0%Z 0%Z) A op ->
  forall lr li a b, left_eigen_op n A lr li a b -> dt * a <= 0 -> forall dloc Zused aloc zc0 (m : smem (K := Rnum)),
  wp (bind (construct RK n dloc Zused aloc zc0) (fun o => run_linear RK n false op 1 (o, m)))
     (fun x => dt ^ 2 * (a ^ 2 + b ^ 2) * component0 n lr li (fun p => io (snd x) p - r * io m p) <= 100 * component0 n lr li (io m)).
Lemma limits_of RK M lo hi lo' hi' : supplied RK -> dec_of RK M -> scheck M ten = true -> lim_in M lo hi = true -> D2R lo = lo' -> D2R hi = hi' -> limits RK lo' hi'.
Proof.
  intros HS HM HC HL <- <-. exists (limit M). split.
  - apply lim_in_ok; [|exact HL]. destruct (scheck_ok M ten (0, 0) HC) as (_ & _ & Hq & _); [cbn; lra|exact Hq].
  - intros. eapply step_limit; eauto.
Qed.
Lemma Dsmall : D2R (-1, -13)%Z = - tiny /\ D2R (1, -13)%Z = tiny.
Proof. split; unfold D2R, tiny, Rlit; cbn [fst snd]; unfold powerRZ; simpl; field. Qed.
Lemma damped w : limits (EulerImp w) (- tiny) tiny /\ limits (CrN w) (- tiny) tiny /\ limits (RKRS w) (- tiny) tiny /\ limits (RKMethod1 w) (- tiny) tiny.
Proof.
  pose proof all_checked as H. apply andb_prop in H. destruct H as [H _]. apply andb_prop in H. destruct H as [H H4]. apply andb_prop in H. destruct H as [H H3].
  apply andb_prop in H. destruct H as [H1 H2].
  pose proof damped_checked as H. apply andb_prop in H. destruct H as [H D4]. apply andb_prop in H. destruct H as [H D3].
  apply andb_prop in H. destruct H as [D1 D2]. destruct Dsmall as [T1 T2].
  split; [|split; [|split]].
  - eapply (limits_of _ (EulerImp (K := DNum) dz)); [exists w; tauto|dcases|exact H1|exact D1|exact T1|exact T2].
  - eapply (limits_of _ (CrN (K := DNum) dz)); [exists w; tauto|dcases|exact H2|exact D2|exact T1|exact T2].
  - eapply (limits_of _ (RKRS (K := DNum) dz)); [exists w; tauto|dcases|exact H3|exact D3|exact T1|exact T2].
  - eapply (limits_of _ (RKMethod1 (K := DNum) dz)); [exists w; tauto|dcases|exact H4|exact D4|exact T1|exact T2].
Qed.
Lemma not_damped w : limits (RKMethod2 w) (- 0.6305) (- 0.6303).
Proof.
  pose proof all_checked as H. apply andb_prop in H. destruct H as [_ H].
  eapply (limits_of _ (RKMethod2 (K := DNum) dz)); [exists w; tauto|dcases|exact H|exact not_damped_checked| |]; unfold D2R, Rlit; cbn [fst snd]; unfold powerRZ; simpl; lra.
Qed.
Lemma keeps_quarter n lr li (u u' : Z -> R) r t : - 0.6305 <= r <= - 0.6303 -> 10000 <= t ->
  t * component0 n lr li (fun p => u' p - r * u p) <= 100 * component0 n lr li u -> component0 n lr li u / 4 <= component0 n lr li u'.
Proof.
  intros Hr Ht H. unfold component0 in *.
  assert (G : forall l, dot0 n l (fun p => u' p - r * u p) = dot0 n l u' - r * dot0 n l u).
  { intros l. rewrite (dot0_ext n l _ (fun p => u' p + (- r) * u p)) by (intros p _; unfold vec in *; cbn [car Rnum] in *; ring). rewrite dot0_add, dot0_scal. ring. }
  rewrite !G in H. set (x := dot0 n lr u) in *. set (y := dot0 n li u) in *. set (x' := dot0 n lr u') in *. set (y' := dot0 n li u') in *.
  assert (H' : 100 * ((x' - r * x) ^ 2 + (y' - r * y) ^ 2) <= x ^ 2 + y ^ 2).
  { pose proof (pow2_ge_0 (x' - r * x)). pose proof (pow2_ge_0 (y' - r * y)). set (P := (x' - r * x) ^ 2 + (y' - r * y) ^ 2) in *. assert (0 <= P) by (unfold P; lra). assert (10000 * P <= t * P) by (apply Rmult_le_compat_r; assumption). lra. }
  assert (Tr : forall p q, (r * p) ^ 2 <= 1.3 * q ^ 2 + 4.34 * (q - r * p) ^ 2).
  { intros p q. assert (0 <= (q * 0.3 - (r * p - q)) ^ 2) by apply pow2_ge_0. nra. }
  pose proof (Tr x x'). pose proof (Tr y y').
  assert (R2 : 0.397 <= r ^ 2) by nra.
  assert (0.397 * (x ^ 2 + y ^ 2) <= (r * x) ^ 2 + (r * y) ^ 2) by nra. nra.
Qed.
Lemma in_supplied w RK : In RK [EulerImp w; CrN w; RKRS w; RKMethod1 w; RKMethod2 w] -> supplied RK.
Proof. intros H. exists w. cbn [In] in H. destruct H as [H|[H|[H|[H|[H|[]]]]]]; subst; tauto. Qed.
Section Tab.
Variables (w : R) (RK : method Rnum).
Hypothesis Hin : In RK [EulerImp w; CrN w; RKRS w; RKMethod1 w; RKMethod2 w].
Let HS : supplied RK := in_supplied w RK Hin.
Lemma tabulated_border : (forall i, (0 <= i < m_s RK + 1)%Z -> Rabs (border_a (m_A RK) (m_S RK) i 0) <= tiny) /\ Rabs (border_b (m_s RK) (m_A RK) (m_S RK) (m_D RK) 0) <= tiny.
Proof. exact (supplied_border RK HS). Qed.
Variables (n : Z) (dt : R) (op A : vec Rnum -> vec Rnum).
Hypothesis Hn : (0 <= n)%Z.
Hypothesis HA : linear_op n A.
Hypothesis Hinv : inverts n (dt * m_A RK 0%Z 0%Z) A op.
Lemma tabulated_linear k dloc Zused aloc zc0 (m : smem (K := Rnum)) :
  wp (bind (construct RK n dloc Zused aloc zc0) (fun o => run_linear RK n false op k (o, m)))
     (fun x => rk_steps n (m_s RK + 1) (border_a (m_A RK) (m_S RK)) (border_b (m_s RK) (m_A RK) (m_S RK) (m_D RK)) dt A k (io m) (io (snd x))).
Proof. apply linear_runs_t; auto using supplied_diagonal. Qed.
Lemma tabulated_affine phi k dloc Zused aloc zc0 (m : smem (K := Rnum)) :
  wp (bind (construct RK n dloc Zused aloc zc0) (fun o => run_affine RK n dt true op phi k (o, m)))
     (fun x => rk_steps n (m_s RK + 1) (border_a (m_A RK) (m_S RK)) (border_b (m_s RK) (m_A RK) (m_S RK) (m_D RK)) dt (fun u p => A u p + phi p) k (io m) (io (snd x))).
Proof. apply affine_runs_t; auto using supplied_diagonal. Qed.
Lemma tabulated_equilibria phi k dloc Zused aloc zc0 (m : smem (K := Rnum)) : veq n (fun p => A (io m) p + phi p) (fun _ => 0) ->
  wp (bind (construct RK n dloc Zused aloc zc0) (fun o => run_affine RK n dt true op phi k (o, m))) (fun x => veq n (io (snd x)) (io m)).
Proof. intros He. eapply keeps_equilibria_t; eauto using supplied_diagonal. Qed.
Variables (lr li : Z -> R) (a b : R).
Hypothesis He : left_eigen_op n A lr li a b.
Hypothesis Hz : dt * a <= 0.
Lemma tabulated_stable k dloc Zused aloc zc0 (m : smem (K := Rnum)) :
  wp (bind (construct RK n dloc Zused aloc zc0) (fun o => run_linear RK n false op k (o, m)))
     (fun x => component0 n lr li (io (snd x)) <= component0 n lr li (io m)).
Proof. eapply runs_stable; eauto. Qed.
Lemma tabulated_contract phi k dloc Zused aloc zc0 (m : smem (K := Rnum)) dloc' Zused' aloc' zc0' (m' : smem (K := Rnum)) :
  wp (bind (construct RK n dloc Zused aloc zc0) (fun o => run_affine RK n dt true op phi k (o, m)))
     (fun x => wp (bind (construct RK n dloc' Zused' aloc' zc0') (fun o => run_affine RK n dt true op phi k (o, m')))
       (fun y => component0 n lr li (fun p => io (snd x) p - io (snd y) p) <= component0 n lr li (fun p => io m p - io m' p))).
Proof. eapply runs_contract; eauto. Qed.
End Tab.
Lemma tabulated_order w RK p : In (RK, p) [(EulerImp w, 1%nat); (RKRS w, 2%nat); (RKMethod1 w, 4%nat); (RKMethod2 w, 4%nat)] ->
  has_order (m_s RK + 1) (border_a (m_A RK) (m_S RK)) (border_b (m_s RK) (m_A RK) (m_S RK) (m_D RK)) tiny p.
Proof.
  intros H. cbn [In] in H. destruct H as [H|[H|[H|[H|[]]]]]; injection H as <- <-; [apply euler_border|apply rkrs_border|apply rk1_border|apply rk2_border].
Qed.
Lemma tabulated_damped w RK : In RK [EulerImp w; CrN w; RKRS w; RKMethod1 w] -> limits RK (- tiny) tiny.
Proof. intros H. cbn [In] in H. destruct H as [H|[H|[H|[H|[]]]]]; subst; apply damped. Qed.
Lemma crouzeix_quarter w n dt (op A : vec Rnum -> vec Rnum) : (0 <= n)%Z -> linear_op n A ->
  inverts n (dt * m_A (RKMethod2 w) 0%Z 0%Z) A op ->
  forall lr li a b, left_eigen_op n A lr li a b -> dt * a <= 0 -> 10000 <= dt ^ 2 * (a ^ 2 + b ^ 2) -> forall dloc Zused aloc zc0 (m : smem (K := Rnum)),
  wp (bind (construct (RKMethod2 w) n dloc Zused aloc zc0) (fun o => run_linear (RKMethod2 w) n false op 1 (o, m)))
     (fun x => component0 n lr li (io m) / 4 <= component0 n lr li (io (snd x))).
Proof.
  intros Hn HA Hinv lr li a b He Hz Ht dloc Zused aloc zc0 m. destruct (not_damped w) as (r & Hr & H).
  eapply wp_mono; [apply (H n dt op A Hn HA Hinv lr li a b He Hz)|]. intros x Hx. exact (keeps_quarter n lr li _ _ r _ Hr Ht Hx).
Qed.
