(* C95: the five supplied methods. *)
From Coq Require Import Reals Lra Lia Psatz Ring List.
From Verif Require Import Base FieldLU HessModel Spec HessPathProofs SympQuad Dec RodasStab RodasStab2 SdirkModel SdirkSpec SdirkProofs SdirkAlg SdirkTop SdirkTabSpec SdirkTab SdirkStab Conv ConvPoly ConvSpec SdirkConv.
Import ListNotations.
Open Scope R_scope.

Definition di (m : Z) : dec := (m, 0%Z).
Lemma D2R_di m : D2R (di m) = IZR m.
Proof. unfold D2R, di, Rlit. cbn [fst snd powerRZ]. ring. Qed.
Lemma scaled (f q : R) (m : Z) w : f * q = IZR m -> cmul (cr f) (cmul (cr q) w) = cmul (cr (IZR m)) w.
Proof. intros <-. rewrite cr_mul. ring. Qed.
Lemma distr a b w : cmul a (cadd b w) = cadd (cmul a b) (cmul a w).
Proof. ring. Qed.
Lemma cmul_c0 a : cmul a c0 = c0.
Proof. ring. Qed.
Ltac sc m := rewrite (scaled _ _ m) by (cbn [fact Nat.mul Nat.add INR pow]; field).
Ltac taylist := intros z; cbn [tay]; rewrite !distr, cmul_c0, D2R_di; repeat first [sc 24%Z|sc 12%Z|sc 4%Z|sc 2%Z|sc 1%Z]; cbn [peval cpow]; rewrite !D2R_di; ring.
Lemma tay1 : is_tay 1 1 (di 1) [di 1; di 1].
Proof. taylist. Qed.
Lemma tay2 : is_tay 2 1 (di 2) [di 2; di 2; di 1].
Proof. taylist. Qed.
Lemma tay4 : is_tay 4 1 (di 24) [di 24; di 24; di 12; di 4; di 1].
Proof. taylist. Qed.
Lemma tayh : is_tay 1 (1 / 2) (di 2) [di 2; di 1].
Proof. taylist. Qed.
Definition cclose (M : method DNum) (t : dec) : bool := dclose (1, -12)%Z (reach1 M) t.
Lemma acc_checked :
  (let M := EulerImp (K := DNum) dz in acc_check (snum M) (sden M) 1 (di 1) [di 1; di 1] && cclose M d1) &&
  (let M := RKRS (K := DNum) dz in acc_check (snum M) (sden M) 2 (di 2) [di 2; di 2; di 1] && cclose M d1) &&
  (let M := RKMethod1 (K := DNum) dz in acc_check (snum M) (sden M) 4 (di 24) [di 24; di 24; di 12; di 4; di 1] && cclose M d1) &&
  (let M := RKMethod2 (K := DNum) dz in acc_check (snum M) (sden M) 4 (di 24) [di 24; di 24; di 12; di 4; di 1] && cclose M d1) &&
  (let M := CrN (K := DNum) dz in acc_check (snum M) (sden M) 1 (di 2) [di 2; di 1] && cclose M (5, -1)%Z) = true.
Proof. vm_cast_no_check (eq_refl true). Qed.
Definition approximates (RK : method Rnum) (p : nat) (tau : R) : Prop := exists M F l,
  supplied RK /\ dec_of RK M /\ scheck M ten = true /\ acc_check (snum M) (sden M) p F l = true /\ is_tay p tau F l /\ 0 <= tau <= 1 /\ Rabs (D2R (reach1 M) - tau) <= 1 / 10 ^ 12.
Lemma D12 : D2R (1, -12)%Z = 1 / 10 ^ 12.
Proof. unfold D2R, Rlit; cbn [fst snd]; unfold powerRZ; simpl; field. Qed.
Lemma all_approximate w : approximates (EulerImp w) 1 1 /\ approximates (RKRS w) 2 1 /\ approximates (RKMethod1 w) 4 1 /\ approximates (RKMethod2 w) 4 1 /\ approximates (CrN w) 1 (1 / 2).
Proof.
  pose proof all_checked as H. apply andb_prop in H. destruct H as [H S5]. apply andb_prop in H. destruct H as [H S4]. apply andb_prop in H. destruct H as [H S3]. apply andb_prop in H. destruct H as [S1 S2].
  pose proof acc_checked as H. cbv zeta in H. apply andb_prop in H. destruct H as [H A5]. apply andb_prop in H. destruct H as [H A4]. apply andb_prop in H. destruct H as [H A3]. apply andb_prop in H. destruct H as [A1 A2].
  apply andb_prop in A1, A2, A3, A4, A5. destruct A1 as [A1 B1], A2 as [A2 B2], A3 as [A3 B3], A4 as [A4 B4], A5 as [A5 B5]. unfold cclose in *.
  apply dclose_ok in B1, B2, B3, B4, B5. rewrite D12 in *. rewrite D2R_1 in *.
  assert (E5 : D2R (5, -1)%Z = 1 / 2) by (unfold D2R, Rlit; cbn [fst snd]; unfold powerRZ; simpl; field). rewrite E5 in B5.
  split; [|split; [|split; [|split]]].
  - exists (EulerImp (K := DNum) dz), (di 1), [di 1; di 1]. split; [exists w; tauto|]. split; [dcases|]. split; [exact S1|]. split; [exact A1|]. split; [exact tay1|]. split; [lra|exact B1].
  - exists (RKRS (K := DNum) dz), (di 2), [di 2; di 2; di 1]. split; [exists w; tauto|]. split; [dcases|]. split; [exact S3|]. split; [exact A2|]. split; [exact tay2|]. split; [lra|exact B2].
  - exists (RKMethod1 (K := DNum) dz), (di 24), [di 24; di 24; di 12; di 4; di 1]. split; [exists w; tauto|]. split; [dcases|]. split; [exact S4|]. split; [exact A3|]. split; [exact tay4|]. split; [lra|exact B3].
  - exists (RKMethod2 (K := DNum) dz), (di 24), [di 24; di 24; di 12; di 4; di 1]. split; [exists w; tauto|]. split; [dcases|]. split; [exact S5|]. split; [exact A4|]. split; [exact tay4|]. split; [lra|exact B4].
  - exists (CrN (K := DNum) dz), (di 2), [di 2; di 1]. split; [exists w; tauto|]. split; [dcases|]. split; [exact S2|]. split; [exact A5|]. split; [exact tayh|]. split; [lra|exact B5].
Qed.
Definition bound (dt a b : R) (p k : nat) : R := INR k * dt * (1 / 10 ^ 12 + 4 * (dt * sqrt (a ^ 2 + b ^ 2)) ^ p).
Section Top.
Variables (RK : method Rnum) (p : nat) (tau : R).
Hypothesis HA0 : approximates RK p tau.
Variables (n : Z) (dt : R) (op A : vec Rnum -> vec Rnum).
Hypothesis Hn : (0 <= n)%Z.
Hypothesis HA : linear_op n A.
Hypothesis Hinv : inverts n (dt * m_A RK 0%Z 0%Z) A op.
Variables (lr li : Z -> R) (a b : R).
Hypothesis He : left_eigen_op n A lr li a b.
Hypothesis Hdt : 0 < dt.
Hypothesis Ha : a <= 0.
Lemma top_steps phi u k v v' : solution n A phi u -> veq n v (u 0) -> esteps RK n dt A phi k v v' ->
  modulus n lr li (fun q => v' q - u (INR k * (tau * dt)) q) <= bound dt a b p k * modulus n lr li (fun q => A (u 0) q + phi q).
Proof.
  intros Hu Hv H. destruct HA0 as (M & F & l & HS & HM & HC & H1 & H2 & H3 & H4). pose proof (supplied_diagonal RK HS) as HD.
  pose proof (steps_err RK n dt A HD M HM lr li a b He phi p tau F l H1 H2 H3 H4 ten HC Hdt Ha u Hu k 0 v v' ltac:(lra) H) as E.
  rewrite Rplus_0_l in E. rewrite !modulus_cn, Lc_sub.
  assert (E0 : cn (csub (Lc n lr li v) (Lc n lr li (u 0))) = 0).
  { replace (Lc n lr li v) with (Lc n lr li (u 0)) by (unfold Lc; rewrite !(dot0_ext n _ v (u 0) Hv); reflexivity). replace (csub (Lc n lr li (u 0)) (Lc n lr li (u 0))) with c0 by ring. apply cn_0. }
  rewrite E0, Rplus_0_l in E. eapply Rle_trans; [exact E|]. apply Req_le. unfold bound, rate.
  replace (sqrt (a ^ 2 + b ^ 2)) with (cn (a, b)) by (unfold cn, norm2; cbn [fst snd]; f_equal; ring). ring.
Qed.
Lemma conv_affine phi u k dloc Zused aloc zc0 (m : smem (K := Rnum)) : solution n A phi u -> veq n (io m) (u 0) ->
  wp (bind (construct RK n dloc Zused aloc zc0) (fun o => run_affine RK n dt true op phi k (o, m)))
     (fun x => modulus n lr li (fun q => io (snd x) q - u (INR k * (tau * dt)) q) <= bound dt a b p k * modulus n lr li (fun q => A (u 0) q + phi q)).
Proof.
  intros Hu Hv. pose proof HA0 as (M & F & l & HS & _). pose proof (supplied_diagonal RK HS) as HD.
  eapply wp_mono; [apply (affine_esteps RK n dt op A HA HD Hinv); exact Hn|]. intros x Hx. cbv beta in Hx. exact (top_steps phi u k _ _ Hu Hv Hx).
Qed.
Lemma conv_linear u k dloc Zused aloc zc0 (m : smem (K := Rnum)) : solution n A (fun _ => 0) u -> veq n (io m) (u 0) ->
  wp (bind (construct RK n dloc Zused aloc zc0) (fun o => run_linear RK n false op k (o, m)))
     (fun x => modulus n lr li (fun q => io (snd x) q - u (INR k * (tau * dt)) q) <= bound dt a b p k * modulus n lr li (A (u 0))).
Proof.
  intros Hu Hv. pose proof HA0 as (M & F & l & HS & _). pose proof (supplied_diagonal RK HS) as HD.
  eapply wp_mono; [apply (linear_esteps RK n dt op A HA HD Hinv); exact Hn|]. intros x Hx. cbv beta in Hx. pose proof (top_steps (fun _ => 0) u k _ _ Hu Hv Hx) as H. cbv beta in H.
  replace (modulus n lr li (fun q => A (u 0) q + 0)) with (modulus n lr li (A (u 0))) in H; [exact H|].
  rewrite !modulus_cn. unfold Lc. rewrite !(dot0_ext n _ (fun q => A (u 0) q + 0) (A (u 0))); [reflexivity| |]; intros q _; apply Rplus_0_r.
Qed.
End Top.
Lemma supplied_approximates w RK p : In (RK, p) [(EulerImp w, 1%nat); (RKRS w, 2%nat); (RKMethod1 w, 4%nat); (RKMethod2 w, 4%nat)] -> approximates RK p 1.
Proof. pose proof (all_approximate w) as (H1 & H2 & H3 & H4 & _). intros H. cbn [In] in H. destruct H as [H|[H|[H|[H|[]]]]]; injection H as <- <-; assumption. Qed.

Lemma sdirk_converges_affine w RK p : In (RK, p) [(EulerImp w, 1%nat); (RKRS w, 2%nat); (RKMethod1 w, 4%nat); (RKMethod2 w, 4%nat)] ->
  forall n dt (op A : vec Rnum -> vec Rnum), (0 <= n)%Z -> linear_op n A -> inverts n (dt * m_A RK 0%Z 0%Z) A op ->
  forall lr li a b, left_eigen_op n A lr li a b -> 0 < dt -> a <= 0 ->
  forall phi u, solution n A phi u ->
  forall k dloc Zused aloc zc0 (m : smem (K := Rnum)), veq n (io m) (u 0) ->
  wp (bind (construct RK n dloc Zused aloc zc0) (fun o => run_affine RK n dt true op phi k (o, m)))
     (fun x => modulus n lr li (fun q => io (snd x) q - u (INR k * dt) q) <=
        INR k * dt * (1 / 10 ^ 12 + 4 * (dt * sqrt (a ^ 2 + b ^ 2)) ^ p) * modulus n lr li (fun q => A (u 0) q + phi q)).
Proof.
  intros H n dt op A Hn HA Hinv lr li a b He Hdt Ha phi u Hu k dloc Zused aloc zc0 m Hm.
  eapply wp_mono; [apply (conv_affine RK p 1 (supplied_approximates w RK p H) n dt op A Hn HA Hinv lr li a b He Hdt Ha phi u k dloc Zused aloc zc0 m Hu Hm)|].
  intros x Hx. cbv beta in Hx. rewrite Rmult_1_l in Hx. exact Hx.
Qed.
Lemma sdirk_converges_linear w RK p : In (RK, p) [(EulerImp w, 1%nat); (RKRS w, 2%nat); (RKMethod1 w, 4%nat); (RKMethod2 w, 4%nat)] ->
  forall n dt (op A : vec Rnum -> vec Rnum), (0 <= n)%Z -> linear_op n A -> inverts n (dt * m_A RK 0%Z 0%Z) A op ->
  forall lr li a b, left_eigen_op n A lr li a b -> 0 < dt -> a <= 0 ->
  forall u, solution n A (fun _ => 0) u ->
  forall k dloc Zused aloc zc0 (m : smem (K := Rnum)), veq n (io m) (u 0) ->
  wp (bind (construct RK n dloc Zused aloc zc0) (fun o => run_linear RK n false op k (o, m)))
     (fun x => modulus n lr li (fun q => io (snd x) q - u (INR k * dt) q) <=
        INR k * dt * (1 / 10 ^ 12 + 4 * (dt * sqrt (a ^ 2 + b ^ 2)) ^ p) * modulus n lr li (A (u 0))).
Proof.
  intros H n dt op A Hn HA Hinv lr li a b He Hdt Ha u Hu k dloc Zused aloc zc0 m Hm.
  eapply wp_mono; [apply (conv_linear RK p 1 (supplied_approximates w RK p H) n dt op A Hn HA Hinv lr li a b He Hdt Ha u k dloc Zused aloc zc0 m Hu Hm)|].
  intros x Hx. cbv beta in Hx. rewrite Rmult_1_l in Hx. exact Hx.
Qed.
Lemma crn_converges_half w : forall n dt (op A : vec Rnum -> vec Rnum), (0 <= n)%Z -> linear_op n A -> inverts n (dt * m_A (CrN w) 0%Z 0%Z) A op ->
  forall lr li a b, left_eigen_op n A lr li a b -> 0 < dt -> a <= 0 ->
  forall u, solution n A (fun _ => 0) u ->
  forall k dloc Zused aloc zc0 (m : smem (K := Rnum)), veq n (io m) (u 0) ->
  wp (bind (construct (CrN w) n dloc Zused aloc zc0) (fun o => run_linear (CrN w) n false op k (o, m)))
     (fun x => modulus n lr li (fun q => io (snd x) q - u (INR k * (dt / 2)) q) <=
        INR k * dt * (1 / 10 ^ 12 + 4 * (dt * sqrt (a ^ 2 + b ^ 2)) ^ 1) * modulus n lr li (A (u 0))).
Proof.
  intros n dt op A Hn HA Hinv lr li a b He Hdt Ha u Hu k dloc Zused aloc zc0 m Hm.
  pose proof (all_approximate w) as (_ & _ & _ & _ & H).
  eapply wp_mono; [apply (conv_linear (CrN w) 1 (1 / 2) H n dt op A Hn HA Hinv lr li a b He Hdt Ha u k dloc Zused aloc zc0 m Hu Hm)|].
  intros x Hx. cbv beta in Hx. replace (1 / 2 * dt) with (dt / 2) in Hx by field. exact Hx.
Qed.

(* u' = -u *)
Definition neg (x : vec Rnum) : vec Rnum := fun i => - x i.
Lemma neg_linear n : linear_op n neg.
Proof. split; [intros x y E i Hi; unfold neg; rewrite (E i Hi); reflexivity|intros c d x y i Hi; unfold neg; unfold vec in *; cbn [car Rnum] in *; ring]. Qed.
Lemma neg_eigen : left_eigen_op 1 neg (fun _ => 1) (fun _ => 0) (-1) 0.
Proof. intros x. unfold dot0, neg. rewrite !(rsum_lo 0 (1 - 1)) by lia. rewrite !rsum_empty by lia. unfold vec in *; cbn [car Rnum] in *. split; ring. Qed.
Definition eu (t : R) : vec Rnum := fun _ => exp (- t).
Lemma neg_solution n : solution n neg (fun _ => 0) eu.
Proof.
  intros t p _. unfold eu, neg. apply (dl_eq _ _ (exp (- t) * - 1)); [|ring].
  apply (derivable_pt_lim_comp (fun s => - s) exp); [|apply derivable_pt_lim_exp]. apply (derivable_pt_lim_opp (fun s => s)), derivable_pt_lim_id.
Qed.
Lemma neg_inverts n dt : 0 <= dt -> inverts n dt neg (fun w i => w i / (1 + dt)).
Proof.
  intros H. split; [intros w i Hi|intros w x E i Hi; rewrite (E i Hi)]; unfold neg; unfold vec in *; cbn [car Rnum] in *; field; lra.
Qed.
Lemma modulus1 x : modulus 1 (fun _ => 1) (fun _ => 0) x = Rabs (x 0%Z).
Proof.
  unfold modulus, component0, dot0. rewrite !(rsum_lo 0 (1 - 1)) by lia. rewrite !rsum_empty by lia.
  replace ((1 * x 0%Z + 0) ^ 2 + (0 * x 0%Z + 0) ^ 2) with (Rsqr (x 0%Z)) by (unfold Rsqr; ring). apply sqrt_Rsqr_abs.
Qed.
Lemma exp_half : 0.235 <= exp (- (1 / 2)) - exp (- 1).
Proof.
  pose proof (taylor (- 1, 0) 4 (1 / 2) ltac:(cbn; lra) ltac:(lra)) as H. set (E := cexp (tz (-1, 0) (1 / 2))) in *.
  assert (E1 : fst E = exp (- (1 / 2))) by (unfold E, cexp, tz; cbn [fst snd]; rewrite Rmult_0_r, cos_0; replace (1 / 2 * -1) with (- (1 / 2)) by field; ring).
  assert (ET : fst (tay (-1, 0) 4 (1 / 2)) = 29 / 48).
  { cbn [tay cpow fact Nat.mul Nat.add INR pow]. unfold cadd, cmul, cr, c0, c1. cbn [fst snd]. field. }
  assert (EC : cn (-1, 0) = 1). { change (-1, 0) with (cr (-1)). rewrite cn_cr. unfold Rabs. destruct (Rcase_abs (-1)); lra. }
  rewrite EC in H.
  assert (Hf : Rabs (exp (- (1 / 2)) - 29 / 48) <= 1 / 384).
  { rewrite <- E1, <- ET. eapply Rle_trans; [|eapply Rle_trans; [exact H|]].
    - replace (fst E - fst (tay (-1, 0) 4 (1 / 2))) with (fst (csub E (tay (-1, 0) 4 (1 / 2)))) by (unfold csub, cadd, copp; cbn [fst]; ring).
      rewrite <- sqrt_Rsqr_abs. apply sqrt_le_1_alt. unfold norm2, Rsqr. pose proof (Rle_0_sqr (snd (csub E (tay (-1, 0) 4 (1 / 2))))) as Q. unfold Rsqr in Q. lra.
    - cbn [fact Nat.mul Nat.add INR pow]. lra. }
  assert (ES : exp (- 1) = exp (- (1 / 2)) * exp (- (1 / 2))) by (rewrite <- exp_plus; f_equal; field). rewrite ES. set (s := exp (- (1 / 2))) in *.
  assert (Hs : 29 / 48 - 1 / 384 <= s <= 29 / 48 + 1 / 384) by (unfold Rabs in Hf; destruct (Rcase_abs (s - 29 / 48)); lra). nra.
Qed.
Lemma crn_refuted w k dloc Zused aloc zc0 (m : smem (K := Rnum)) : (100 <= k)%nat -> veq 1 (io m) (eu 0) ->
  wp (bind (construct (CrN w) 1 dloc Zused aloc zc0) (fun o => run_linear (CrN w) 1 false (fun x i => x i / (1 + 1 / INR k * m_A (CrN w) 0%Z 0%Z)) k (o, m)))
     (fun x => Rabs (io (snd x) 0%Z - eu 1 0%Z) >= 9 / 50).
Proof.
  intros Hk Hm. assert (K1 : 100 <= INR k) by (replace 100 with (INR 100) by (cbn [INR]; lra); apply le_INR; exact Hk).
  assert (D0 : 0 < 1 / INR k) by (apply Rdiv_lt_0_compat; lra).
  assert (EA : (m_A (CrN w) 0%Z 0%Z : R) = 1 / 2) by (cbn; unfold Rlit; unfold powerRZ; simpl; field).
  assert (HI : inverts 1 (1 / INR k * m_A (CrN w) 0%Z 0%Z) neg (fun x i => x i / (1 + 1 / INR k * m_A (CrN w) 0%Z 0%Z))) by (apply neg_inverts; rewrite EA; lra).
  eapply wp_mono; [apply (crn_converges_half w 1 (1 / INR k) _ neg ltac:(lia) (neg_linear 1) HI _ _ _ _ neg_eigen D0 ltac:(lra) eu (neg_solution 1) k dloc Zused aloc zc0 m Hm)|].
  intros x Hx. cbv beta in Hx. rewrite !modulus1 in Hx.
  replace (INR k * (1 / INR k / 2)) with (1 / 2) in Hx by (field; lra). replace (INR k * (1 / INR k)) with 1 in Hx by (field; lra).
  replace (sqrt ((-1) ^ 2 + 0 ^ 2)) with 1 in Hx by (replace ((-1) ^ 2 + 0 ^ 2) with 1 by ring; symmetry; apply sqrt_1).
  assert (EN : Rabs (neg (eu 0) 0%Z) = 1). { unfold neg, eu. rewrite Rabs_Ropp, Ropp_0, exp_0. apply Rabs_R1. } rewrite EN in Hx.
  assert (S1 : 1 / INR k <= 1 / 100) by (apply Rmult_le_compat_l; [lra|apply Rinv_le_contravar; lra]).
  assert (HE : 0.235 <= exp (- (1 / 2)) - exp (Ropp 1)) by (replace (Ropp 1) with (-1) by lra; exact exp_half). unfold eu in Hx |- *. set (X := io (snd x) 0%Z) in *.
  assert (HX : Rabs (X - exp (- (1 / 2))) <= 0.05) by (eapply Rle_trans; [exact Hx|]; rewrite pow_1; set (y := 1 / INR k) in *; clearbody y; lra).
  clear Hx. unfold Rabs in HX |- *. destruct (Rcase_abs (X - exp (- (1 / 2)))); destruct (Rcase_abs (X - exp (Ropp 1))); set (e1 := exp (Ropp 1)) in *; set (e2 := exp (- (1 / 2))) in *; clearbody e1 e2; lra.
Qed.
Lemma crn_diverges : exists (A : vec Rnum -> vec Rnum) (op : nat -> vec Rnum -> vec Rnum) (u : R -> vec Rnum),
  linear_op 1 A /\ left_eigen_op 1 A (fun _ => 1) (fun _ => 0) (-1) 0 /\ solution 1 A (fun _ => 0) u /\
  forall w k dloc Zused aloc zc0 (m : smem (K := Rnum)), (100 <= k)%nat -> veq 1 (io m) (u 0) ->
  inverts 1 (1 / INR k * m_A (CrN w) 0%Z 0%Z) A (op k) /\
  wp (bind (construct (CrN w) 1 dloc Zused aloc zc0) (fun o => run_linear (CrN w) 1 false (op k) k (o, m)))
     (fun x => Rabs (io (snd x) 0%Z - u 1 0%Z) >= 9 / 50).
Proof.
  exists neg, (fun k x i => x i / (1 + 1 / INR k * m_A (CrN (K := Rnum) 0) 0%Z 0%Z)), eu.
  split; [apply neg_linear|]. split; [apply neg_eigen|]. split; [apply neg_solution|].
  intros w k dloc Zused aloc zc0 m Hk Hm. split; [|exact (crn_refuted w k dloc Zused aloc zc0 m Hk Hm)].
  assert (K1 : 100 <= INR k) by (replace 100 with (INR 100) by (cbn [INR]; lra); apply le_INR; exact Hk).
  assert (D0 : 0 < 1 / INR k) by (apply Rdiv_lt_0_compat; lra).
  assert (EA : (m_A (CrN w) 0%Z 0%Z : R) = 1 / 2) by (cbn; unfold Rlit; unfold powerRZ; simpl; field).
  apply neg_inverts. change (m_A (CrN 0) 0%Z 0%Z : R) with (m_A (CrN w) 0%Z 0%Z : R). rewrite EA. lra.
Qed.
