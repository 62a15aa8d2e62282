(* C96: the runs of Rodas against the solution of y' = J y + g.  An eigenvalue that is not 0: the system is completed by
   z' = 0, z = 1, which makes it linear (RodasConv.v).  The eigenvalue 0: directly. *)
From Coq Require Import Reals Lra Lia Psatz Ring List.
From Verif Require Import Base Spec FieldLU HessModel CMacros VecFun HessPathProofs LayoutModel LayoutProofs LayoutCases JacModel JacProofs
  RodasModel RodasProofs RodasReal RodasTop RodasTerm RodasFinal RodasSpec RodasStep Dec RodasStab RodasStab2 RodasOrder RodasLinear Conv ConvPoly RodasConvSpec RodasConv RadauConvSpec RadauAcc RadauPert RadauConv.
Import ListNotations.
Open Scope R_scope.

Definition affine_rhs (n : Z) (J : Z -> Z -> R) (g : Z -> R) : R -> (Z -> R) -> Z -> R := fun t y k => linear_rhs n J t y k + g k.
Lemma affine_step n sh numjac autonms use_DF_t atol rtol f J g C x h y y' err :
  (forall t y k, (1 <= k <= n)%Z -> f t y k = linear_rhs n J t y k + g k) ->
  (forall i k, in_full n i k -> ~ in_shape n sh i k -> J i k = 0) ->
  rodas_step n sh numjac autonms use_DF_t C atol rtol f (fun _ _ => J) (fun _ _ _ => 0) x h y y' err ->
  exists u, ros_step 6 n (rodas_tab C) (affine_rhs n J g) J (fun _ => 0) x h y u y'.
Proof.
  intros Hlin Hout (J' & fx & u & HJ & Hfx & [HS HE] & _). exists u. split; [|exact HE].
  pose proof (jac_exact n sh numjac J f g Hlin Hout x y J' HJ) as EJ.
  assert (EX : forall k, (1 <= k <= n)%Z -> fx k = 0).
  { intros k Hk. rewrite (Hfx k Hk). destruct autonms; [reflexivity|]. destruct use_DF_t; [reflexivity|].
    unfold quotient_x. rewrite !Hlin by exact Hk. unfold linear_rhs, Rdiv. rewrite Rminus_diag_eq by reflexivity. ring. }
  intros i Hi. destruct (HS i Hi) as (v & H1 & H2). exists v. split; [exact H1|]. intros k Hk.
  unfold affine_rhs. rewrite <- (EX k Hk), <- Hlin by exact Hk. rewrite <- (H2 k Hk). f_equal. apply rsum_ext. intros l Hl. rewrite EJ; [reflexivity|]. unfold in_full. lia.
Qed.

(* ---- completed system ---- *)
Section Aug.
Variables (n : Z) (J : Z -> Z -> R) (g : Z -> R).
Hypothesis Hn : (0 <= n)%Z.
Definition ext (z : R) (y : Z -> R) : Z -> R := fun k => if (k =? n + 1)%Z then z else y k.
Definition Jx : Z -> Z -> R := fun k l => if (k =? n + 1)%Z then 0 else if (l =? n + 1)%Z then g k else J k l.
Lemma ext_in z y k : (1 <= k <= n)%Z -> ext z y k = y k.
Proof. intros Hk. unfold ext. destruct (Z.eqb_spec k (n + 1)); [lia|reflexivity]. Qed.
Lemma ext_last z y : ext z y (n + 1)%Z = z.
Proof. unfold ext. rewrite Z.eqb_refl. reflexivity. Qed.
Lemma rsum_last (v : Z -> R) : rsum 1 (n + 1) v = rsum 1 n v + v (n + 1)%Z.
Proof. rewrite (rsum_hi 1 (n + 1)) by lia. replace (n + 1 - 1)%Z with n by lia. reflexivity. Qed.
Lemma Jx_mul k z y : (1 <= k <= n)%Z -> rsum 1 (n + 1) (fun l => Jx k l * ext z y l) = rsum 1 n (fun l => J k l * y l) + g k * z.
Proof.
  intros Hk. rewrite rsum_last, ext_last. unfold Jx. destruct (Z.eqb_spec k (n + 1)); [lia|]. rewrite Z.eqb_refl. f_equal.
  apply rsum_ext. intros l Hl. rewrite ext_in by exact Hl. destruct (Z.eqb_spec l (n + 1)); [lia|reflexivity].
Qed.
Lemma Jx_last y : rsum 1 (n + 1) (fun l => Jx (n + 1) l * y l) = 0.
Proof. unfold Jx. rewrite Z.eqb_refl. rewrite (rsum_ext _ _ _ (fun _ => 0 * 0)) by (intros; ring). rewrite rsum_scal. ring. Qed.
Lemma ext_step T x h y u y' : h <> 0 -> t_gamma T <> 0 -> ros_step 6 n T (affine_rhs n J g) J (fun _ => 0) x h y u y' ->
  ros_step 6 (n + 1) T (linear_rhs (n + 1) Jx) Jx (fun _ => 0) x h (ext 1 y) (fun i => ext 0 (u i)) (ext 1 y').
Proof.
  intros Hh Hg [HS HE].
  assert (Z0 : forall lo hi (v : Z -> R), rsum lo hi (fun j => v j * 0) = 0) by (intros lo hi v; rewrite (rsum_ext _ _ _ (fun j => 0 * v j)) by (intros; ring); rewrite rsum_scal; ring).
  split.
  - intros i Hi. destruct (HS i Hi) as (v & H1 & H2). exists (ext 1 v). split.
    + intros k Hk. destruct (Z.eq_dec k (n + 1)) as [->|Hk'].
      * rewrite !ext_last. rewrite (rsum_ext _ _ _ (fun j => t_a T i j * 0)) by (intros j _; rewrite ext_last; reflexivity). rewrite Z0. ring.
      * rewrite !ext_in by lia. rewrite (H1 k) by lia. f_equal. apply rsum_ext. intros j _. rewrite ext_in by lia. reflexivity.
    + intros k Hk. destruct (Z.eq_dec k (n + 1)) as [->|Hk'].
      * unfold linear_rhs. rewrite !Jx_last, !ext_last. rewrite (rsum_ext _ _ _ (fun j => t_c T i j / h * 0)) by (intros j _; rewrite ext_last; reflexivity). rewrite Z0. field. split; assumption.
      * unfold linear_rhs. rewrite !Jx_mul, ext_in by lia. specialize (H2 k ltac:(lia)). unfold affine_rhs, linear_rhs in H2.
        rewrite (rsum_ext 1 (i - 1) _ (fun j => t_c T i j / h * u j k)) by (intros j _; rewrite ext_in by lia; reflexivity). lra.
  - intros k Hk. destruct (Z.eq_dec k (n + 1)) as [->|Hk'].
    + rewrite !ext_last. rewrite (rsum_ext _ _ _ (fun j => t_m T j * 0)) by (intros j _; rewrite ext_last; reflexivity). rewrite Z0. ring.
    + rewrite !ext_in by lia. rewrite (HE k) by lia. f_equal. apply rsum_ext. intros j _. rewrite ext_in by lia. reflexivity.
Qed.
Lemma ext_flow u : affine_flow n J g u -> flow (n + 1) Jx (fun t => ext 1 (u t)).
Proof.
  intros Hu t k Hk. destruct (Z.eq_dec k (n + 1)) as [->|Hk'].
  - rewrite Jx_last. eapply (derivable_pt_lim_ext (fun _ => 1)); [intros s; rewrite ext_last; reflexivity|apply derivable_pt_lim_const].
  - rewrite Jx_mul by lia. eapply (derivable_pt_lim_ext (fun s => u s k)); [intros s; rewrite ext_in by lia; reflexivity|].
    rewrite Rmult_1_r. apply Hu. lia.
Qed.
Lemma ext_eigen lr li a b mr mi : left_eigen n J lr li a b -> dot n lr g = a * mr - b * mi -> dot n li g = b * mr + a * mi ->
  left_eigen (n + 1) Jx (ext mr lr) (ext mi li) a b.
Proof.
  intros He E1 E2 l Hl. rewrite !rsum_last, !ext_last. unfold Jx at 2 4. rewrite Z.eqb_refl.
  assert (X : forall z v, rsum 1 n (fun k => ext z v k * Jx k l) = rsum 1 n (fun k => v k * (if (l =? n + 1)%Z then g k else J k l))).
  { intros z v. apply rsum_ext. intros k Hk. rewrite ext_in by exact Hk. unfold Jx. destruct (Z.eqb_spec k (n + 1)); [lia|reflexivity]. }
  rewrite !X. destruct (Z.eqb_spec l (n + 1)) as [->|Hl'].
  - rewrite !ext_last. unfold dot in E1, E2. rewrite E1, E2. lra.
  - rewrite !ext_in by lia. destruct (He l ltac:(lia)) as [F1 F2]. rewrite F1, F2. lra.
Qed.
Lemma ext_size mr mi lr li z v : size (n + 1) (ext mr lr) (ext mi li) (ext z v) = sqrt ((dot n lr v + mr * z) ^ 2 + (dot n li v + mi * z) ^ 2).
Proof.
  unfold size. assert (X : forall z0 w, dot (n + 1) (ext z0 w) (ext z v) = dot n w v + z0 * z).
  { intros z0 w. unfold dot. rewrite rsum_last, !ext_last. f_equal. apply rsum_ext. intros k Hk. rewrite !ext_in by exact Hk. reflexivity. }
  rewrite !X. reflexivity.
Qed.
Lemma size_ext m lr li v w : (forall k, (1 <= k <= m)%Z -> v k = w k) -> size m lr li v = size m lr li w.
Proof. intros H. unfold size. rewrite (dot_ext m lr v w H), (dot_ext m li v w H). reflexivity. Qed.
Lemma chain_ext (step : R -> R -> (Z -> R) -> (Z -> R) -> R -> Prop) x0 y0 l x y : chain step x0 y0 l x y -> (forall t h c, In (t, h, c) l -> 0 < h) ->
  chain (fun x h Y Y' e => 0 < h /\ exists y y', Y = ext 1 y /\ Y' = ext 1 y' /\ step x h y y' e) x0 (ext 1 y0) l x (ext 1 y).
Proof.
  induction 1 as [|l x y h y' err HC IH HT Hr|l x y h y' err HC IH HT Hr]; intros Hp; [constructor| |].
  - eapply chain_accept; [apply IH; intros t h0 c Hin; apply (Hp t h0 c); right; exact Hin| |exact Hr]. split; [apply (Hp x h true); left; reflexivity|eauto 10].
  - eapply chain_reject; [apply IH; intros t h0 c Hin; apply (Hp t h0 c); right; exact Hin| |exact Hr]. split; [apply (Hp x h false); left; reflexivity|eauto 10].
Qed.
End Aug.

(* ---- the eigenvalue 0 ---- *)
Lemma Gam_unique T v w w' : t_gamma T <> 0 -> Gam 6 T v w -> Gam 6 T v w' -> forall i, (1 <= i <= 6)%Z -> w i = w' i.
Proof.
  intros Hg H H'. assert (X : forall m : nat, forall i, (1 <= i <= 6)%Z -> (i <= Z.of_nat m)%Z -> w i = w' i).
  { induction m as [|m IH]; intros i Hi Hm; [lia|]. specialize (H i Hi). specialize (H' i Hi).
    rewrite (rsum_ext 1 (i - 1) _ (fun j => t_c T i j * w' j)) in H by (intros j Hj; rewrite (IH j) by lia; reflexivity).
    assert (E : w i / t_gamma T = w' i / t_gamma T) by lra. apply (f_equal (fun q => q * t_gamma T)) in E. unfold Rdiv in E. rewrite !Rmult_assoc, Rinv_l, !Rmult_1_r in E by exact Hg. exact E. }
  intros i Hi. apply (X 6%nat i Hi). lia.
Qed.
Lemma weights m C v w : @rocoe Rnum m = Ok C -> t_gamma (rodas_tab C) <> 0 -> Gam 6 (rodas_tab C) (fun _ => v) w ->
  Rabs (rsum 1 6 (fun i => t_m (rodas_tab C) i * w i) - v) <= 4 / 10 ^ 15 * Rabs v.
Proof.
  intros EC Hg HG. set (T := rodas_tab C) in *. destruct (methods_order m C EC) as ((H3 & _) & _). fold T in H3.
  destruct (Gam_solvable T (fun _ => 1) Hg) as (g1 & G1). destruct (Gam_solvable T (fun i => Amul T g1 i + g1 i) Hg) as (gb & G2).
  destruct (Gam_solvable T (fun i => Amul T gb i + gb i) Hg) as (gbb & G3). destruct (Gam_solvable T (fun i => Amul T g1 i * Amul T g1 i) Hg) as (gaa & G4).
  destruct (H3 g1 gb gbb gaa G1 G2 G3 G4) as (HC & _). unfold close in HC.
  assert (E : forall i, (1 <= i <= 6)%Z -> w i = v * g1 i).
  { apply (Gam_unique T (fun _ => v) w (fun i => v * g1 i) Hg HG). intros i Hi. specialize (G1 i Hi).
    rewrite (rsum_ext 1 (i - 1) _ (fun j => v * (t_c T i j * g1 j))) by (intros; ring). rewrite rsum_scal.
    transitivity (v * (g1 i / t_gamma T - rsum 1 (i - 1) (fun j => t_c T i j * g1 j))); [field; exact Hg|rewrite G1; ring]. }
  rewrite (rsum_ext 1 6 _ (fun i => v * (t_m T i * g1 i))) by (intros i Hi; rewrite (E i Hi); ring). rewrite rsum_scal.
  set (q := rsum 1 6 (fun i => t_m T i * g1 i)) in *. replace (v * q - v) with ((q - 1) * v) by ring. rewrite Rabs_mult.
  apply Rmult_le_compat_r; [apply Rabs_pos|exact HC].
Qed.
Lemma zero_row m C n J g l x h y u y' : @rocoe Rnum m = Ok C -> t_gamma (rodas_tab C) <> 0 -> 0 < h ->
  (forall v, dot n l (fun k => rsum 1 n (fun j => J k j * v j)) = 0) ->
  ros_step 6 n (rodas_tab C) (affine_rhs n J g) J (fun _ => 0) x h y u y' ->
  Rabs (dot n l y' - dot n l y - h * dot n l g) <= h * (4 / 10 ^ 15 * Rabs (dot n l g)).
Proof.
  intros EC Hg Hh HJ [HS HE]. set (T := rodas_tab C) in *.
  assert (HG : Gam 6 T (fun _ => dot n l g) (fun i => dot n l (u i) / h)).
  { intros i Hi. destruct (HS i Hi) as (v & _ & H2).
    assert (X : dot n l (fun k => / (h * t_gamma T) * u i k - rsum 1 n (fun j => J k j * u i j)) = dot n l (fun k => (rsum 1 n (fun j => J k j * v j) + g k) + rsum 1 (i - 1) (fun j => t_c T i j / h * u j k))).
    { apply dot_ext. intros k Hk. specialize (H2 k Hk). unfold affine_rhs, linear_rhs in H2. unfold Rdiv in H2 at 1. rewrite Rmult_0_r, Rplus_0_r in H2. rewrite <- H2. ring. }
    rewrite dot_sub, dot_add, dot_add, !HJ, dot_scal, dot_comb in X.
    cbv beta. rewrite (rsum_ext 1 (i - 1) _ (fun j => t_c T i j / h * dot n l (u j))) by (intros; field; lra).
    replace (dot n l (u i) / h / t_gamma T) with (/ (h * t_gamma T) * dot n l (u i)) by (field; split; first [exact Hg|lra]). lra. }
  pose proof (weights m C _ _ EC Hg HG) as W. fold T in W.
  rewrite (dot_ext n l y' (fun k => y k + rsum 1 6 (fun i => t_m T i * u i k)) HE). rewrite dot_add, dot_comb.
  rewrite (rsum_ext 1 6 (fun j => t_m T j * dot n l (u j)) (fun i => h * (t_m T i * (dot n l (u i) / h)))) by (intros; field; lra). rewrite rsum_scal.
  set (q := rsum 1 6 _) in *. replace (dot n l y + h * q - dot n l y - h * dot n l g) with (h * (q - dot n l g)) by ring.
  rewrite Rabs_mult, (Rabs_pos_eq h) by lra. apply Rmult_le_compat_l; [lra|exact W].
Qed.
Section Zero.
Variables (n : Z) (J : Z -> Z -> R) (lr li g : Z -> R) (m : Z) (C : rcoef Rnum).
Hypothesis Hn : (0 <= n)%Z.
Hypothesis He : left_eigen n J lr li 0 0.
Hypothesis EC : @rocoe Rnum m = Ok C.
Hypothesis Hg : t_gamma (rodas_tab C) <> 0.
Variable u : R -> Z -> R.
Hypothesis Hu : affine_flow n J g u.
Notation Lc := (L n lr li).
Lemma zero_one t x h v w v' : 0 <= t -> 0 < h -> ros_step 6 n (rodas_tab C) (affine_rhs n J g) J (fun _ => 0) x h v w v' ->
  cn (csub (Lc v') (Lc (u (t + h)))) <= cn (csub (Lc v) (Lc (u t))) + h * (1 / 10 ^ 12) * cn (Lc g).
Proof.
  intros Ht Hh HS. rewrite (zero_flow n J lr li Hn He g u Hu (t + h)) by lra. rewrite (zero_flow n J lr li Hn He g u Hu t Ht).
  assert (D : forall v, dot n lr (fun k => rsum 1 n (fun j => J k j * v j)) = 0 /\ dot n li (fun k => rsum 1 n (fun j => J k j * v j)) = 0).
  { intros q. destruct (dot_eigen n J lr li 0 0 q He) as [E1 E2]. rewrite E1, E2. split; ring. }
  pose proof (zero_row m C n J g lr x h v w v' EC Hg Hh (fun q => proj1 (D q)) HS) as R1.
  pose proof (zero_row m C n J g li x h v w v' EC Hg Hh (fun q => proj2 (D q)) HS) as R2.
  set (e := (dot n lr v' - dot n lr v - h * dot n lr g, dot n li v' - dot n li v - h * dot n li g) : cx).
  replace (csub (Lc v') (cadd (Lc (u 0)) (cmul (cr (t + h)) (Lc g)))) with (cadd (csub (Lc v) (cadd (Lc (u 0)) (cmul (cr t) (Lc g)))) e)
    by (unfold L, e; apply cx_eq; unfold csub, cadd, copp, cmul, cr; cbn [fst snd]; ring).
  eapply Rle_trans; [apply cn_add|]. apply Rplus_le_compat_l. eapply Rle_trans; [apply cn_parts|]. unfold e. cbn [fst snd].
  pose proof (parts_cn (Lc g)) as [P1 P2]. unfold L in P1, P2. cbn [fst snd] in P1, P2. fold (Lc g) in P1, P2. set (G := cn (Lc g)) in *. clearbody G.
  assert (Q : h * (4 / 10 ^ 15 * Rabs (dot n lr g)) + h * (4 / 10 ^ 15 * Rabs (dot n li g)) <= h * (1 / 10 ^ 12) * G).
  { replace (h * (1 / 10 ^ 12) * G) with (h * (1 / 10 ^ 12 * G)) by ring. rewrite <- Rmult_plus_distr_l. apply Rmult_le_compat_l; [lra|]. pose proof (Rabs_pos (dot n lr g)). lra. }
  lra.
Qed.
Lemma zero_chain (step : R -> R -> (Z -> R) -> (Z -> R) -> R -> Prop) x0 y0 l x y :
  (forall x h y y' e, step x h y y' e -> exists w, ros_step 6 n (rodas_tab C) (affine_rhs n J g) J (fun _ => 0) x h y w y') ->
  (forall k, (1 <= k <= n)%Z -> y0 k = u 0 k) -> chain step x0 y0 l x y -> (forall t h c, In (t, h, c) l -> 0 < h) ->
  x0 <= x /\ cn (csub (Lc y) (Lc (u (x - x0)))) <= (x - x0) * (1 / 10 ^ 12) * cn (Lc g).
Proof.
  intros HS Hy HC Hp. induction HC as [|l x y h y' err HC IH HT Hr|l x y h y' err HC IH HT Hr].
  - split; [lra|]. replace (x0 - x0) with 0 by ring. rewrite (L_ext n lr li y0 (u 0) Hy). replace (csub (Lc (u 0)) (Lc (u 0))) with c0 by ring. rewrite cn_0. lra.
  - destruct IH as [Ix IE]; [intros t h0 c Hin; apply (Hp t h0 c); right; exact Hin|].
    pose proof (Hp x h true ltac:(left; reflexivity)) as Hh. split; [lra|]. destruct (HS _ _ _ _ _ HT) as (w & Hw).
    pose proof (zero_one (x - x0) x h y w y' ltac:(lra) Hh Hw) as E. replace (x + h - x0) with (x - x0 + h) by ring. lra.
  - apply IH. intros t h0 c Hin; apply (Hp t h0 c); right; exact Hin.
Qed.
End Zero.
Lemma rodas_converges : forall (Sg La : Type)
    (userF : Sg -> R -> (Z -> R) -> Sg * (Z -> R))
    (userJ : Sg -> R -> (Z -> R) -> (Z -> R) -> (Z -> R) -> Sg * (Z -> R))
    (userDt : Sg -> R -> (Z -> R) -> Sg * (Z -> R))
    (decomr : La -> R -> (Z -> R) -> out (La * (Z -> R)))
    (solvereal : La -> (Z -> R) -> (Z -> R) -> out (Z -> R))
    (set_calhes : La -> La) n sh (numjac autonms use_DF_t : bool) (atol rtol junk : Z -> R)
    (f : R -> (Z -> R) -> Z -> R) (J : Z -> Z -> R) (g : Z -> R) holds meth C (o : ropts Rnum) x0 xend h0 fuel ifuel s0 la0 jac0 y0 a b c lr li ea eb u,
  (forall s t y k, snd (userF s t y) k = f t y k) ->
  (forall t y k, (1 <= k <= n)%Z -> f t y k = linear_rhs n J t y k + g k) ->
  (forall s t y fy j i k, in_full n i k -> sh_mat n sh (snd (userJ s t y fy j)) i k = J i k) ->
  (forall s t y k, snd (userDt s t y) k = 0) ->
  (forall i k, in_full n i k -> ~ in_shape n sh i k -> J i k = 0) ->
  algebra La decomr solvereal set_calhes n sh holds ->
  (1 <= n)%Z -> shape_ok sh ->
  @rocoe Rnum meth = Ok C -> 0 < (o_safe o : R) <= 1 -> x0 < xend ->
  left_eigen n J lr li ea eb -> ea <= 0 ->
  affine_flow n J g u -> (forall k, (1 <= k <= n)%Z -> y0 k = u 0 k) ->
  pc (rodas (@r_prep Rnum Sg La userF userJ userDt set_calhes n sh numjac autonms use_DF_t r_uround junk)
            (@r_attempt Rnum Sg La userF decomr solvereal n autonms C atol rtol)
            o fuel ifuel (mkW (s0, nil) la0 jac0) h0 x0 xend y0 a b c)
    (fun r => let st := fst r in
      (o_onestep o = false -> s_x st = xend) /\
      forall H, (forall t, In t (s_hist st) -> a_acc t = true -> a_h t <= H) ->
      size n lr li (fun k => s_Y st k - u (s_x st - x0) k) <=
        (s_x st - x0) * (1 / 10 ^ 12 + 4 * (H * sqrt (ea ^ 2 + eb ^ 2)) ^ 4) * size n lr li (fun k => rsum 1 n (fun l => J k l * u 0 l) + g k)).
Proof.
  intros Sg La userF userJ userDt decomr solvereal set_calhes n sh numjac autonms use_DF_t atol rtol junk f J g holds meth C o x0 xend h0 fuel ifuel s0 la0 jac0 y0 a b c lr li ea eb u
    Hf Hlin HJ Hft Hout Halg Hn Hsh HC Ho Hx He Ha Hu Hy.
  pose proof (forward_lemma Sg La userF userJ userDt decomr solvereal set_calhes n sh numjac autonms use_DF_t meth C atol rtol junk
    o x0 xend h0 fuel ifuel s0 la0 jac0 y0 a b c HC Ho Hx) as HF.
  pose proof (run_linked Sg La userF userJ userDt decomr solvereal set_calhes n sh numjac autonms use_DF_t C atol rtol junk
    f (fun _ _ => J) (fun _ _ _ => 0) Hf HJ Hft holds Halg Hn Hsh o x0 y0 fuel ifuel (mkW (s0, nil) la0 jac0) h0 xend a b c) as HL.
  destruct (rodas _ _ _ _ _ _ _ _ _ _ _ _ _) as [r| | |]; try exact Logic.I. cbn [pc] in *. cbv zeta in *.
  destruct HF as (HE & _ & _ & HP & _ & _). unfold linked in HL. split; [exact HE|]. intros H HH.
  destruct (rocoe_dcoef meth C HC) as (D & ED & ->).
  pose proof (gamma_pos meth D ED) as HGp. set (C := rmap D) in *. assert (Hg : t_gamma (rodas_tab C) <> 0) by (change (t_gamma (rodas_tab C)) with (D2R (rGAMMA D)); lra).
  set (step := rodas_step n sh numjac autonms use_DF_t C atol rtol f (fun _ _ => J) (fun _ _ _ => 0)) in *.
  assert (HS : forall x h y y' e, step x h y y' e -> exists w, ros_step 6 n (rodas_tab C) (affine_rhs n J g) J (fun _ => 0) x h y w y').
  { intros x h y y' e HT. exact (affine_step n sh numjac autonms use_DF_t atol rtol f J g C x h y y' e Hlin Hout HT). }
  assert (Hpos : forall t h bb, In (t, h, bb) (map tri (s_hist (fst r))) -> 0 < h).
  { intros t h bb Hin. apply in_map_iff in Hin. destruct Hin as (at_ & Ht & Hin). specialize (HP at_ Hin). unfold tri in Ht. injection Ht as <- <- <-. lra. }
  assert (Hmax : forall t h, In (t, h, true) (map tri (s_hist (fst r))) -> h <= H).
  { intros t h Hin. apply in_map_iff in Hin. destruct Hin as (at_ & Ht & Hin). unfold tri in Ht. injection Ht as _ <- Hacc. exact (HH at_ Hin Hacc). }
  set (x := s_x (fst r)) in *. set (y := s_Y (fst r)) in *. set (l := map tri (s_hist (fst r))) in *.
  destruct (Req_dec (ea ^ 2 + eb ^ 2) 0) as [E0|E0].
  - assert (ea = 0) by nra. assert (eb = 0) by nra. subst ea eb.
    destruct (zero_chain n J lr li g meth C ltac:(lia) He HC Hg u Hu step x0 y0 l x y HS Hy HL Hpos) as [Hxx E].
    rewrite size_cn, L_sub, size_cn, L_add. eapply Rle_trans; [exact E|].
    replace (L n lr li (fun k => rsum 1 n (fun l0 => J k l0 * u 0 l0))) with c0 by (symmetry; apply (L_J0 n J lr li He)).
    replace (cadd c0 (L n lr li g)) with (L n lr li g) by ring. right. rewrite E0, sqrt_0, Rmult_0_r. ring.
  - assert (E0' : 0 < ea ^ 2 + eb ^ 2) by nra.
    set (mr := (ea * dot n lr g + eb * dot n li g) / (ea ^ 2 + eb ^ 2)). set (mi := (ea * dot n li g - eb * dot n lr g) / (ea ^ 2 + eb ^ 2)).
    assert (He' : left_eigen (n + 1) (Jx n J g) (ext n mr lr) (ext n mi li) ea eb).
    { apply ext_eigen; [lia|exact He| |]; unfold mr, mi; field; lra. }
    assert (Hy' : forall k, (1 <= k <= n + 1)%Z -> ext n 1 y0 k = ext n 1 (u 0) k).
    { intros k Hk. destruct (Z.eq_dec k (n + 1)) as [->|Hk']; [rewrite !ext_last; reflexivity|rewrite !ext_in by lia; apply Hy; lia]. }
    pose proof (chain_err (n + 1) (Jx n J g) (ext n mr lr) (ext n mi li) ea eb D meth ltac:(lia) He' Ha ED (fun t => ext n 1 (u t)) (ext_flow n J g ltac:(lia) u Hu)
      (fun x h Y Y' e => 0 < h /\ exists y y', Y = ext n 1 y /\ Y' = ext n 1 y' /\ step x h y y' e) x0 (ext n 1 y0) l x (ext n 1 y) H) as X.
    destruct X as [_ X].
    + intros x1 h1 Y Y' e (Hh1 & y1 & y1' & -> & -> & HT). destruct (HS _ _ _ _ _ HT) as (w & Hw). eexists. apply (ext_step n J g ltac:(lia) (rodas_tab C) x1 h1 y1 w y1' ltac:(lra) Hg Hw).
    + exact Hy'.
    + apply (chain_ext n step); assumption.
    + exact Hpos.
    + exact Hmax.
    + rewrite (size_ext (n + 1) (ext n mr lr) (ext n mi li) _ (ext n 0 (fun k => y k - u (x - x0) k))) in X.
      2: { intros k Hk. destruct (Z.eq_dec k (n + 1)) as [->|Hk']; [rewrite !ext_last; ring|rewrite !ext_in by lia; reflexivity]. }
      rewrite (size_ext (n + 1) (ext n mr lr) (ext n mi li) (fun k => rsum 1 (n + 1) (fun l0 => Jx n J g k l0 * ext n 1 (u 0) l0)) (ext n 0 (fun k => rsum 1 n (fun l0 => J k l0 * u 0 l0) + g k))) in X.
      2: { intros k Hk. destruct (Z.eq_dec k (n + 1)) as [->|Hk']; [rewrite Jx_last, ext_last by lia; reflexivity|rewrite Jx_mul, !ext_in by lia; ring]. }
      rewrite !ext_size in X by lia. rewrite !Rmult_0_r, !Rplus_0_r in X. exact X.
Qed.
