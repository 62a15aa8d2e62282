(* Concrete cases and final forms for Props_RadauRun.v *)
From Coq Require Import ZArith Reals Lra Lia List.
From Verif Require Import Base Spec FieldLU VecFun LayoutModel LayoutCases JacModel JacProofs RodasProofs RodasStep HessPathProofs RadauModel RadauAlg RadauSpec RadauConst RadauRun RadauStart RadauLinear RadauCount RadauColl RadauWitness2.
Open Scope R_scope.
Local Notation c := (@rd_const Rnum).

(* y' = t: W solves Lambda W = TI (c_1, c_2, c_3) exactly, V = T W, u the cubic through V *)
Definition Ld : R := ALPH c * ALPH c + BETA c * BETA c.
Definition fcG (k : Z) : R := rsum 1 3 (fun l => TI_of c k l * nodes_of c l).
Definition fcW : stages := fun k _ => three (fcG 1 / U1 c) ((ALPH c * fcG 2 + BETA c * fcG 3) / Ld) ((ALPH c * fcG 3 - BETA c * fcG 2) / Ld) k.
Definition fcV : stages := fun k i => trans (T_of c) fcW k i.
Lemma cubic_through (x y v1 v2 v3 : R) : 0 < x < y -> y < 1 -> exists a b d, cubic a b d x = v1 /\ cubic a b d y = v2 /\ cubic a b d 1 = v3.
Proof.
  intros Hx Hy.
  set (e1 := v1 / (x * (x - y) * (x - 1))). set (e2 := v2 / (y * (y - x) * (y - 1))). set (e3 := v3 / ((1 - x) * (1 - y))).
  exists (e1 * y + e2 * x + e3 * (x * y)), (- e1 * (1 + y) - e2 * (1 + x) - e3 * (x + y)), (e1 + e2 + e3).
  unfold cubic, e1, e2, e3. repeat split; field; repeat split; intros N; lra.
Qed.
Lemma max6 (a b d e f g : R) : exists m, a <= m /\ b <= m /\ d <= m /\ e <= m /\ f <= m /\ g <= m.
Proof.
  exists (Rmax a (Rmax b (Rmax d (Rmax e (Rmax f g))))).
  repeat split; repeat first [apply Rmax_l | eapply Rle_trans; [|apply Rmax_r] | apply Rle_refl].
Qed.
Lemma u_al : (U1 c : R) <> 0 /\ Ld <> 0.
Proof.
  destruct RadauWitness2.const_bounds as (u & al & be & Eu & Ea & Eb & Hu & HD & _). unfold Ld. rewrite Ea, Eb. change (car Rnum) with R in *. rewrite Eu. split; [lra|exact HD].
Qed.
Lemma fcW_eq k : (1 <= k <= 3)%Z -> rsum 1 3 (fun l => Lambda_of c k l / 1 * fcW l 1%Z) = fcG k.
Proof.
  intros Hk. destruct u_al as [H1 H2]. rewrite rsum3. unfold fcW. generalize (fcG 1) (fcG 2) (fcG 3) (fcG k) (fun H : k = 1%Z => f_equal fcG H) (fun H : k = 2%Z => f_equal fcG H) (fun H : k = 3%Z => f_equal fcG H).
  intros g1 g2 g3 g E1 E2 E3. unfold Lambda_of, three. cbn [Z.eqb Pos.eqb]. unfold Ld in *.
  generalize dependent (U1 c : R). generalize dependent (ALPH c : R). generalize dependent (BETA c : R). intros be al H2 u H1.
  assert (Hc : (k = 1 \/ k = 2 \/ k = 3)%Z) by lia. destruct Hc as [->|[->| ->]]; cbn [Z.eqb Pos.eqb].
  - rewrite (E1 eq_refl). field. split; [exact H2|exact H1].
  - rewrite (E2 eq_refl). field. split; [exact H2|exact H1].
  - rewrite (E3 eq_refl). field. split; [exact H2|exact H1].
Qed.
Lemma fixed_case : exists W V a b d m,
  newton_iter (rd_method c) 1 (fun t _ _ => t) (fun _ _ => 0) 0 1 (fun _ => 0) W V (fun _ _ => 0) W V /\
  (forall k, (1 <= k <= 3)%Z -> V k 1%Z = trans (T_of c) W k 1%Z) /\
  (forall k, (1 <= k <= 3)%Z -> cubic a b d (nodes_of c k) = V k 1%Z) /\
  Rabs a <= m /\ Rabs b <= m /\ Rabs d <= m /\
  (forall k, (1 <= k <= 3)%Z -> Rabs (W k 1%Z) <= m /\ Rabs (1 * nodes_of c k) <= m).
Proof.
  destruct nodes_ok as (H1 & H2 & _).
  destruct (cubic_through (C1 c) (C2 c) (fcV 1%Z 1%Z) (fcV 2%Z 1%Z) (fcV 3%Z 1%Z) H1 H2) as (a & b & d & E1 & E2 & E3).
  destruct (max6 (Rabs a) (Rabs b) (Rabs d) (Rabs (fcW 1%Z 1%Z)) (Rabs (fcW 2%Z 1%Z)) (Rabs (fcW 3%Z 1%Z))) as (m1 & A1 & A2 & A3 & A4 & A5 & A6).
  exists fcW, fcV, a, b, d, (Rmax m1 1).
  pose proof (Rmax_l m1 1). pose proof (Rmax_r m1 1).
  split; [|split; [|split]].
  - split; [|split].
    + intros k i Hk Hi. cbn [m_L m_TI m_c rd_method].
      replace i with 1%Z by lia. unfold trans. rewrite (fcW_eq k Hk). unfold fcG, matvec. rewrite !rsum3. rewrite rsum_zero by (intros; ring). change (car Rnum) with R. generalize (nodes_of c 1) (nodes_of c 2) (nodes_of c 3) (TI_of c k 1) (TI_of c k 2) (TI_of c k 3). intros. ring.
    + intros k i Hk. ring.
    + intros k i Hk. reflexivity.
  - reflexivity.
  - intros k Hk. assert (Hc : (k = 1 \/ k = 2 \/ k = 3)%Z) by lia. destruct Hc as [->|[->| ->]]; assumption.
  - split; [lra|]. split; [lra|]. split; [lra|]. intros k Hk. split.
    + assert (Hc : (k = 1 \/ k = 2 \/ k = 3)%Z) by lia. destruct Hc as [->|[->| ->]]; lra.
    + apply Rabs_le. assert (Hc : (k = 1 \/ k = 2 \/ k = 3)%Z) by lia. unfold nodes_of, three. destruct Hc as [->|[->| ->]]; cbn [Z.eqb Pos.eqb]; change (car Rnum) with R in *; lra.
Qed.

Definition sc_v (x : R) : Z -> Rnum := fun _ => x.
Definition sc_w : @wrk Rnum unit unit :=
  mkWrk tt tt (sc_v 0) (sc_v 0) (sc_v 0) (sc_v (C1 c)) (sc_v (C2 c)) (sc_v 1) (sc_v 0) (sc_v 0) (sc_v 0) (sc_v 0) (sc_v 0) (sc_v 0) (0 : R) (0 : R) (0 : R) 0.
Lemma start_case : exists (w : @wrk Rnum unit unit) a b d q,
  0 < q /\ (forall i, cubic a b d (C1 c) = k_Z1 w i /\ cubic a b d (C2 c) = k_Z2 w i /\ cubic a b d 1 = k_Z3 w i) /\
  forall i k, (1 <= k <= 3)%Z ->
    @k_start Rnum unit unit rd_const (k_save rd_const w) (nodes_of rd_const k * q) i <>
    cubic a b d (1 + nodes_of c k * q) - cubic a b d 1.
Proof.
  exists sc_w, 1, 0, 0, 1. split; [lra|].
  assert (HQ : forall i, cubic 1 0 0 (C1 c) = k_Z1 sc_w i /\ cubic 1 0 0 (C2 c) = k_Z2 sc_w i /\ cubic 1 0 0 1 = k_Z3 sc_w i).
  { intros i. unfold sc_w, sc_v, cubic. cbn [k_Z1 k_Z2 k_Z3]. change (car Rnum) with R. repeat split; ring. }
  split; [exact HQ|]. intros i k Hk. destruct (HQ i) as (E1 & E2 & E3). destruct nodes_ok as (H1 & H2 & _). apply start_wrong; try assumption.
  - cbn [sc_w k_Z1]. unfold sc_v. change (car Rnum) with R in *. intros N. lra.
  - rewrite Rmult_1_r. assert (Hc : (k = 1 \/ k = 2 \/ k = 3)%Z) by lia. unfold nodes_of, three. destruct Hc as [->|[->| ->]]; cbn [Z.eqb Pos.eqb]; change (car Rnum) with R in *; lra.
Qed.
Lemma start_some (Sg La : Type) (w : @wrk Rnum Sg La) q i :
  exists p1 p2 p3, let P t := k_Z1 w i / (1 - C1 c) + p1 * t + p2 * t ^ 2 + p3 * t ^ 3 in
    P (C1 c) = k_Z1 w i /\ P (C2 c) = k_Z2 w i /\ P 1 = k_Z3 w i /\
    forall k, (1 <= k <= 3)%Z ->
      @k_start Rnum Sg La rd_const (k_save rd_const w) (nodes_of rd_const k * q) i = P (1 + nodes_of c k * q) - P 1.
Proof.
  destruct (start_cubic Sg La c eq_refl (k_save c w) (three (k_Z1 w) (k_Z2 w) (k_Z3 w)) q i (saved_save w)) as (p1 & p2 & p3 & H).
  exists p1, p2, p3. cbv zeta in *.
  split; [exact (proj1 (H 1%Z ltac:(lia)))|]. split; [exact (proj1 (H 2%Z ltac:(lia)))|]. split; [exact (proj1 (H 3%Z ltac:(lia)))|].
  intros k Hk. exact (proj2 (H k Hk)).
Qed.
Lemma run_all (Sg La : Type)
    (userF : Sg -> R -> (Z -> R) -> Sg * (Z -> R))
    (userJ : Sg -> R -> (Z -> R) -> (Z -> R) -> (Z -> R) -> Sg * (Z -> R))
    (decomr : La -> R -> (Z -> R) -> out (La * (Z -> R))) (decomc : La -> R -> R -> (Z -> R) -> out La)
    (solvereal : La -> (Z -> R) -> (Z -> R) -> out (Z -> R))
    (solvecomplex : La -> (Z -> R) -> (Z -> R) -> (Z -> R) -> out ((Z -> R) * (Z -> R)))
    (set_calhes : La -> La) n sh (numjac : bool) (atol rtol : Z -> R) nit (thet fnewt : R) nfuel
    (f : R -> (Z -> R) -> Z -> R) (Ju : R -> (Z -> R) -> Z -> Z -> R) :
  (forall s t y k, snd (userF s t y) k = f t y k) ->
  (forall s t y fy j i k, in_full n i k -> sh_mat n sh (snd (userJ s t y fy j)) i k = Ju t y i k) ->
  forall holds, calgebra La decomr decomc solvereal solvecomplex set_calhes n sh holds ->
  (1 <= n)%Z -> shape_ok sh -> (1 <= nit)%Z ->
  forall (o : dopts Rnum) (x0 : R) (y0 : Z -> R) (xend : R) fuel ifuel (w : @wrk Rnum Sg La) (h : R) a b d e e',
  pc (radau (@k_jacob Rnum Sg La userF userJ set_calhes n sh numjac) (@k_mats Rnum Sg La decomr decomc rd_const)
            (@k_evalF Rnum Sg La userF) (@k_doscal Rnum Sg La atol rtol)
            (@k_newton Rnum Sg La userF solvereal solvecomplex n rd_const nit thet fnewt nfuel)
            (@k_estrad Rnum Sg La userF solvereal n rd_const) (@k_adv Rnum Sg La) (@k_save Rnum Sg La rd_const)
            o fuel ifuel w h x0 xend y0 a b d e e')
    (fun st => exists s,
       radau_run (rd_method rd_const) n f nit (Rabs thet) fnewt (fun y i => atol i + rtol i * Rabs (y i))
         (jac_used n sh numjac f Ju) x0 y0 (k_faccon w) (map event (q_hist st)) s /\
       q_Y st = r_y s /\ (d_onestep o = false -> q_x st = r_x s)).
Proof.
  intros Hf HJ holds Ha Hn Hs Hnit o x0 y0 xend fuel ifuel w h a b d e e'.
  exact (run_in Sg La userF userJ decomr decomc solvereal solvecomplex set_calhes n sh numjac rd_const atol rtol nit thet fnewt nfuel f Ju Hf HJ holds Ha Hn Hs Hnit eq_refl
    o x0 y0 (k_faccon w) xend _ _ fuel ifuel w h a b d e e' eq_refl eq_refl eq_refl).
Qed.
Lemma run_case nit fnewt o fuel ifuel a b d e e' : (2 <= nit)%Z -> 0 < fnewt -> d_onestep o = false -> (0 <= d_nmax o)%Z ->
  calgebra rg_La rg_decomr rg_decomc rg_sr rg_sc (fun la => la) 1 Full (fun _ jac M => M = mat_ge 1 jac) /\
  exists st, rg_radau nit fnewt o (S fuel) (S ifuel) rg_w (1 : R) (0 : R) (1 : R) (fun _ => 0) a b d e e' = Ok st /\
    q_x st = 1 /\ map event (q_hist st) = (0, 1, true, Some true) :: nil /\
    exists s, radau_run (rd_method rd_const) 1 (fun t y _ => spike t y) nit (Rabs (1 / 1000)) fnewt (fun y i => 1 + 0 * Rabs (y i))
         (jac_used 1 Full false (fun t y _ => spike t y) (fun _ _ _ _ => 0)) 0 (fun _ => 0) 1 (map event (q_hist st)) s /\ r_x s = 1.
Proof.
  intros Hn Hf Ho Hm. split; [exact rg_algebra|].
  destruct (still_run nit fnewt o fuel ifuel a b d e e' Hn Hf Ho Hm) as (st & E & _ & _ & Hx & _ & Hh).
  exists st. split; [exact E|]. split; [exact Hx|]. split; [rewrite Hh; reflexivity|].
  pose proof (run_all _ _ (@countF Rnum unit spikeF) (@countJ Rnum unit flatJ) rg_decomr rg_decomc rg_sr rg_sc (fun la => la) 1 Full false (fun _ => 1) (fun _ => 0) nit (1 / 1000) fnewt 10
    (fun t y _ => spike t y) (fun _ _ _ _ => 0) (fun _ _ _ _ => eq_refl) (fun _ _ _ _ _ _ _ _ => eq_refl) _ rg_algebra ltac:(lia) Logic.I ltac:(lia) o 0 (fun _ => 0) 1 (S fuel) (S ifuel) rg_w 1 a b d e e') as HR.
  unfold rg_radau in E. cbv beta in HR. rewrite E in HR. destruct HR as (s & H1 & _ & H2). exists s. split; [exact H1|]. rewrite <- (H2 Ho). exact Hx.
Qed.
Lemma count_case nit fnewt o fuel ifuel a b d e e' : (2 <= nit)%Z -> 0 < fnewt -> d_onestep o = false -> (0 <= d_nmax o)%Z ->
  exists st, rg_radau nit fnewt o (S fuel) (S ifuel) rg_w (1 : R) (0 : R) (1 : R) (fun _ => 0) a b d e e' = Ok st /\
    snd (k_f rg_w) = 0%Z /\ k_nfc rg_w = 0%Z /\ snd (k_f (q_w st)) = 5%Z /\ k_nfc (q_w st) = 4%Z.
Proof.
  intros Hn Hf Ho Hm. destruct (still_run nit fnewt o fuel ifuel a b d e e' Hn Hf Ho Hm) as (st & E & H1 & H2 & _).
  exists st. split; [exact E|]. split; [reflexivity|]. split; [reflexivity|]. split; assumption.
Qed.
Lemma count_all (K : num) (Sg La : Type) userF userJ decomr decomc solvereal solvecomplex set_calhes n sh numjac cc atol rtol nit thet fnewt nfuel :
  (1 <= n)%Z -> forall (o : dopts K) fuel ifuel (w : @wrk K (Sg * Z) La) h x xend Y a b d e e',
  snd (k_f w) = 0%Z -> k_nfc w = 0%Z ->
  pc (radau (k_jacob (countF userF) (countJ userJ) set_calhes n sh numjac) (k_mats decomr decomc cc) (k_evalF (countF userF)) (k_doscal atol rtol)
        (k_newton (countF userF) solvereal solvecomplex n cc nit thet fnewt nfuel) (k_estrad (countF userF) solvereal n cc) (@k_adv K _ La) (k_save cc)
        o fuel ifuel w h x xend Y a b d e e')
    (fun st => k_nfc (q_w st) <= snd (k_f (q_w st)) <= k_nfc (q_w st) + Z.of_nat (Datatypes.length (filter tested (q_hist st))))%Z.
Proof.
  intros Hn o fuel ifuel w h x xend Y a b d e e' E1 E2. eapply pc_mono; [apply run_calls; exact Hn|].
  intros st H. unfold excess, tests in H. rewrite E1, E2 in H. lia.
Qed.
