(* The driver of Radau5 in IEEE double precision: the invariant of the loop. *)
From Coq Require Import Reals Lra List.
From Flocq Require Import Core BinarySingleNaN.
From Verif Require Import Base HessModel CMacros RodasProofs RadauModel RadauProofs F64 StepF64 RodasF64 RadauF64.
Open Scope R_scope.

Section D.
Variable pow : f64 -> f64 -> f64.
Notation K := (F64 pow).
Notation one := (f_lit 1 0).
Variable W : Type.
Variable jacob : W -> f64 -> (Z -> f64) -> out W.
Variable mats : W -> f64 -> out W.
Variable evalF : W -> f64 -> (Z -> f64) -> W.
Variable doscal : W -> (Z -> f64) -> W.
Variable newton : W -> bool -> f64 -> f64 -> f64 -> (Z -> f64) -> out (W * nres K).
Variable estrad : W -> f64 -> f64 -> (Z -> f64) -> bool -> bool -> out (W * f64).
Variable adv : W -> (Z -> f64) -> (Z -> f64).
Variable save : W -> W.
Variable o : dopts K.
Variables x0 e : f64.
Hypothesis Fx0 : fin x0.
Hypothesis Fe : fin e.
Hypothesis Hx0 : 0 <= v x0 < v e.
Hypothesis Hmax : v e <= bpow radix2 1020.
Hypothesis Fsafe : fin (d_safe o).
Hypothesis Hsafe : 0 < v (d_safe o) <= 1.
Hypothesis Hnit : (1 <= d_nit o <= 2 ^ 50)%Z.
Hypothesis Hq1 : d_quot1 o = one.
Hypothesis Fq2 : fin (d_quot2 o).
Hypothesis Hone : d_onestep o = false.
(* the Newton iteration makes the step smaller, if it changes it *)
Definition shrinks (h h' : f64) : Prop := (nan h -> nan h') /\ (fin h -> 0 <= v h -> nan h' \/ (fin h' /\ 0 <= v h' <= v h)).
Definition newton_ok (h : f64) (r : nres K) : Prop :=
  (0 <= nr_newt r <= d_nit o)%Z /\
  match nr_reason r with converged => True | willNotConverge => shrinks h (nr_h r) | didNotConverge => nr_h r = h end.
Hypothesis Hnewton : forall w z x h hold Y, pc (newton w z x h hold Y) (fun p => newton_ok h (snd p)).
Notation dst := (@dst K W).
Notation D0 := (nsub (n := K) e x0).
Notation pass_ := (d_newton (K := K) jacob mats doscal newton).
Notation control := (d_control (K := K) jacob mats evalF doscal estrad adv save o e one D0).
Notation loop := (d_loop (K := K) jacob mats evalF doscal newton estrad adv save o e one D0).

(* the upper end: e itself if differences e - x are exact *)
Variable T : f64.
Hypothesis HT : (T = e /\ v e <= 2 * v x0) \/ (T = Bsucc e /\ ~ v e <= 2 * v x0).
Lemma He : 0 < v e. Proof. lra. Qed.
Lemma T_val : v e <= v T <= v (Bsucc e).
Proof. destruct (succ_fin e Fe He Hmax) as [_ VS]. pose proof (u_pos e). destruct HT as [[-> _]|[-> _]]; lra. Qed.
Definition goodx (x : f64) : Prop := fin x /\ v x0 <= v x <= v e.
Definition goodh (x h : f64) : Prop := fin h /\ 0 <= v h /\ rnd (v x + v h) <= v T.
Definition at_end (a : R) : Prop := v (Bpred e) <= a /\ (v e <= 2 * v x0 -> a = v e).
Definition dnc (l : list (pass K)) : Prop := exists p, In p l /\ g_reason p = didNotConverge.
Definition hist_ok (l : list (pass K)) : Prop := forall p, In p l -> goodx (g_x p) /\ goodh (g_x p) (g_h p).
Definition newt_ok (st : dst) : Prop := (0 <= q_newt st <= d_nit o)%Z.
Definition J (st : dst) : Prop := newt_ok st /\
  ((q_last st = false /\ (nan (q_x st) \/ nan (q_h st))) \/
   (goodx (q_x st) /\ goodh (q_x st) (q_h st) /\ hist_ok (q_hist st) /\ (q_last st = true -> at_end (rnd (v (q_x st) + v (q_h st))) \/ dnc (q_hist st)))).
Definition M (st : dst) : Prop := newt_ok st /\ exists p l, q_hist st = p :: l /\ g_x p = q_x st /\
  ((q_last st = false /\ (nan (q_x st) \/ (nan (g_h p) /\ nan (q_h st)))) \/
   (goodx (q_x st) /\ goodh (q_x st) (q_h st) /\ goodh (q_x st) (g_h p) /\ hist_ok (q_hist st) /\ (q_last st = true -> at_end (rnd (v (q_x st) + v (g_h p))) \/ dnc (q_hist st)))).
Definition Q (st : dst) : Prop := (fin (q_x st) /\ v x0 <= v (q_x st) <= v T) /\ hist_ok (q_hist st) /\
  (at_end (v (q_x st)) \/ close e (v (q_x st)) \/ dnc (q_hist st)).
Lemma shrink_good x h h' : goodh x h -> fin h' -> 0 <= v h' <= v h -> goodh x h'.
Proof. intros (A & B & C) F L. split; [exact F|]. split; [lra|]. apply Rle_trans with (2 := C). apply rnd_le. lra. Qed.
Lemma lit_shrinks (c h : f64) : fin c -> 0 <= v c <= 1 -> fin h -> 0 <= v h -> fin (nmul (n := K) h c) /\ 0 <= v (nmul (n := K) h c) <= v h.
Proof.
  intros Fc Vc Fh Ph. assert (M1 : 0 <= v h * v c <= v h). { split; [apply Rmult_le_pos; lra|]. rewrite <- (Rmult_1_r (v h)) at 2. apply Rmult_le_compat_l; lra. }
  assert (R : 0 <= rnd (v h * v c) <= v h). { split; [rewrite <- rnd_0; apply rnd_le|apply rnd_upper]; lra. }
  destruct (mul_rnd pow h c (B754_zero false) h Fh Fc R) as [A B]. split; [exact A|]. rewrite B. exact R.
Qed.
Lemma half_val : fin (f_lit 5 (-1)) /\ 0 <= v (f_lit 5 (-1)) <= 1.
Proof.
  destruct (val_of (f_lit 5 (-1)) 4503599627370496 (-53)) as [A B]; [vm_compute; reflexivity|]. split; [exact A|]. rewrite B.
  change (bpow radix2 (-53)) with (/ IZR (2 ^ 53)). change (2 ^ 53)%Z with 9007199254740992%Z. lra.
Qed.
Lemma dnc_cons p l : dnc l -> dnc (p :: l). Proof. intros (q & A & B). exists q. split; [right; exact A|exact B]. Qed.
Lemma pass_f st : J st -> pc (pass_ st) (fun st' => if q_redo st' then J st' else M st').
Proof.
  intros [HN HJ]. unfold d_newton. pose proof (Hnewton (q_w st) (q_first st) (q_x st) (q_h st) (q_hold st) (q_Y st)) as HW.
  destruct (newton _ _ _ _ _ _) as [[w r]| | |]; cbn [bind pc]; try exact I. cbn [pc snd] in HW. destruct HW as [HW1 HW2].
  assert (Z0 : (0 <= 0 <= d_nit o)%Z) by lia.
  destruct (nr_reason r) eqn:Er.
  - cbn [pc q_redo]. unfold M, newt_ok. cbn [q_newt q_hist q_x q_h q_last]. split; [exact HW1|]. do 2 eexists. split; [reflexivity|]. cbn [g_x g_h]. split; [reflexivity|].
    destruct HJ as [[L [N|N]]|(G1 & G2 & G3 & G4)]; [left; auto..|right]. do 2 (split; [assumption|]). split; [exact G2|]. split.
    + intros p [<-|Hp]; [cbn [g_x g_h]; split; assumption|exact (G3 p Hp)].
    + intros L. destruct (G4 L) as [A|A]; [left; exact A|right; now apply dnc_cons].
  - (* will not converge *)
    destruct (d_refresh _ _ _ _ _ _ _ _) as [[w' nj]| | |]; cbn [bind pc]; try exact I. cbn [q_redo]. unfold J, newt_ok. cbn [q_newt q_hist q_x q_h q_last]. split; [exact Z0|].
    destruct HJ as [[L [N|N]]|(G1 & G2 & G3 & G4)].
    + left. auto.
    + left. split; [reflexivity|right]. exact (proj1 HW2 N).
    + destruct (proj2 HW2 (proj1 G2) (proj1 (proj2 G2))) as [A|(B & C)]; [left; auto|right]. split; [exact G1|]. split; [eapply shrink_good; [exact G2|exact B|exact C]|].
      split; [|discriminate]. intros p [<-|Hp]; [cbn [g_x g_h]; split; assumption|exact (G3 p Hp)].
  - (* did not converge *)
    destruct (d_refresh _ _ _ _ _ _ _ _) as [[w' nj]| | |]; cbn [bind pc]; try exact I. cbn [q_redo]. rewrite HW2.
    set (h' := nmul (n := K) (q_h st) (nlit (n := K) 5 (-1))).
    assert (HD : dnc (mkPass (q_x st) (q_h st) didNotConverge h' None :: q_hist st)). { eexists. split; [left; reflexivity|reflexivity]. }
    assert (G : newt_ok st -> (q_last st = false /\ (nan (q_x st) \/ (nan (q_h st) /\ nan h'))) \/
      (goodx (q_x st) /\ goodh (q_x st) h' /\ goodh (q_x st) (q_h st) /\ hist_ok (mkPass (q_x st) (q_h st) didNotConverge h' None :: q_hist st))).
    { intros _. destruct HJ as [[L [N|N]]|(G1 & G2 & G3 & G4)].
      - left. auto.
      - left. split; [exact L|right]. split; [exact N|]. unfold h'. rewrite N. apply nan_mul_l.
      - right. destruct half_val as [FH VH]. destruct (lit_shrinks (f_lit 5 (-1)) (q_h st) FH VH (proj1 G2) (proj1 (proj2 G2))) as [A B].
        split; [exact G1|]. split; [eapply shrink_good; [exact G2|exact A|exact B]|]. split; [exact G2|].
        intros p [<-|Hp]; [cbn [g_x g_h]; split; assumption|exact (G3 p Hp)]. }
    specialize (G HN). destruct (q_redo st); unfold J, M, newt_ok; cbn [q_newt q_hist q_x q_h q_last]; (split; [exact Z0|]).
    + destruct G as [(A & [B|[_ B]])|(A & B & _ & D)]; [left; auto..|right]. do 3 (split; [assumption|]). intros _. right. exact HD.
    + do 2 eexists. split; [reflexivity|]. cbn [g_x g_h]. split; [reflexivity|]. destruct G as [(A & B)|(A & B & C & D)]; [left; auto|right]. do 4 (split; [assumption|]). intros _. right. exact HD.
Qed.
Lemma mark_hist b l : hist_ok l -> hist_ok (mark b l).
Proof. intros H p Hp. destruct l as [|q l]; [destruct Hp|]. cbn [mark] in Hp. destruct Hp as [<-|Hp]; [exact (H q (or_introl eq_refl))|exact (H p (or_intror Hp))]. Qed.
Lemma mark_dnc b l : dnc l -> dnc (mark b l).
Proof. intros (p & Hp & Er). destruct l as [|q l]; [destruct Hp|]. cbn [mark]. destruct Hp as [<-|Hp]; [eexists; split; [left; reflexivity|exact Er]|exists p; split; [right; exact Hp|exact Er]]. Qed.
Lemma D0_ok : fin D0 /\ 0 <= v D0 <= v e.
Proof. destruct (D_val pow x0 e Fx0 Fe) as (A & _ & B); try lra. split; assumption. Qed.
Lemma one_times (x : f64) : fin x -> fin (nmul (n := K) one x) /\ v (nmul (n := K) one x) = v x.
Proof.
  intros Fx. destruct one_val as [F1 V1]. assert (E : rnd (v one * v x) = v x) by (rewrite V1, Rmult_1_l; apply rnd_v).
  destruct (mul_rnd pow one x x x F1 Fx) as [A B]; [rewrite E; lra|]. split; [exact A|]. now rewrite B.
Qed.
Lemma div_one (x : f64) : fin x -> fin (ndiv (n := K) x one) /\ v (ndiv (n := K) x one) = v x.
Proof.
  intros Fx. destruct one_val as [F1 V1]. assert (E : rnd (v x / v one) = v x) by (rewrite V1; unfold Rdiv; rewrite Rinv_1, Rmult_1_r; apply rnd_v).
  destruct (div_rnd pow x one x x Fx) as [A B]; [lra|rewrite E; lra|]. split; [exact A|]. now rewrite B.
Qed.
Lemma nan_le_r x : nleb (n := K) x (B754_nan : f64) = false. Proof. destruct x as [| | |[]]; reflexivity. Qed.
Lemma nan_mul_r x : nmul (n := K) x (B754_nan : f64) = B754_nan. Proof. destruct x; reflexivity. Qed.
Lemma nan_sub_r x : nsub (n := K) x (B754_nan : f64) = B754_nan. Proof. destruct x; reflexivity. Qed.
Lemma nan_le_l x : nleb (n := K) (B754_nan : f64) x = false. Proof. destruct x as [| | |[]]; reflexivity. Qed.
Lemma diff_nan (a : f64) : mABS_diff (K := K) a (B754_nan : f64) = B754_nan. Proof. unfold mABS_diff. destruct a as [[]|[]| |[]]; reflexivity. Qed.
(* the step proposed after an accepted one *)
Lemma proposed (hn h x : f64) (rej : bool) : goodh x h -> goodx x ->
  let h1 := nmul (n := K) one (mMIN (K := K) (mABS (K := K) hn) D0) in
  let h2 := if rej then nmul (n := K) one (mMIN (K := K) (mABS (K := K) h1) (mABS (K := K) h)) else h1 in
  fin h2 /\ 0 <= v h2 <= v (Bsucc e).
Proof.
  cbv zeta. intros (Fh & Ph & Bh) (Fx & Bx). destruct D0_ok as [FD VD]. pose proof T_val as TV.
  destruct (capped pow hn D0 FD (proj1 VD)) as [F1 V1]. destruct (one_times _ F1) as [F2 V2]. destruct rej.
  - rewrite (abs_pos pow h Fh Ph). destruct (capped pow (nmul (n := K) one (mMIN (K := K) (mABS (K := K) hn) D0)) h Fh Ph) as [F3 V3]. destruct (one_times _ F3) as [F4 V4].
    split; [exact F4|]. rewrite V4. assert (v h <= rnd (v x + v h)) by (apply rnd_lower; lra). lra.
  - split; [exact F2|]. rewrite V2. lra.
Qed.
Lemma after_reject st err : nltb (n := K) err one = false -> newt_ok st -> goodh (q_x st) (q_h st) ->
  let fac := mMIN (K := K) (d_safe o) (ndiv (n := K) (d_cfac o) (nlit (n := K) (q_newt st + 2 * d_nit o) 0)) in
  let quot := mMAX (K := K) (d_FACR (K := K)) (mMIN (K := K) (d_FACL (K := K)) (ndiv (n := K) (nsqrt (n := K) (nsqrt (n := K) err)) fac)) in
  let h := if q_first st then nmul (n := K) (q_h st) (nlit (n := K) 1 (-1)) else ndiv (n := K) (q_h st) quot in
  nan h \/ goodh (q_x st) h.
Proof.
  cbv zeta. intros L HN G. pose proof (proj1 G) as Fh. pose proof (proj1 (proj2 G)) as Ph. destruct (q_first st).
  - right. destruct (tenth_val) as [FT VT]. destruct (lit_shrinks (f_lit 1 (-1)) (q_h st) FT) as [A B]; [lra|exact Fh|exact Ph|]. eapply shrink_good; [exact G|exact A|exact B].
  - destruct (quot_ge pow (d_safe o) (d_nit o) (q_newt st) err Fsafe Hsafe Hnit HN L) as [N|[Ff Vf]]; unfold d_cfac.
    + left. match type of N with nan ?q => set (quot := q) in * end. rewrite N. apply nan_div_r.
    + right. match type of Ff with fin ?q => set (quot := q) in * end.
      assert (I1 : 0 < / v quot <= 1). { split; [apply Rinv_0_lt_compat; lra|]. rewrite <- Rinv_1. apply Rinv_le_contravar; lra. }
      assert (Q0 : 0 <= v (q_h st) / v quot <= v (q_h st)). { unfold Rdiv. split; [apply Rmult_le_pos; lra|]. rewrite <- (Rmult_1_r (v (q_h st))) at 2. apply Rmult_le_compat_l; lra. }
      assert (Z0 : 0 <= rnd (v (q_h st) / v quot) <= v (q_h st)). { split; [rewrite <- rnd_0; apply rnd_le; lra|apply rnd_upper; lra]. }
      destruct (div_rnd pow (q_h st) quot (B754_zero false) (q_h st) Fh) as [A B]; [lra|exact Z0|]. eapply shrink_good; [exact G|exact A|rewrite B; exact Z0].
Qed.
Lemma control_f st : M st -> pc (control st (d_xph st)) (fun r => if snd r then Q (fst r) else J (fst r)).
Proof.
  intros (HN & p & l & El & Ep & HM). assert (EX : d_xph (K := K) st = nadd (n := K) (q_x st) (g_h p)). { unfold d_xph. rewrite El, Ep. reflexivity. }
  rewrite EX. clear EX. unfold d_control. destruct (estrad _ _ _ _ _ _) as [[w err]| | |]; cbn [bind pc]; try exact I. cbv zeta.
  cbn [nlit F64]. destruct (nltb (n := K) err one) eqn:Ee.
  2:{ (* rejected *)
    match goal with |- context [d_refresh _ _ _ _ _ ?h _ _] => set (h' := h) end.
    destruct (d_refresh _ _ _ _ _ _ _ _) as [[w' nj]| | |]; cbn [bind pc]; try exact I. cbn [snd fst]. unfold J, newt_ok. cbn [q_newt q_hist q_x q_h q_last]. split; [exact HN|].
    destruct HM as [(_ & [N|[_ N]])|(G1 & G2 & _ & G3 & _)].
    - left. auto.
    - left. split; [reflexivity|right]. unfold h'. destruct (q_first st); rewrite N; [apply nan_mul_l|apply nan_div_l].
    - destruct (after_reject st err Ee HN G2) as [A|A]; [left; split; [reflexivity|right; exact A]|right]. split; [exact G1|]. split; [exact A|]. split; [apply mark_hist; exact G3|discriminate]. }
  rewrite Hone, Hq1. set (x' := nadd (n := K) (q_x st) (g_h p)).
  match goal with |- context [mMIN (mABS ?h) D0] => set (hn := h) end.
  set (h1 := nmul (n := K) one (mMIN (K := K) (mABS (K := K) hn) D0)).
  set (h2 := if q_reject st then nmul (n := K) one (mMIN (K := K) (mABS (K := K) h1) (mABS (K := K) (q_h st))) else h1).
  match goal with |- context [q_last st || ?t] => set (test := t) end.
  match goal with |- context [nleb (f_lit 0 0) ?t] => set (stop := nleb (n := K) (f_lit 0 0) t) end.
  destruct HM as [(HL & N)|(G1 & G2 & G2' & G3 & G4)].
  { (* x is not a number *)
    assert (NX : x' = B754_nan). { unfold x'. destruct N as [N|[N _]]; rewrite N; [apply nan_add_l|apply nan_add_r]. }
    assert (Et : test = false). { unfold test. rewrite NX, diff_nan, nan_mul_r. apply nan_le_l. }
    assert (Es : stop = false). { unfold stop. rewrite NX, nan_add_l, nan_sub_l, nan_mul_l. apply nan_le_r. }
    rewrite HL, Et, Es. cbn [orb]. destruct (_ && _ && _)%bool; [|destruct (d_refresh _ _ _ _ _ _ _ _) as [[w' nj]| | |]; cbn [bind pc]; try exact I];
      cbn [snd fst pc]; unfold J, newt_ok; cbn [q_newt q_hist q_x q_h q_last]; (split; [exact HN|left; split; [reflexivity|left; exact NX]]). }
  pose proof T_val as TV. destruct G1 as [Fx Bx]. destruct G2' as (Fg & Pg & Bg).
  assert (BX : v x0 <= rnd (v (q_x st) + v (g_h p)) <= v T). { split; [apply rnd_lower; lra|exact Bg]. }
  destruct (add_rnd pow (q_x st) (g_h p) x0 T Fx Fg BX) as [FX VX]. fold x' in FX, VX. rewrite <- VX in BX, G4.
  destruct (q_last st || test)%bool eqn:ED.
  { (* the end *)
    cbn [snd fst pc]. unfold Q. cbn [q_newt q_hist q_x q_h q_last]. split; [split; assumption|]. split; [apply mark_hist; exact G3|].
    apply Bool.orb_prop in ED as [ED|ED].
    - destruct (G4 ED) as [A|A]; [left; exact A|right; right; apply mark_dnc; exact A].
    - destruct (Rle_lt_dec (v x') (v e)) as [C|C].
      + right. left. apply (test_close pow e Fe He x' FX); [lra|exact ED].
      + left. destruct HT as [[-> HE]|[-> HE]]; [lra|]. destruct (pred_fin e Fe He) as [_ VP]. pose proof (pred_le_id radix2 fe (v e)). split; [lra|]. intros H'. contradiction. }
  assert (Et : test = false) by (destruct (q_last st); [discriminate ED|exact ED]).
  assert (XE : v x' <= v e).
  { destruct (Rle_lt_dec (v x') (v e)) as [|C]; [assumption|]. pose proof (test_past pow e Fe He Hmax x' FX ltac:(lra)) as TP. unfold test in Et. cbn [nlit F64] in TP. congruence. }
  assert (GX : goodx x') by (split; [exact FX|lra]).
  assert (HP : fin h2 /\ 0 <= v h2 <= v (Bsucc e)). { apply (proposed hn (q_h st) (q_x st) (q_reject st) G2). split; [exact Fx|exact Bx]. }
  destruct HP as [F2 V2]. destruct (div_one h2 F2) as [FQ VQ].
  destruct stop eqn:Es.
  { destruct (d_refresh _ _ _ _ _ _ _ _) as [[w' nj]| | |]; cbn [bind pc]; try exact I. cbn [snd fst]. unfold J, newt_ok. cbn [q_newt q_hist q_x q_h q_last]. split; [exact HN|right].
    destruct (near pow e Fe He Hmax x' FX) as (Fd & N1 & N2 & N3); [lra|]. split; [exact GX|].
    split; [|split; [apply mark_hist; exact G3|intros _; left; split; [apply N1|intros H; apply N2; lra]]].
    split; [exact Fd|]. split; [exact (N3 XE)|]. destruct HT as [[-> HE]|[-> HE]]; [rewrite N2 by lra; lra|apply N1]. }
  assert (BE : rnd (v x' + v h2) < v e).
  { rewrite <- VQ. apply (before pow e Fe He Hmax x' _ FX FQ); [lra|lra|]. exact Es. }
  destruct (_ && _ && _)%bool eqn:EK.
  - cbn [snd fst pc]. unfold J, newt_ok. cbn [q_newt q_hist q_x q_h q_last]. split; [exact HN|right]. split; [exact GX|]. split; [|split; [apply mark_hist; exact G3|discriminate]].
    apply andb_prop in EK as [EK EK3]. apply andb_prop in EK as [EK EK2].
    assert (LE : v (q_h st) <= v h2).
    { destruct G2 as (A & B & _). apply (ratio_ge pow (q_h st) h2 A F2 B (proj1 V2) EK2).
      change (nleb (n := K) (ndiv (n := K) h2 (q_h st)) (d_quot2 o) = true) in EK3.
      destruct (ndiv (n := K) h2 (q_h st)) as [| [] | |]; try reflexivity; exfalso; [vm_compute in EK2; discriminate EK2| |]; destruct (d_quot2 o) as [|[]| |[]]; try discriminate Fq2; discriminate EK3. }
    eapply (shrink_good x' h2); [split; [exact F2|split; [lra|lra]]|apply G2|]. split; [apply G2|exact LE].
  - destruct (d_refresh _ _ _ _ _ _ _ _) as [[w' nj]| | |]; cbn [bind pc]; try exact I. cbn [snd fst]. unfold J, newt_ok. cbn [q_newt q_hist q_x q_h q_last]. split; [exact HN|right].
    split; [exact GX|]. split; [split; [exact F2|split; lra]|]. split; [apply mark_hist; exact G3|discriminate].
Qed.
Lemma posneg_one : d_posneg (K := K) x0 e = one. Proof. exact (posneg_one pow x0 e Fx0 Fe Hx0). Qed.
Lemma hmaxn_D0 : d_hmaxn (K := K) x0 e = D0. Proof. exact (hmaxn_D0 pow x0 e Fx0 Fe Hx0). Qed.
Lemma radau_T fuel ifuel w h Y a b c d g : pc (radau (K := K) jacob mats evalF doscal newton estrad adv save o fuel ifuel w h x0 e Y a b c d g) Q.
Proof.
  unfold radau. rewrite posneg_one, hmaxn_D0. cbv zeta.
  set (h1 := if nltb (n := K) (mABS h) (nlit 10 0 * rd_uround)%num then nlit 1 (-6) else h).
  destruct D0_ok as [FD VD]. destruct (capped pow h1 D0 FD (proj1 VD)) as [Fm Vm]. destruct (times_one pow _ Fm) as [Fq Vq].
  set (q := nmul (n := K) (mMIN (mABS h1) D0) one) in *.
  match goal with |- context [nltb n0 ?b] => set (stop := nltb (n := K) n0 b) end.
  destruct (jacob _ _ _) as [w1| | |]; cbn [bind pc]; try exact I. destruct (mats _ _) as [w2| | |]; cbn [bind pc]; try exact I.
  apply (@loop_rule K W jacob mats evalF doscal newton estrad adv save o e one D0 J M Q pass_f control_f).
  unfold J, newt_ok. cbn [q_newt q_hist q_x q_h q_last]. split; [lia|right].
  destruct (succ_fin e Fe He Hmax) as [_ VS]. pose proof (u_pos e) as UP. pose proof T_val as TV.
  destruct (near pow e Fe He Hmax x0 Fx0) as (Fd & N1 & N2 & N3); [lra|].
  split; [split; [exact Fx0|lra]|]. destruct stop eqn:Es.
  - split; [|split; [intros p []|intros _; left; split; [apply N1|exact N2]]]. split; [exact Fd|]. split; [apply N3; lra|].
    destruct HT as [[-> HE]|[-> HE]]; [rewrite N2 by lra; lra|apply N1].
  - destruct (not_past pow e Fe He Hmax x0 q Fx0 Fq) as (_ & _ & P); [lra|lra|exact Es|].
    split; [|split; [intros p []|discriminate]]. split; [exact Fq|]. lra.
Qed.
End D.
