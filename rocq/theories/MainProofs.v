(* C99: the loops of the driver programs. *)
From Coq Require Import ZArith Reals Lra Lia List Bool.
From Verif Require Import Base Spec HessModel RodasProofs SympModel SympProofs SympTabProofs MainModel RadauModel RadauWitness.
Import ListNotations.

(* ---- SymplecticRK/test/main.cc ---- *)
Lemma lit_year : Rlit 36525 (-2) = 365.25%R.
Proof. rewrite Rlit_div by lia. change (10 ^ (- -2))%Z with 100%Z. lra. Qed.
Section Time.
Open Scope R_scope.
Variable Obj : Type.
Variable step : Rnum -> bool -> Obj -> vec Rnum -> out (bool * Obj * vec Rnum).
Lemma loop_count fuel : forall (h bound : R) it first o u rows N o' u' rows',
  @sy_loop Rnum Obj step fuel h bound it first o u rows = Ok (N, o', u', rows') ->
  IZR it - 1 < bound \/ it = N -> bound <= IZR N /\ (IZR N - 1 < bound \/ it = N) /\ (it <= N)%Z /\ (Z.of_nat (Datatypes.length rows') - N = Z.of_nat (Datatypes.length rows) - it)%Z.
Proof.
  induction fuel as [|fuel IH]; intros h bound it first o u rows N o' u' rows' E Hi; cbn [sy_loop] in E; cbn [nltb nlit Rnum] in E; rewrite Rlit_0 in E; unfold Rltb in E; destruct (Rlt_dec (IZR it) bound) as [L|L].
  - discriminate E.
  - injection E as <- _ _ <-. split; [lra|]. split; [right; reflexivity|]. split; lia.
  - destruct (step h first o u) as [[[ok o1] u1]| | |]; try discriminate E. cbn [bind] in E. destruct ok; [|discriminate E].
    destruct (Z.eqb it 2147483647); [discriminate E|].
    destruct (IH h bound (it + 1)%Z first o1 u1 (u1 :: rows) N o' u' rows' E) as (A & B & C & D); [left; rewrite plus_IZR; lra|].
    split; [exact A|]. split; [left; destruct B as [B|B]; [exact B|rewrite <- B, plus_IZR; lra]|]. split; [lia|]. cbn [Datatypes.length] in D. lia.
  - injection E as <- _ _ <-. split; [lra|]. split; [right; reflexivity|]. split; lia.
Qed.
Lemma sym_time fuel (h years : R) o u N o' u' rows : 0 < h -> 0 < years ->
  @sy_main Rnum Obj step fuel h years o u = Ok (N, o', u', rows) ->
  Z.of_nat (Datatypes.length rows) = N /\ years * 365.25 * h * h <= IZR N * h < years * 365.25 * h * h + h.
Proof.
  intros Hh Hy E. unfold sy_main in E. assert (EB : @sy_bound Rnum years h = years * 365.25 * h).
  { unfold sy_bound. cbn [nmul nlit Rnum]. rewrite lit_year. reflexivity. }
  rewrite EB in E. assert (P : 0 < years * 365.25 * h) by (apply Rmult_lt_0_compat; [apply Rmult_lt_0_compat; lra|exact Hh]).
  destruct (loop_count _ _ _ _ _ _ _ _ _ _ _ _ E) as (A & B & C & D); [left; lra|]. cbn [Datatypes.length] in D. split; [lia|].
  set (T := years * 365.25 * h) in *. destruct B as [B|B]; [|rewrite <- B in A; lra]. split; [apply Rmult_le_compat_r; lra|].
  replace (T * h + h) with ((T + 1) * h) by ring. apply Rmult_lt_compat_r; lra.
Qed.
(* the loop ends when every step succeeds *)
Lemma loop_ends (h bound : R) (Hok : forall first o u, exists o' u', step h first o u = Ok (true, o', u')) (Hb : bound <= 2147483647) fuel :
  forall it first o u rows, (0 <= it)%Z -> bound <= IZR (it + Z.of_nat fuel) -> exists r, @sy_loop Rnum Obj step fuel h bound it first o u rows = Ok r.
Proof.
  induction fuel as [|fuel IH]; intros it first o u rows Hi HB; cbn [sy_loop]; cbn [nltb nlit Rnum]; rewrite Rlit_0; unfold Rltb; destruct (Rlt_dec (IZR it) bound) as [L|L]; try (eexists; reflexivity).
  - exfalso. rewrite Z.add_0_r in HB. lra.
  - destruct (Hok first o u) as (o1 & u1 & ->). cbn [bind]. destruct (Z.eqb_spec it 2147483647) as [->|_]; [exfalso; lra|].
    apply IH; [lia|]. replace (it + 1 + Z.of_nat fuel)%Z with (it + Z.of_nat (S fuel))%Z by lia. exact HB.
Qed.
End Time.

Open Scope R_scope.
(* h = 1/2, 200 years: 36525 steps, 50 years *)
Lemma sym_short : exists (h years : R), 0 < h /\ 0 < years /\ forall Obj (step : Rnum -> bool -> Obj -> vec Rnum -> out (bool * Obj * vec Rnum)),
  (forall first o u, exists o' u', step h first o u = Ok (true, o', u')) -> forall o u, exists fuel N o' u' rows,
  @sy_main Rnum Obj step fuel h years o u = Ok (N, o', u', rows) /\ IZR N * h <= years * 365.25 / 4 + 1.
Proof.
  exists (1 / 2), 200. split; [lra|]. split; [lra|]. intros Obj step Hok o u. exists (Z.to_nat 40000).
  destruct (loop_ends Obj step (1 / 2) (@sy_bound Rnum 200 (1 / 2)) Hok) with (fuel := Z.to_nat 40000) (it := 0%Z) (first := true) (o := o) (u := u) (rows := @nil (vec Rnum)) as ([[[N o'] u'] rows] & E).
  - unfold sy_bound. cbn [nmul nlit Rnum]. rewrite lit_year. lra.
  - lia.
  - rewrite Z2Nat.id by lia. change (0 + 40000)%Z with 40000%Z. unfold sy_bound. cbn [nmul nlit Rnum]. rewrite lit_year. lra.
  - exists N, o', u', rows. split; [exact E|]. destruct (sym_time Obj step _ (1 / 2) 200 o u N o' u' rows ltac:(lra) ltac:(lra) E) as [_ H]. lra.
Qed.

(* ---- the extrapolation is never used ---- *)
Section First.
Context {K : num}.
Variables n s : Z.
Variable long : bool.
Variable nar : K -> K.
Variable f : vec K -> vec K.
Variables ta tb : Z -> K.
Notation obj := (@obj K).
Definition no_q (o : obj) : obj := mkObj (ov o) (oY o) (oY1 o) (odelta o) (oe o) (oa o) (oiter o) (oldh o) (oga o) (ogb o) (fun _ => nlit 0 0) (otv o) (otvold o) (onev o).
Definition same (r r' : out (bool * obj * vec K)) : Prop :=
  match r, r' with
  | Ok (b, o, u), Ok (b', o', u') => b = b' /\ no_q o = no_q o' /\ u = u'
  | Throw a, Throw a' => a = a' | UB a, UB a' => a = a' | Diverge, Diverge => True
  | _, _ => False
  end.
Lemma forM_tot {A} lo hi (g : Z -> A -> out A) : (forall i a, (lo <= i <= hi)%Z -> exists a', g i a = Ok a') -> forall a, exists a', forM lo hi g a = Ok a'.
Proof.
  intros H a. assert (P : wp (forM lo hi g a) (fun _ => True)).
  { destruct (Z_le_gt_dec lo (hi + 1)) as [Hl|Hl].
    - apply (forM_ind (fun _ _ => True)); [exact Hl|exact I|]. intros i b Hi _. destruct (H i b ltac:(lia)) as (a' & ->). exact I.
    - rewrite forM_empty by lia. exact I. }
  apply wp_ok in P. destruct P as (a' & E & _). eauto.
Qed.
Lemma scale_tot sz t h : exists q, @scale K sz t h = Ok q.
Proof.
  unfold scale. apply forM_tot. intros i a Hi. unfold rd, wr, inb. replace ((0 <=? i) && (i <=? sz - 1))%Z with true by (symmetry; apply andb_true_iff; lia). cbn [bind]. eexists. reflexivity.
Qed.
Lemma same_step tq tq' itermax h (o o' : obj) u : no_q o = no_q o' ->
  same (SympModel.step n s long nar f ta tb tq itermax h true o u) (SympModel.step n s long nar f ta tb tq' itermax h true o' u).
Proof.
  destruct o, o'. intros E. injection E as <- <- <- <- <- <- <- <- <- <- <- <- <-.
  unfold SympModel.step. cbn [SympModel.oldh SympModel.oY SympModel.oY1 SympModel.ov SympModel.otv SympModel.otvold SympModel.onev SympModel.oga SympModel.ogb SympModel.oq SympModel.odelta SympModel.oe SympModel.oa negb andb]. cbv zeta.
  assert (T : forall (ga gb q q' : vec K) oh,
    same ('(oh, ga, gb, q) <- Ok (oh, ga, gb, q) ;;
       Y <- spread n s oY u ;;
       '(ok, it, v, Y, Y1, tv, tvold, nev) <- iterate n s long f (Z.to_nat itermax) 0 ga u ov Y oY1 otv otvold onev ;;
       if ok : bool then '(delta, a, e, u) <- finish n s nar gb Y1 odelta oa oe u ;; Ok (true, mkObj v Y Y1 delta e a it oh ga gb q tv tvold nev, u)
       else Ok (false, mkObj v Y Y1 odelta oe oa it oh ga gb q tv tvold nev, u))
      ('(oh, ga, gb, q) <- Ok (oh, ga, gb, q') ;;
       Y <- spread n s oY u ;;
       '(ok, it, v, Y, Y1, tv, tvold, nev) <- iterate n s long f (Z.to_nat itermax) 0 ga u ov Y oY1 otv otvold onev ;;
       if ok : bool then '(delta, a, e, u) <- finish n s nar gb Y1 odelta oa oe u ;; Ok (true, mkObj v Y Y1 delta e a it oh ga gb q tv tvold nev, u)
       else Ok (false, mkObj v Y Y1 odelta oe oa it oh ga gb q tv tvold nev, u))).
  { intros. cbn [bind]. destruct (spread n s oY u) as [Y| | |]; cbn [bind same]; auto.
    destruct (iterate _ _ _ _ _ _ _ _ _ _ _ _ _ _) as [[[[[[[[ok it] v] Y'] Y1'] tv'] tvo] nev']| | |]; cbn [bind same]; auto.
    destruct ok; [|cbn [same]; auto]. destruct (finish _ _ _ _ _ _ _ _ _) as [[[[d a] e] u1]| | |]; cbn [bind same]; auto. }
  destruct (negb (oldh =? h)%num).
  - destruct (scale (s * s) ta (nar h)) as [ga| | |]; cbn [bind same]; auto. destruct (scale s tb (nar h)) as [gb| | |]; cbn [bind same]; auto.
    destruct (scale_tot (s * s) tq (nar h)) as (q & ->). destruct (scale_tot (s * s) tq' (nar h)) as (q' & ->). apply T.
  - apply T.
Qed.
(* what the program writes *)
Definition written (r : out (Z * obj * vec K * list (vec K))) : out (list (vec K)) :=
  '(_, _, _, rows) <- r ;; Ok rows.
Lemma same_loop tq tq' itermax fuel : forall h bound it (o o' : obj) u rows, no_q o = no_q o' ->
  written (sy_loop obj (SympModel.step n s long nar f ta tb tq itermax) fuel h bound it true o u rows) =
  written (sy_loop obj (SympModel.step n s long nar f ta tb tq' itermax) fuel h bound it true o' u rows).
Proof.
  induction fuel as [|fuel IH]; intros h bound it o o' u rows E; cbn [sy_loop]; destruct (nlit it 0 <? bound)%num; try reflexivity.
  pose proof (same_step tq tq' itermax h o o' u E) as P.
  destruct (SympModel.step n s long nar f ta tb tq itermax h true o u) as [[[b o1] u1]| | |];
  destruct (SympModel.step n s long nar f ta tb tq' itermax h true o' u) as [[[b' o1'] u1']| | |]; cbn [same] in P; try contradiction; try (rewrite P; reflexivity); [|reflexivity].
  destruct P as (<- & P & <-). cbn [bind]. destruct b; [|reflexivity]. destruct (it =? 2147483647)%Z; [reflexivity|]. apply IH. exact P.
Qed.
Lemma same_main tq tq' itermax fuel h years (o o' : obj) u : no_q o = no_q o' ->
  written (sy_main obj (SympModel.step n s long nar f ta tb tq itermax) fuel h years o u) =
  written (sy_main obj (SympModel.step n s long nar f ta tb tq' itermax) fuel h years o' u).
Proof. apply same_loop. Qed.
End First.

(* ---- the repetitions ---- *)
Section Reps.
Context {K : num}.
Variable Obj : Type.
Variable call : Obj -> K -> K -> K -> vec K -> out (Obj * K * K * vec K).
Variable init : vec K.
Lemma rep_chain xend st st' : rep Obj call init xend st = Ok st' ->
  exists o h t y, call (p_obj Obj st) (p_h Obj st) (nlit 0 0) xend init = Ok (o, h, t, y) /\ p_h Obj st' = h /\ p_t Obj st' = Some t.
Proof. unfold rep. destruct (call _ _ _ _ _) as [[[[o h] t] y]| | |]; intros E; try discriminate E. injection E as <-. exists o, h, t, y. auto. Qed.
Lemma rep_none nloops h xend o : (nloops <= 0)%Z -> exists st, rep_main Obj call init nloops h xend o = Ok st /\ rodas_report Obj st = UB "t".
Proof. intros H. unfold rep_main. replace (Z.to_nat nloops) with O by lia. eexists. split; reflexivity. Qed.
End Reps.
(* Radau5 on y' = 0 from 0 to 1 with initial step 1 (RadauWitness.v); g: the uninitialised hopt *)
Definition radau_call (g : R) (o : dopts Rnum) (_ : Datatypes.unit) (h t xend : R) (y : vec Rnum) : out (Datatypes.unit * Rnum * Rnum * vec Rnum) :=
  st <- @rs_radau Rnum (fun _ => 0) 7 (3 / 100) o 1 1 rs_w h t xend y 0 0 0 0 g ;; Ok (tt, q_h st, q_x st, q_Y st).
Lemma rep_garbage (g : R) (o : dopts Rnum) : d_onestep o = false -> (0 <= d_nmax o)%Z ->
  exists st, @rep_main Rnum Datatypes.unit (radau_call g o) (fun _ => 0) 1 1 1 tt = Ok st /\ p_h Datatypes.unit st = g /\ p_steps Datatypes.unit st = [1].
Proof.
  intros H1 H2. destruct (last_step_garbage g o H1 H2) as (st & E & Ex & Eh & _). unfold rep_main. change (Z.to_nat 1) with 1%nat. cbn [rep_loop]. unfold rep, radau_call. cbn [p_obj p_h p_steps].
  change (@nlit Rnum 0 0) with (Rlit 0 0). rewrite Rlit_0. rewrite E. cbn [bind]. eexists. split; [reflexivity|]. cbn [p_h p_steps]. split; [exact Eh|reflexivity].
Qed.

(* ---- the cases ---- *)
Definition c_f : vec QNum -> vec QNum := fun _ _ => (@nlit QNum 1 0).
Definition c_obj (tq : Z -> QNum) := @construct QNum 1 (fun _ => (@nlit QNum 5 (-1))) (fun _ => (@nlit QNum 1 0)) tq (fun _ => (@nlit QNum 0 0)) (fun _ => (@nlit QNum 0 0)) (fun _ => (@nlit QNum 0 0)) (fun _ => (@nlit QNum 0 0)) (fun _ => (@nlit QNum 0 0)) (fun _ => (@nlit QNum 0 0)) 0.
Definition c_step (tq : Z -> QNum) := @SympModel.step QNum 1 1 false (fun x => x) c_f (fun _ => (@nlit QNum 5 (-1))) (fun _ => (@nlit QNum 1 0)) tq.
Definition c_second (tq : Z -> QNum) := o <- c_obj tq ;; '(_, o, u) <- c_step tq 10 (@nlit QNum 1 0) true o (fun _ => (@nlit QNum 0 0)) ;; '(ok, _, _) <- c_step tq 2 (@nlit QNum 1 0) false o u ;; Ok ok.
Lemma sym_ends Obj (step : Rnum -> bool -> Obj -> vec Rnum -> out (bool * Obj * vec Rnum)) (h years : R) fuel o u :
  (forall first o u, exists o' u', step h first o u = Ok (true, o', u')) -> years * 365.25 * h <= 2147483647 -> years * 365.25 * h <= INR fuel ->
  exists r, @sy_main Rnum Obj step fuel h years o u = Ok r.
Proof.
  intros Hok Hb Hf. unfold sy_main. assert (EB : @sy_bound Rnum years h = years * 365.25 * h).
  { unfold sy_bound. cbn [nmul nlit Rnum]. rewrite lit_year. reflexivity. }
  rewrite EB. apply loop_ends; [exact Hok|exact Hb|lia|]. rewrite Z.add_0_l, <- INR_IZR_INZ. exact Hf.
Qed.
Lemma unused {K : num} n s long nar f (ta tb tq tq' : Z -> K) itermax fuel h years (o o' : @obj K) u v Y Y1 delta e a it :
  construct n ta tb tq v Y Y1 delta e a it = Ok o -> construct n ta tb tq' v Y Y1 delta e a it = Ok o' ->
  written (sy_main obj (SympModel.step n s long nar f ta tb tq itermax) fuel h years o u) =
  written (sy_main obj (SympModel.step n s long nar f ta tb tq' itermax) fuel h years o' u).
Proof.
  unfold SympModel.construct. match goal with |- context [forM ?a ?b ?g e] => destruct (forM a b g e) as [e1| | |] end; cbn [bind]; intros E E'; try discriminate E. injection E as <-. injection E' as <-.
  apply same_main. reflexivity.
Qed.
