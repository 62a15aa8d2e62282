(* Runs of Rodas in IEEE double precision that go wrong; y' = 0 with one component. *)
From Coq Require Import Reals Lra.
From Flocq Require Import Core BinarySingleNaN.
From Verif Require Import Base HessModel CMacros VecFun RodasModel RodasProofs RodasReal RodasWitness F64 Rock4F64 StepF64 RodasF64.
Open Scope R_scope.

(* ---- the driver, one piece at a time, any arithmetic ---- *)
Section Gen.
Context {K : num}.
Variables W Ax : Type.
Variable prep : W -> K -> (Z -> K) -> out (W * Ax).
Variable attempt : W -> Ax -> K -> K -> (Z -> K) -> out (W * (Z -> K) * K).
Variable o : ropts K.
Variables xend s hm : K.
Notation rst := (@rst K W).
Notation head := (@r_head K W Ax prep xend s hm).
Notation body := (@r_body K W Ax attempt o s hm).
Notation inner := (@r_inner K W Ax attempt o s hm).
Notation outer := (@r_outer K W Ax prep attempt o xend s hm).
Definition hd_small (x h : K) : bool := (nlit 1 (-1) * mABS h <=? mABS x * r_uround)%num.
Definition hd_h (h : K) : K := (mMIN (mABS (if (mABS h <? nlit 10 0 * r_uround)%num then nlit 1 (-6) else h)) hm * s)%num.
Definition hd_stop (x h : K) : bool := (n0 <? (x + hd_h h * nlit 10001 (-4) - xend) * s)%num.
Lemma head_gen st w' aux stop : hd_small (s_x st) (s_h st) = false -> hd_stop (s_x st) (s_h st) = stop -> prep (s_w st) (s_x st) (s_Y st) = Ok (w', aux) ->
  exists st', head st = Ok (st', aux) /\ s_x st' = s_x st /\ s_h st' = (if stop then xend - s_x st else hd_h (s_h st))%num /\ s_Y st' = s_Y st /\ s_w st' = w' /\
    s_last st' = (if stop then true else s_last st) /\ s_reject st' = s_reject st /\ s_naccpt st' = s_naccpt st /\ s_nstep st' = s_nstep st /\ s_hist st' = s_hist st.
Proof.
  intros H1 H2 H3. unfold r_head. unfold hd_small in H1. rewrite H1.
  change (mMIN _ _ * s)%num with (hd_h (s_h st)). change (n0 <? _)%num with (hd_stop (s_x st) (s_h st)). rewrite H2, H3. cbn [bind].
  eexists. split; [reflexivity|]. repeat split.
Qed.
Lemma body_acc_gen aux st w' Y' err : attempt (s_w st) aux (s_x st) (s_h st) (s_Y st) = Ok (w', Y', err) -> nleb err (nlit 1 0) = true ->
  s_naccpt st = 0%Z -> s_reject st = false ->
  exists st', body aux st = Ok st' /\ s_x st' = (s_x st + s_h st)%num /\ s_Y st' = Y' /\ s_w st' = w' /\ s_last st' = s_last st /\ s_reject st' = false /\
    s_h st' = (if hm <? mABS (r_hnew o (s_h st) err) then s * hm else r_hnew o (s_h st) err)%num /\ s_nstep st' = (s_nstep st + 1)%Z /\
    s_hist st' = mkAtt (s_x st) (s_h st) true :: s_hist st.
Proof.
  intros H1 H2 H3 H4. unfold r_body. rewrite H1. cbn [bind]. unfold r_control.
  cbn [s_x s_h s_Y s_w s_last s_reject s_naccpt s_nrejct s_njac s_nstep s_ndec s_nsol s_nfcn s_hacc s_erracc s_first s_hist].
  rewrite H2, H3, H4. change (1 <? 0 + 1)%Z with false. rewrite Bool.andb_false_r. eexists. split; [reflexivity|]. repeat split.
Qed.
Lemma body_rej_gen aux st w' Y' err : attempt (s_w st) aux (s_x st) (s_h st) (s_Y st) = Ok (w', Y', err) -> nleb err (nlit 1 0) = false ->
  exists st', body aux st = Ok st' /\ s_x st' = s_x st /\ s_Y st' = s_Y st /\ s_w st' = w' /\ s_reject st' = true /\ s_h st' = r_hnew o (s_h st) err /\
    s_hist st' = mkAtt (s_x st) (s_h st) false :: s_hist st.
Proof.
  intros H1 H2. unfold r_body. rewrite H1. cbn [bind]. unfold r_control.
  cbn [s_x s_h s_Y s_w s_last s_reject s_naccpt s_nrejct s_njac s_nstep s_ndec s_nsol s_nfcn s_hacc s_erracc s_first s_hist].
  rewrite H2. eexists. split; [reflexivity|]. repeat split.
Qed.
Lemma inner_acc_gen f aux st st' : body aux st = Ok st' -> s_reject st' = false -> inner (S f) aux st = Ok st'.
Proof. intros H1 H2. cbn [r_inner]. rewrite H1. cbn [bind]. rewrite H2. reflexivity. Qed.
Lemma inner_spin (P : Ax -> rst -> Prop) : (forall aux st, P aux st -> exists st', body aux st = Ok st' /\ s_reject st' = true /\ P aux st') ->
  forall f aux st, P aux st -> inner f aux st = Diverge.
Proof.
  intros H f. induction f as [|f IH]; intros aux st HP; [reflexivity|]. cbn [r_inner]. destruct (H aux st HP) as (st' & E & R & HP'). rewrite E. cbn [bind]. rewrite R. now apply IH.
Qed.
Lemma outer_one_gen f i st st1 aux st2 : s_last st = false -> head st = Ok (st1, aux) -> inner i aux st1 = Ok st2 -> (s_nstep st2 <= o_nmax o)%Z -> o_onestep o = false ->
  outer (S f) i st = outer f i st2.
Proof.
  intros H1 H2 H3 H4 H5. cbn [r_outer]. rewrite H1, H2. cbn [bind]. rewrite H3. cbn [bind]. destruct (Z.ltb_spec (o_nmax o) (s_nstep st2)); [lia|]. rewrite H5. reflexivity.
Qed.
Lemma outer_div f i st st1 aux : s_last st = false -> head st = Ok (st1, aux) -> inner i aux st1 = Diverge -> outer f i st = Diverge.
Proof. intros H1 H2 H3. destruct f; cbn [r_outer]; rewrite H1; [reflexivity|]. rewrite H2. cbn [bind]. rewrite H3. reflexivity. Qed.
Lemma outer_last f i st : s_last st = true -> outer f i st = Ok st.
Proof. intros E. destruct f; cbn [r_outer]; rewrite E; reflexivity. Qed.
End Gen.

Section Wit.
Variable pow : f64 -> f64 -> f64.
Notation K := (F64 pow).
Notation zero := (B754_zero false : f64).
(* the options of the constructor *)
Definition std_opts : ropts K := mkRopts (K := K) (f_lit 9 (-1)) 10000 true false.
Variable meth : Z.
Variable C : rcoef K.
Hypothesis HC : rocoe (K := K) meth = Ok C.
Local Notation W0 := (@world K Datatypes.unit K).
Definition zprep := sc_prep (K := K) zero.
Definition zattempt := sc_attempt (K := K) zero C.
Definition zworld : W0 := mkW (K := K) (tt, nil) zero (fun _ => zero).
Definition zY : vec K := fun _ => zero.
(* what r_prep gives *)
Definition zw (l : list K) (la : K) : W0 := mkW (K := K) (tt, l) la (fun _ => zero).
Lemma prep_ok (w : W0) x Y : exists l la, zprep w x Y = Ok (zw l la, (zY, zY)).
Proof. destruct w as [[[] l] la J]. do 2 eexists. reflexivity. Qed.
Lemma coef_cases : rocoe (K := K) 1 = Ok C \/ rocoe (K := K) 2 = Ok C \/ rocoe (K := K) 3 = Ok C.
Proof.
  unfold rocoe in HC |- *. destruct (meth =? 1)%Z; [left; exact HC|]. destruct (meth =? 2)%Z; [right; left; exact HC|]. destruct (meth =? 3)%Z; [right; right; exact HC|discriminate HC].
Qed.
Lemma nan_sqrt : nsqrt (n := K) (B754_nan : f64) = B754_nan. Proof. reflexivity. Qed.
Lemma inf_zero (c : f64) : nmul (n := K) (ndiv (n := K) c zero) zero = B754_nan. Proof. destruct c; reflexivity. Qed.
Lemma nan_mul_r (c : f64) : nmul (n := K) c (B754_nan : f64) = B754_nan. Proof. destruct c; reflexivity. Qed.
Lemma err_nan (Y YN A : vec K) : A 1%Z = B754_nan -> r_err (K := K) 1 (fun _ => n1) (fun _ => n0) Y YN A = B754_nan.
Proof.
  intros H. unfold r_err, for_. change (Z.to_nat (1 - 1 + 1)) with 1%nat. cbn [iter]. rewrite H. rewrite nan_div_l. reflexivity.
Qed.
Lemma la_zero : ndiv (n := K) (zY 1%Z) (nsub (n := K) (ndiv (n := K) (nlit 1 0) (nmul (n := K) zero (rGAMMA C))) zero) = zero.
Proof.
  destruct coef_cases as [E|[E|E]]; unfold rocoe in E; cbn [Z.eqb Pos.eqb] in E; apply ok_inj in E; rewrite <- E; cbn [rGAMMA]; apply B2SF_inj; vm_compute; reflexivity.
Qed.
(* a step of size 0 or NaN *)
Lemma bad_step l la x h Y : h = zero \/ h = B754_nan -> exists l' la' Y', zattempt (zw l la) (zY, zY) x h Y = Ok (zw l' la', Y', B754_nan).
Proof.
  intros Hh. unfold zattempt, sc_attempt, r_attempt, sc_decomr. cbn [bind].
  unfold slvrod, sc_solve, callF, sc_F. cbn [bind fst snd w_jac w_f zw].
  match goal with |- context [r_err 1 _ _ ?Y0 ?YN ?A] => assert (E : A 1%Z = B754_nan) end.
  { destruct Hh as [-> | ->].
    - unfold v_add at 1, v_lc5. rewrite la_zero. rewrite (inf_zero (rC61 C)). rewrite !nan_add_l, nan_add_r. apply nan_div_l.
    - apply nan_div_r. }
  rewrite (err_nan _ _ _ E). do 3 eexists. reflexivity.
Qed.
Notation one := (f_lit 1 0).
Lemma prep_first x : zprep zworld x zY = Ok (zw (x :: nil) zero, (zY, zY)). Proof. reflexivity. Qed.
Definition first (x h : f64) := zattempt (zw (x :: nil) zero) (zY, zY) x h zY.
Definition hh (x e : f64) : f64 := hd_h (K := K) one (nsub (n := K) e x) one.
Definition is0 (x : f64) : bool := match x with B754_zero false => true | _ => false end.
Lemma is0_eq x : is0 x = true -> x = zero. Proof. destruct x as [[]| | |]; intros H; try discriminate H. reflexivity. Qed.
Definition h_next (D h err : f64) : f64 := if nltb (n := K) D (mABS (K := K) (r_hnew std_opts h err)) then nmul (n := K) one D else r_hnew std_opts h err.
Definition start_ok (x e : f64) (stop : bool) : bool :=
  (nleb (n := K) zero (nsub (n := K) e x) && negb (hd_small (K := K) x one) && Bool.eqb (hd_stop (K := K) e one (nsub (n := K) e x) x one) stop)%bool.
Definition lands (x e : f64) : bool :=
  (start_ok x e false &&
   match first x (hh x e) with
   | Ok (_, _, err) => nleb (n := K) err (nlit 1 0) &&
       let x2 := nadd (n := K) x (hh x e) in let h2 := h_next (nsub (n := K) e x) (hh x e) err in
       negb (hd_small (K := K) x2 h2) && hd_stop (K := K) e one (nsub (n := K) e x) x2 h2 && is0 (nsub (n := K) e x2)
   | _ => false end)%bool.
Definition misses (x e : f64) : bool :=
  (start_ok x e true &&
   match first x (nsub (n := K) e x) with
   | Ok (_, _, err) => nleb (n := K) err (nlit 1 0) && negb (neqb (n := K) (nadd (n := K) x (nsub (n := K) e x)) e)
   | _ => false end)%bool.
Lemma start_run (x e : f64) stop : start_ok x e stop = true ->
  r_posneg (K := K) x e = one /\ r_hmaxn (K := K) x e = nsub (n := K) e x /\ hd_small (K := K) x one = false /\ hd_stop (K := K) e one (nsub (n := K) e x) x one = stop.
Proof.
  intros H. unfold start_ok in H. apply andb_prop in H as [H H3]. apply andb_prop in H as [H1 H2]. apply Bool.eqb_prop in H3. apply Bool.negb_true_iff in H2.
  unfold r_posneg, r_hmaxn, mSIGN, mABS, mABS_diff, mMIN, n0. rewrite (zero_lit pow), H1. split; [reflexivity|]. split; [destruct (nltb _ _); reflexivity|]. split; assumption.
Qed.
(* a step ends at xend without having been recognised as the last one; a step of size 0 follows, and
   its error estimate is not a number *)
Lemma hangs (x e : f64) fuel ifuel a b c : lands x e = true ->
  rodas (K := K) zprep zattempt std_opts fuel ifuel zworld one x e zY a b c = Diverge.
Proof.
  intros H. unfold lands in H. apply andb_prop in H as [H1 H2]. destruct (start_run x e false H1) as (E1 & E2 & E3 & E4).
  destruct (first x (hh x e)) as [[[w' Y'] err]| | |] eqn:EF; try discriminate H2. cbv zeta in H2.
  apply andb_prop in H2 as [H2 H6]. apply andb_prop in H6 as [H6 H7]. apply andb_prop in H6 as [H5 H6]. apply Bool.negb_true_iff in H5. apply is0_eq in H7.
  unfold rodas. rewrite E1, E2. set (D := nsub (n := K) e x) in *.
  assert (G : r_outer (K := K) zprep zattempt std_opts e one D fuel ifuel (r_init (K := K) zworld one x zY a b c) = Diverge); [|rewrite G; reflexivity].
  destruct fuel as [|fuel]; [reflexivity|].
  destruct (head_gen (K := K) W0 _ zprep e one D (r_init (K := K) zworld one x zY a b c) _ _ false E3 E4 (prep_first x)) as (st1 & R1 & X1 & P1 & Y1 & W1 & L1 & J1 & N1 & S1 & _).
  cbn [r_init s_x s_h s_Y s_last s_reject s_naccpt s_nstep] in *. change (hd_h (K := K) one D one) with (hh x e) in P1.
  destruct ifuel as [|ifuel]. { eapply outer_div; [reflexivity|exact R1|reflexivity]. }
  destruct (body_acc_gen (K := K) W0 _ zattempt std_opts one D (zY, zY) st1 w' Y' err) as (st2 & R2 & X2 & Y2 & W2 & L2 & J2 & P2 & S2 & _); [rewrite X1, P1, Y1, W1; exact EF|exact H2|exact N1|exact J1|].
  rewrite (outer_one_gen (K := K) W0 _ zprep zattempt std_opts e one D fuel (S ifuel) _ st1 (zY, zY) st2); [|reflexivity|exact R1|now apply inner_acc_gen| |reflexivity].
  2:{ rewrite S2, S1. cbn. lia. }
  rewrite X1, P1 in X2. rewrite P1 in P2. change (s_h st2 = h_next D (hh x e) err) in P2.
  destruct (prep_ok (s_w st2) (s_x st2) (s_Y st2)) as (l & la & R3). rewrite <- X2, <- P2 in H5, H6. rewrite <- X2 in H7.
  destruct (head_gen (K := K) W0 _ zprep e one D st2 _ _ true H5 H6 R3) as (st3 & R4 & X3 & P3 & Y3 & W3 & _).
  rewrite H7 in P3. eapply outer_div; [rewrite L2; exact L1|exact R4|].
  apply (inner_spin (K := K) W0 _ zattempt std_opts one D (fun aux st => aux = (zY, zY) /\ (exists l la, s_w st = zw l la) /\ (s_h st = zero \/ s_h st = B754_nan))).
  - intros aux st (-> & (l0 & la0 & Hw) & Hh). destruct (bad_step l0 la0 (s_x st) (s_h st) (s_Y st) Hh) as (l1 & la1 & Yn & R5).
    rewrite <- Hw in R5. destruct (body_rej_gen (K := K) W0 _ zattempt std_opts one D (zY, zY) st _ _ _ R5 eq_refl) as (st' & R6 & _ & _ & W6 & J6 & P6 & _).
    exists st'. split; [exact R6|]. split; [exact J6|]. split; [reflexivity|]. split; [exists l1, la1; exact W6|right]. rewrite P6.
    unfold r_hnew. change (nsqrt (n := K) (nsqrt (n := K) (B754_nan : f64))) with (B754_nan : f64). rewrite nan_div_l. unfold mMIN. rewrite nan_lt_r. unfold mMAX. rewrite nan_lt_l. apply nan_div_r.
  - split; [reflexivity|]. split; [exists l, la; exact W3|left; exact P3].
Qed.
Lemma off (x e : f64) a b c : misses x e = true ->
  exists st, rodas (K := K) zprep zattempt std_opts 1 1 zworld one x e zY a b c = Ok (st, zY) /\ neqb (n := K) (s_x st) e = false.
Proof.
  intros H. unfold misses in H. apply andb_prop in H as [H1 H2]. destruct (start_run x e true H1) as (E1 & E2 & E3 & E4).
  destruct (first x (nsub (n := K) e x)) as [[[w' Y'] err]| | |] eqn:EF; try discriminate H2.
  apply andb_prop in H2 as [H2 H3]. apply Bool.negb_true_iff in H3.
  unfold rodas. rewrite E1, E2. set (D := nsub (n := K) e x) in *.
  destruct (head_gen (K := K) W0 _ zprep e one D (r_init (K := K) zworld one x zY a b c) _ _ true E3 E4 (prep_first x)) as (st1 & R1 & X1 & P1 & Y1 & W1 & L1 & J1 & N1 & S1 & _).
  cbn [r_init s_x s_h s_Y s_last s_reject s_naccpt s_nstep] in *. change (nsub (n := K) e x) with D in P1.
  destruct (body_acc_gen (K := K) W0 _ zattempt std_opts one D (zY, zY) st1 w' Y' err) as (st2 & R2 & X2 & Y2 & W2 & L2 & J2 & P2 & S2 & _); [rewrite X1, P1, Y1, W1; exact EF|exact H2|exact N1|exact J1|].
  exists st2. rewrite (outer_one_gen (K := K) W0 _ zprep zattempt std_opts e one D 0 1 _ st1 (zY, zY) st2); [|reflexivity|exact R1|now apply inner_acc_gen| |reflexivity].
  2:{ rewrite S2, S1. cbn. lia. }
  rewrite outer_last by (rewrite L2; exact L1). split; [reflexivity|]. rewrite X2, X1, P1. exact H3.
Qed.
Ltac methods := destruct coef_cases as [E|[E|E]]; unfold rocoe in E; cbn [Z.eqb Pos.eqb] in E; apply ok_inj in E; unfold lands, misses, first, zattempt; rewrite <- E; vm_compute; reflexivity.
(* from 1000000000 to 1000000000.0001 *)
Lemma lands_1e9 : lands (f_lit 1 9) (f_lit 10000000000001 (-4)) = true. Proof. methods. Qed.
(* from 0.06 to 0.9 *)
Lemma misses_09 : misses (f_lit 6 (-2)) (f_lit 9 (-1)) = true. Proof. methods. Qed.
End Wit.
