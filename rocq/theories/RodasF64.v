(* The driver of Rodas in IEEE double precision: the time variable. *)
From Coq Require Import Reals Lra.
From Flocq Require Import Core BinarySingleNaN.
From Verif Require Import Base HessModel CMacros RodasModel RodasProofs F64 StepF64.
Open Scope R_scope.

Lemma fin_nan (x : f64) : fin x -> ~ nan x. Proof. intros F N. rewrite N in F. discriminate F. Qed.
Section R.
Variable pow : f64 -> f64 -> f64.
Notation K := (F64 pow).
Lemma bleb_spec (x y : f64) : fin x -> fin y -> (nleb (n := K) x y = true <-> v x <= v y).
Proof. intros A B. rewrite leb_ok by assumption. unfold Rleb. destruct (Rle_dec (v x) (v y)); split; intros; try reflexivity; try assumption; [discriminate|contradiction]. Qed.
Lemma bltb_spec (x y : f64) : fin x -> fin y -> (nltb (n := K) x y = true <-> v x < v y).
Proof. intros A B. rewrite ltb_ok by assumption. unfold Rltb. destruct (Rlt_dec (v x) (v y)); split; intros; try reflexivity; try assumption; [discriminate|contradiction]. Qed.
Lemma sqrt_big (x : f64) : fin x -> 1 <= v x -> fin (nsqrt (n := K) x) /\ 1 <= v (nsqrt (n := K) x).
Proof.
  intros F H. destruct (Bsqrt_correct 53 1024 f64p f64e mode_NE x) as (C1 & C2 & _). cbn [nsqrt F64]. split.
  - unfold fin. rewrite C2. destruct x as [| | |[] m e B]; try reflexivity; try discriminate F. exfalso. assert (v (B754_finite true m e B) <= 0); [|lra]. apply F2R_le_0. cbn. lia.
  - rewrite C1. destruct one_val as [_ V1]. rewrite <- V1. apply rnd_lower. rewrite V1, <- sqrt_1. now apply sqrt_le_1_alt.
Qed.
Lemma pos_sign (x : f64) : 0 < v x -> Bsign x = false.
Proof. destruct x as [| | |[] m e B]; cbn [B2R]; intros H; try lra; try reflexivity. exfalso. assert (F2R (Float radix2 (cond_Zopp true (Z.pos m)) e) <= 0); [|lra]. apply F2R_le_0. cbn. lia. Qed.
Lemma five_val : fin (f_lit 5 0) /\ v (f_lit 5 0) = 5.
Proof. change (f_lit 5 0) with (f_of 5). apply f_of_val. discriminate. Qed.
Lemma sixth_val : fin (r_fac2 (K := K)) /\ v (r_fac2 (K := K)) <= 1 /\ 0 < v (r_fac2 (K := K)).
Proof.
  destruct (val_of (r_fac2 (K := K)) 6004799503160661 (-55)) as [A B]. { vm_compute. reflexivity. }
  split; [exact A|]. rewrite B. change (bpow radix2 (-55)) with (/ IZR (2 ^ 55)). change (2 ^ 55)%Z with 36028797018963968%Z. lra.
Qed.
(* the factor after a rejection *)
Definition the_fac (safe err : f64) : f64 := mMAX (K := K) (r_fac2 (K := K)) (mMIN (K := K) (r_fac1 (K := K)) (ndiv (n := K) (nsqrt (n := K) (nsqrt (n := K) err)) safe)).
Lemma clamp_ge (z : f64) : (nan z \/ (fin z /\ 1 <= v z) \/ z = B754_infinity false) ->
  let f := mMAX (K := K) (r_fac2 (K := K)) (mMIN (K := K) (r_fac1 (K := K)) z) in nan f \/ (fin f /\ 1 <= v f).
Proof.
  cbv zeta. destruct sixth_val as (F6 & V6 & _). destruct five_val as (F5 & V5). unfold r_fac1. cbn [nlit F64].
  assert (MX : forall y : f64, fin y -> 1 <= v y -> mMAX (K := K) (r_fac2 (K := K)) y = y).
  { intros y Fy Vy. unfold mMAX. destruct (nltb (n := K) y (r_fac2 (K := K))) eqn:E; [|reflexivity]. apply bltb_spec in E; [lra|assumption|assumption]. }
  intros [N|[[F V]| ->]].
  - left. rewrite N. unfold mMIN. rewrite nan_lt_r. unfold mMAX. rewrite nan_lt_l. reflexivity.
  - right. unfold mMIN. destruct (nltb (n := K) (f_lit 5 0) z); rewrite MX; try assumption; try lra; split; try assumption; lra.
  - right. assert (E : mMIN (K := K) (f_lit 5 0) (B754_infinity false : f64) = f_lit 5 0). { unfold mMIN. destruct (f_lit 5 0) as [[]|[]| |[]]; try discriminate F5; reflexivity. }
    rewrite E, MX by (assumption || lra). split; [assumption|lra].
Qed.
Lemma fac_ge (safe err : f64) : fin safe -> 0 < v safe <= 1 -> nleb (n := K) err (f_lit 1 0) = false -> nan (the_fac safe err) \/ (fin (the_fac safe err) /\ 1 <= v (the_fac safe err)).
Proof.
  intros Fs Vs L. destruct one_val as [F1 V1]. apply clamp_ge. destruct err as [s|s| |s m e B] eqn:EE.
  - exfalso. rewrite leb_ok in L; [|reflexivity|exact F1]. rewrite V1 in L. unfold Rleb in L. cbn [B2R] in L. destruct (Rle_dec 0 1); [discriminate L|lra].
  - destruct s; [exfalso; vm_compute in L; discriminate L|]. right. right. pose proof (pos_sign safe ltac:(lra)) as SS.
    destruct safe as [| | |s' m' e' B']; try discriminate Fs; [cbn [B2R] in Vs; lra|]. cbn in SS. subst s'. reflexivity.
  - left. rewrite <- (nan_div_l pow safe). reflexivity.
  - rewrite <- EE in *. assert (Fr : fin err) by (rewrite EE; reflexivity). clear EE.
    assert (V : 1 <= v err). { rewrite leb_ok in L by assumption. rewrite V1 in L. unfold Rleb in L. destruct (Rle_dec (v err) 1); [discriminate L|lra]. }
    destruct (sqrt_big err Fr V) as [Fa Va]. destruct (sqrt_big _ Fa Va) as [Fb Vb]. right. set (r := nsqrt (n := K) (nsqrt (n := K) err)) in *.
    assert (N : v safe <> 0) by lra. pose proof (Bdiv_correct 53 1024 f64p f64e mode_NE r safe N) as C. cbn [ndiv F64].
    assert (Q : 1 <= v r / v safe). { apply (Rmult_le_reg_r (v safe)); [lra|]. unfold Rdiv. rewrite Rmult_assoc, Rinv_l, Rmult_1_r by lra. lra. }
    destruct (Rlt_bool _ _).
    + left. destruct C as (C1 & C2 & _). split; [unfold fin in *; now rewrite C2|]. rewrite C1, <- V1. apply rnd_lower. rewrite V1. exact Q.
    + right. rewrite (pos_sign r), (pos_sign safe) in C by lra. change (B2SF (Bdiv mode_NE r safe) = SpecFloat.S754_infinity false) in C. destruct (Bdiv mode_NE r safe) as [|[]| |]; try discriminate C. reflexivity.
Qed.

(* ---- the invariant ---- *)
Variables W Ax : Type.
Variable prep : W -> f64 -> (Z -> f64) -> out (W * Ax).
Variable attempt : W -> Ax -> f64 -> f64 -> (Z -> f64) -> out (W * (Z -> f64) * f64).
Variable o : ropts K.
Variables x0 e : f64.
Hypothesis Fx0 : fin x0.
Hypothesis Fe : fin e.
Hypothesis Hx0 : 0 <= v x0 < v e.
Hypothesis Hmax : v e <= bpow radix2 1020.
Hypothesis Fsafe : fin (o_safe o).
Hypothesis Hsafe : 0 < v (o_safe o) <= 1.
Hypothesis Hone : o_onestep o = false.
Notation rst := (@rst K W).
Notation D0 := (nsub (n := K) e x0).
Notation one := (f_lit 1 0).
Notation body := (@r_body K W Ax attempt o one D0).
Notation head := (@r_head K W Ax prep e one D0).
Notation outer := (@r_outer K W Ax prep attempt o e one D0).
Definition goodx (x : f64) : Prop := fin x /\ v x0 <= v x <= v (Bsucc e).
Definition goodh (x h : f64) : Prop := fin h /\ v x0 <= rnd (v x + v h) <= v (Bsucc e).
Definition at_end (a : R) : Prop := v (Bpred e) <= a /\ (v e <= 2 * v x0 -> a = v e).
Definition hist_ok (l : list (att K)) : Prop := forall a, In a l -> goodx (a_x a) /\ goodh (a_x a) (a_h a).
Definition inI (st : rst) : Prop :=
  (s_last st = false /\ (nan (s_x st) \/ nan (s_h st))) \/
  (goodx (s_x st) /\ goodh (s_x st) (s_h st) /\ hist_ok (s_hist st) /\ (s_last st = true -> at_end (rnd (v (s_x st) + v (s_h st))))).
Definition outI (st : rst) : Prop :=
  (s_last st = false /\ nan (s_x st)) \/
  (goodx (s_x st) /\ hist_ok (s_hist st) /\ (s_last st = true -> at_end (v (s_x st)))).
Lemma e_pos : 0 < v e. Proof. lra. Qed.
Lemma D0_val : fin D0 /\ 0 <= v D0 <= v e.
Proof. destruct (D_val pow x0 e Fx0 Fe) as (A & _ & B); try lra. split; assumption. Qed.
Lemma head_f st : outI st -> s_last st = false -> pc (head st) (fun p => inI (fst p)).
Proof.
  intros HI El. unfold r_head. destruct (nleb _ _); [exact I|].
  set (h1 := if nltb (n := K) (mABS (s_h st)) (nlit 10 0 * r_uround)%num then nlit 1 (-6) else s_h st).
  destruct D0_val as [FD VD]. destruct (capped pow h1 D0 FD (proj1 VD)) as [Fm Vm]. destruct (times_one pow _ Fm) as [Fq Vq].
  set (q := nmul (n := K) (mMIN (mABS h1) D0) one) in *.
  match goal with |- context [nltb ?a ?b] => set (stop := nltb (n := K) a b) end.
  destruct (prep (s_w st) (s_x st) (s_Y st)) as [[w' aux]| | |]; cbn [bind pc fst]; try exact I.
  unfold inI. cbn [s_x s_h s_last s_hist].
  destruct HI as [[_ N]|(Gx & Hh & _)].
  - left. split; [|left; exact N]. assert (E : stop = false). { unfold stop. rewrite N, nan_add_l, nan_sub_l, nan_mul_l. apply nan_lt_r. } rewrite E. exact El.
  - right. destruct Gx as [Fx Bx]. destruct (near pow e Fe e_pos Hmax (s_x st) Fx) as (Fd & N1 & N2 & N3); [lra|].
    split; [split; assumption|]. destruct stop eqn:Es.
    + assert (AE : at_end (rnd (v (s_x st) + v (nsub (n := K) e (s_x st))))). { split; [apply N1|]. intros H. apply N2. lra. }
      split; [|split; [exact Hh|intros _; exact AE]]. split; [exact Fd|]. split; [|apply N1].
      destruct (Rle_lt_dec (v (s_x st)) (v e)) as [C|C].
      * apply Rle_trans with (v (s_x st)); [apply Bx|]. apply rnd_lower. specialize (N3 C). lra.
      * rewrite N2 by lra. lra.
    + unfold stop in Es. destruct (not_past pow e Fe e_pos Hmax (s_x st) q Fx Fq) as (_ & _ & P); [lra|lra|exact Es|].
      split; [|split; [exact Hh|rewrite El; discriminate]]. split; [exact Fq|]. destruct (succ_fin e Fe e_pos Hmax) as [_ VS]. pose proof (u_pos e). lra.
Qed.
Lemma body_f aux st : inI st -> pc (body aux st) (fun st' => if s_reject st' then inI st' else outI st').
Proof.
  intros HI. unfold r_body. destruct (attempt _ _ _ _ _) as [[[w' Y'] err]| | |]; cbn [bind pc]; try exact I.
  unfold r_control. cbn [s_x s_h s_Y s_w s_last s_reject s_naccpt s_nrejct s_njac s_nstep s_ndec s_nsol s_nfcn s_hacc s_erracc s_first s_hist].
  cbn [nlit F64]. destruct (nleb (n := K) err one) eqn:Ee; cbn [s_reject]; unfold inI, outI; cbn [s_x s_h s_last s_hist].
  - destruct HI as [[El [N|N]]|((Fx & Bx) & (Fh & Bh) & Hh & Hl)].
    + left. split; [exact El|]. rewrite N. apply nan_add_l.
    + left. split; [exact El|]. rewrite N. apply nan_add_r.
    + right. destruct (add_rnd pow (s_x st) (s_h st) x0 (Bsucc e) Fx Fh Bh) as [A B].
      split; [split; [exact A|rewrite B; exact Bh]|]. split; [|intros El; rewrite B; exact (Hl El)].
      intros a [<-|Ha]; [cbn [a_x a_h]; split; split; assumption|exact (Hh a Ha)].
  - destruct HI as [[El [N|N]]|((Fx & Bx) & (Fh & Bh) & Hh & _)].
    + left. split; [reflexivity|left; exact N].
    + left. split; [reflexivity|right]. unfold r_hnew. rewrite N. apply nan_div_l.
    + destruct (fac_ge (o_safe o) err Fsafe Hsafe Ee) as [N|[Ff Vf]].
      * left. split; [reflexivity|right]. unfold r_hnew. fold (the_fac (o_safe o) err). rewrite N. apply nan_div_r.
      * right. destruct (shrunk pow (s_x st) (s_h st) (the_fac (o_safe o) err) x0 (Bsucc e) Fx Fh Vf Bx Bh) as (A & B & _).
        split; [split; assumption|]. split; [split; [exact A|exact B]|]. split; [|discriminate].
        intros a [<-|Ha]; [cbn [a_x a_h]; split; split; assumption|exact (Hh a Ha)].
Qed.
Lemma outer_f fuel ifuel w h y a b c : pc (outer fuel ifuel (@r_init K W w h x0 y a b c)) (fun st =>
  goodx (s_x st) /\ hist_ok (s_hist st) /\ at_end (v (s_x st))).
Proof.
  apply (@outer_rule K W Ax prep attempt o e one D0 outI outI _ (fun _ => inI)).
  - intros st [[El _]|(A & B & C)] L; [rewrite El in L; discriminate L|]. split; [exact A|]. split; [exact B|exact (C L)].
  - apply head_f.
  - apply body_f.
  - intros st H _. rewrite Hone. exact H.
  - right. cbn [r_init s_x s_last s_hist]. split; [|split; [intros a0 []|discriminate]]. split; [exact Fx0|].
    destruct (succ_fin e Fe e_pos Hmax) as [_ VS]. pose proof (u_pos e). lra.
Qed.
Lemma posneg_one : r_posneg (K := K) x0 e = one.
Proof.
  unfold r_posneg, mSIGN, n0, n1. rewrite (zero_lit pow). cbn [nlit F64]. destruct D0_val as [FD VD].
  destruct (nleb (n := K) (B754_zero false : f64) D0) eqn:E; [reflexivity|]. exfalso. rewrite leb_ok in E; [|reflexivity|exact FD]. unfold Rleb in E. cbn [B2R] in E. destruct (Rle_dec 0 (v D0)); [discriminate E|lra].
Qed.
Lemma hmaxn_D0 : r_hmaxn (K := K) x0 e = D0.
Proof.
  destruct D0_val as [FD VD]. assert (E : nleb (n := K) (B754_zero false : f64) D0 = true). { apply bleb_spec; [reflexivity|exact FD|cbn [B2R]; lra]. }
  unfold r_hmaxn, mABS, mABS_diff, n0. rewrite (zero_lit pow), E. unfold mMIN. destruct (nltb _ _); reflexivity.
Qed.
Lemma rodas_f fuel ifuel w h y a b c : pc (rodas (K := K) prep attempt o fuel ifuel w h x0 e y a b c) (fun r =>
  goodx (s_x (fst r)) /\ hist_ok (s_hist (fst r)) /\ at_end (v (s_x (fst r)))).
Proof.
  unfold rodas. rewrite posneg_one, hmaxn_D0. apply pc_bind. eapply pc_mono; [apply outer_f|]. intros st H. exact H.
Qed.
End R.
