(* Concrete runs of the Rodas model: the runs that refute C13, C16, C17 and C18, and the
   non-vacuity cases of the other theorems. *)
From Coq Require Import Reals Lra Psatz QArith.
From Verif Require Import Base HessModel CMacros VecFun JacModel RodasModel RodasProofs RodasReal RodasTop RodasTerm.
Open Scope R_scope.

(* ---- one scalar equation, exact scalar linear algebra -------------------------- *)
Section Scalar.
Context {K : num}.
Definition sc_decomr (la : K) (fac : K) (J : Z -> K) : out (K * (Z -> K)) := Ok ((fac - J 1%Z)%num, J).
Definition sc_solve (la : K) (A J : Z -> K) : out (Z -> K) := Ok (fun i => (A i / la)%num).
(* y' = c, autonomous, with its Jacobian 0 *)
Definition sc_F (c : K) (s : unit) (t : K) (y : Z -> K) : unit * (Z -> K) := (s, fun _ => c).
Definition sc_J (s : unit) (t : K) (y Fy J : Z -> K) : unit * (Z -> K) := (s, fun _ => n0).
Definition sc_Dt (s : unit) (t : K) (y : Z -> K) : unit * (Z -> K) := (s, fun _ => n0).
Definition sc_prep (c : K) :=
  @r_prep K unit K (sc_F c) sc_J sc_Dt (fun l => l) 1 Full false true false r_uround (fun _ => n0).
Definition sc_attempt (c : K) (C : rcoef K) :=
  @r_attempt K unit K (sc_F c) sc_decomr sc_solve 1 true C (fun _ => n1) (fun _ => n0).
Definition sc_world : @world K unit K := mkW (tt, nil) n0 (fun _ => n0).
End Scalar.
Definition opts (one : bool) : ropts Rnum := @mkRopts Rnum (9 / 10) 10000 false one.

Ltac reals := cbn [nlit nadd nsub nmul ndiv nopp nltb nleb neqb nsqrt Rnum car] in *.
Lemma Rleb_true a b : a <= b -> Rleb a b = true.
Proof. intros. destruct (Rleb_spec a b); [reflexivity|contradiction]. Qed.
Lemma Rleb_false a b : b < a -> Rleb a b = false.
Proof. intros. destruct (Rleb_spec a b); [lra|reflexivity]. Qed.
Lemma Rltb_true a b : a < b -> Rltb a b = true.
Proof. intros. destruct (Rltb_spec a b); [reflexivity|contradiction]. Qed.
Lemma Rltb_false a b : b <= a -> Rltb a b = false.
Proof. intros. destruct (Rltb_spec a b); [lra|reflexivity]. Qed.

Definition meth1 : rcoef Rnum := match @rocoe Rnum 1 with Ok C => C | _ => mkRcoef (K:=Rnum) 0 0 0 0 0 0 0 0 0 0 0 0 0 0 0 0 0 0 0 0 0 0 0 0 0 0 0 0 0 0 0 0 0 end.

Lemma small_err a m : -1 <= a <= 1 -> sqrt ((0 + a / (1 + 0 * m) * (a / (1 + 0 * m))) / 1) <= 1.
Proof.
  intros Ha. replace ((0 + a / (1 + 0 * m) * (a / (1 + 0 * m))) / 1) with (a * a) by (field; lra).
  rewrite <- sqrt_1. apply sqrt_le_1_alt. nra.
Qed.
Lemma sc_step (w : @world Rnum unit Rnum) (aux : (Z -> Rnum) * (Z -> Rnum)) : w_jac w 1%Z = 0 -> (fst aux : Z -> R) 1%Z = 1 -> exists w' Y' err,
  @sc_attempt Rnum 1 meth1 w aux 0 1 (fun _ => 0) = Ok (w', Y', err) /\ err <= 1 /\ 1 / 2 < Y' 1%Z.
Proof.
  intros HJ HD. destruct aux as [DY1 FX]. cbn [fst] in HD.
  unfold sc_attempt, r_attempt, sc_decomr. cbn [bind].
  unfold slvrod, sc_solve, callF, sc_F, v_add, v_scale, v_axpy, v_lc2, v_lc3, v_lc4, v_lc5, v_x_lc2, v_x_lc3, v_x_lc4. cbn [bind fst snd].
  do 3 eexists. split; [reflexivity|].
  unfold r_err, for_. cbn [Z.to_nat iter]. change (Z.to_nat (1 - 1 + 1)) with 1%nat. cbn [iter].
  unfold meth1, rocoe. cbn [Z.eqb Pos.eqb]. cbn [rC2 rC3 rC4 rD1 rD2 rD3 rD4 rA21 rA31 rA32 rA41 rA42 rA43 rA51 rA52 rA53 rA54 rC21 rC31 rC32 rC41 rC42 rC43 rC51 rC52 rC53 rC54 rC61 rC62 rC63 rC64 rC65 rGAMMA].
  reals. rewrite HJ, HD. rlit.
  replace (1 / (1 * (2500000000000000 / 10000000000000000)) - 0) with 4 by field.
  split; [|lra].
  apply small_err. split; lra.
Qed.

(* ---- running the driver, one piece at a time ------------------------------------ *)
Lemma bind_ok {A B} (m : out A) (a : A) (b : B) : m = Ok a -> (st <- m ;; Ok (st, b)) = Ok (a, b).
Proof. intros ->. reflexivity. Qed.
Section Run.
Variables W Ax : Type.
Variable prep : W -> R -> (Z -> R) -> out (W * Ax).
Variable attempt : W -> Ax -> R -> R -> (Z -> R) -> out (W * (Z -> R) * R).
Variable o : ropts Rnum.
Variables xend s hm : R.
Notation mk := (@mkRst Rnum W).
Lemma head_run (x h h1 : R) (Y : Z -> R) (w : W) (last rej : bool) (na nr nj ns nd nl nf : Z) (ha ea fi : R) (hi : list (att Rnum)) (w' : W) (aux : Ax) (stop : bool) :
  Rabs x * (1 / 10 ^ 16) < 1 / 10 * Rabs h ->
  Rmin (if Rlt_dec (Rabs h) (1 / 10 ^ 15) then 1 / 10 ^ 6 else Rabs h) hm * s = h1 ->
  (if stop then 0 < (x + h1 * (10001 / 10000) - xend) * s else (x + h1 * (10001 / 10000) - xend) * s <= 0) ->
  prep w x Y = Ok (w', aux) ->
  @r_head Rnum W Ax prep xend s hm (mk x h Y w last rej na nr nj ns nd nl nf ha ea fi hi) =
  Ok (mk x (if stop then xend - x else h1) Y w' (if stop then true else last) rej na nr (nj + 1) ns nd nl nf ha ea fi hi, aux).
Proof.
  intros H1 H2 H3 H4. unfold r_head. cbn [s_x s_h s_Y s_w s_last s_reject s_naccpt s_nrejct s_njac s_nstep s_ndec s_nsol s_nfcn s_hacc s_erracc s_first s_hist].
  rewrite !mABS_R, mMIN_R.
  assert (E1 : @nleb Rnum (nlit 1 (-1) * Rabs h)%num (Rabs x * r_uround)%num = false).
  { unfold r_uround. rlit. apply Rleb_false. replace (1 / 10 ^ 16) with (1 / 10000000000000000) in H1 by lra. lra. }
  rewrite E1.
  match goal with |- context [Rmin (Rabs ?p) hm] => set (p1 := p : R) end.
  assert (E2 : Rabs p1 = if Rlt_dec (Rabs h) (1 / 10 ^ 15) then 1 / 10 ^ 6 else Rabs h).
  { unfold p1. unfold r_uround. rlit. unfold Rltb. replace (10 * (1 / 10000000000000000)) with (1 / 10 ^ 15) by lra.
    destruct (Rlt_dec (Rabs h) (1 / 10 ^ 15)); [|reflexivity]. rewrite Rabs_right; lra. }
  change (Rabs _) with (Rabs p1). rewrite E2. cbn [nmul Rnum]. rewrite H2.
  assert (E3 : @nltb Rnum n0 ((x + h1 * nlit 10001 (-4) - xend) * s)%num = stop).
  { rlit. destruct stop; [apply Rltb_true|apply Rltb_false]; lra. }
  cbn [nmul Rnum] in E3. cbn [nmul Rnum]. rewrite E3, H4. reflexivity.
Qed.
Lemma reject_run (x h : R) (Y : Z -> R) (w : W) (rej : bool) (na nr nj ns nd nl nf : Z) (ha ea fi : R) (hi : list (att Rnum)) (w' : W) (aux : Ax) (Y' : Z -> R) (last : bool) :
  0 < (o_safe o : R) <= 1 ->
  attempt w aux x h Y = Ok (w', Y', 10000) ->
  @r_body Rnum W Ax attempt o s hm aux (mk x h Y w last rej na nr nj ns nd nl nf ha ea fi hi) =
  Ok (mk x (h / 5) Y w' false true na (if (1 <? na)%Z then nr + 1 else nr)%Z nj (ns + 1) (nd + 1) (nl + 6) (nf + 5) ha ea fi (mkAtt (x : Rnum) (h : Rnum) false :: hi)).
Proof.
  intros Hs Ha. unfold r_body. cbn [s_x s_h s_Y s_w s_last s_reject s_naccpt s_nrejct s_njac s_nstep s_ndec s_nsol s_nfcn s_hacc s_erracc s_first s_hist].
  rewrite Ha. cbn [bind]. unfold r_control. cbn [s_x s_h s_Y s_w s_last s_reject s_naccpt s_nrejct s_njac s_nstep s_ndec s_nsol s_nfcn s_hacc s_erracc s_first s_hist].
  assert (E : @nleb Rnum 10000 (nlit 1 0) = false) by (rlit; apply Rleb_false; lra). rewrite E.
  assert (En : @r_hnew Rnum o h 10000 = h / 5).
  { rewrite r_hnew_R. unfold sqsq. replace 10000 with (100 * 100) by lra. rewrite sqrt_square by lra.
    replace 100 with (10 * 10) by lra. rewrite sqrt_square by lra.
    change (car Rnum) with R in *. set (sf := o_safe o : R) in *. rewrite Rmin_left. 2:{ apply Rmult_le_reg_r with sf; [lra|]. unfold Rdiv. rewrite Rmult_assoc, Rinv_l by lra. lra. }
    rewrite Rmax_right by lra. reflexivity. }
  rewrite En. reflexivity.
Qed.
(* an accepted attempt, without predictive control; h' is the capped proposal *)
Lemma accept_run (x h err h' : R) (Y : Z -> R) (w : W) (last rej : bool) (na nr nj ns nd nl nf : Z) (ha ea fi : R) (hi : list (att Rnum)) (w' : W) (aux : Ax) (Y' : Z -> R) :
  o_gust o = false -> attempt w aux x h Y = Ok (w', Y', err) -> err <= 1 ->
  (let hn := @r_hnew Rnum o h err in
   let h2 := if Rlt_dec hm (Rabs hn) then s * hm else hn in
   h' = if rej then s * Rmin (Rabs h2) (Rabs h) else h2) ->
  @r_body Rnum W Ax attempt o s hm aux (mk x h Y w last rej na nr nj ns nd nl nf ha ea fi hi) =
  Ok (mk (x + h) h' Y' w' last false (na + 1) nr nj (ns + 1) (nd + 1) (nl + 6) (nf + 5) ha ea (if (na =? 0)%Z then h else fi) (mkAtt (x : Rnum) (h : Rnum) true :: hi)).
Proof.
  intros Hg Ha He Hh. unfold r_body. cbn [s_x s_h s_Y s_w s_last s_reject s_naccpt s_nrejct s_njac s_nstep s_ndec s_nsol s_nfcn s_hacc s_erracc s_first s_hist].
  rewrite Ha. cbn [bind]. unfold r_control. cbn [s_x s_h s_Y s_w s_last s_reject s_naccpt s_nrejct s_njac s_nstep s_ndec s_nsol s_nfcn s_hacc s_erracc s_first s_hist].
  assert (E : @nleb Rnum err (nlit 1 0) = true) by (rlit; apply Rleb_true; lra). rewrite E, Hg. cbn [andb].
  rewrite Hh. rewrite !mABS_R, !mMIN_R. cbn [nltb Rnum]. unfold Rltb. destruct (Rlt_dec _ _), rej; reflexivity.
Qed.
Lemma hnew0 (h : R) : 0 < (o_safe o : R) -> @r_hnew Rnum o h 0 = 6 * h.
Proof.
  intros Hs. rewrite r_hnew_R. unfold sqsq. rewrite !sqrt_0. unfold Rdiv at 3. rewrite Rmult_0_l.
  rewrite Rmin_right by lra. rewrite Rmax_left by lra. change (h / (1 / 6) = 6 * h :> R). field.
Qed.
Lemma outer_end f i st : s_last st = true -> @r_outer Rnum W Ax prep attempt o xend s hm f i st = Ok st.
Proof. intros E. destruct f; cbn [r_outer]; rewrite E; reflexivity. Qed.
Lemma outer_one f i st st1 aux st2 r : s_last st = false -> @r_head Rnum W Ax prep xend s hm st = Ok (st1, aux) ->
  @r_inner Rnum W Ax attempt o s hm i aux st1 = Ok st2 -> (s_nstep st2 <= o_nmax o)%Z -> o_onestep o = false ->
  @r_outer Rnum W Ax prep attempt o xend s hm f i st2 = r ->
  @r_outer Rnum W Ax prep attempt o xend s hm (S f) i st = r.
Proof.
  intros H1 H2 H3 H4 H5 H6. cbn [r_outer]. rewrite H1, H2. cbn [bind]. rewrite H3. cbn [bind].
  destruct (Z.ltb_spec (o_nmax o) (s_nstep st2)); [lia|]. rewrite H5. exact H6.
Qed.
Lemma inner_acc f aux st st' : @r_body Rnum W Ax attempt o s hm aux st = Ok st' -> s_reject st' = false ->
  @r_inner Rnum W Ax attempt o s hm (S f) aux st = Ok st'.
Proof. intros H1 H2. cbn [r_inner]. rewrite H1. cbn [bind]. rewrite H2. reflexivity. Qed.
Lemma inner_rej f aux st st' r : @r_body Rnum W Ax attempt o s hm aux st = Ok st' -> s_reject st' = true ->
  @r_inner Rnum W Ax attempt o s hm f aux st' = r ->
  @r_inner Rnum W Ax attempt o s hm (S f) aux st = r.
Proof. intros H1 H2 H3. cbn [r_inner]. rewrite H1. cbn [bind]. rewrite H2. exact H3. Qed.
End Run.

(* the caller's array after the run, and the solution the solver computed *)
Lemma undelivered : exists st,
  @rodas Rnum _ _ (@sc_prep Rnum 1) (@sc_attempt Rnum 1 meth1) (opts false) 2 1 (@sc_world Rnum) 1 0 1 (fun _ => 0) 0 0 0
    = Ok (st, fun _ => 0) /\ s_x st = 1 /\ 1 / 2 < s_Y st 1%Z.
Proof.
  unfold rodas. rewrite posneg_fwd, hmaxn_fwd by lra.
  edestruct (sc_step (mkW (tt, (0 : Rnum) :: nil) n0 (fun _ => n0)) (fun _ => 1, fun _ => n0)) as (w' & Y' & err & E1 & E2 & E3);
    [cbn; rewrite Rlit_0; reflexivity|reflexivity|].
  eexists. split.
  - apply bind_ok.
    eapply outer_one; [reflexivity| | | |reflexivity|].
    + apply head_run with (h1 := 1) (stop := true).
      * rewrite Rabs_R0, Rabs_R1. lra.
      * rewrite Rabs_R1. destruct (Rlt_dec _ _); [lra|]. rewrite Rmin_left; lra.
      * lra.
      * reflexivity.
    + eapply inner_acc.
      * replace (1 - 0) with 1 by lra. eapply accept_run; [reflexivity|exact E1|exact E2|reflexivity].
      * reflexivity.
    + cbn. lia.
    + apply outer_end. reflexivity.
  - cbn [s_x s_Y]. split; [lra|exact E3].
Qed.

(* ---- scripted error estimates: true = passes, false = fails ---------------------- *)
Definition sp_prep (w : list bool) (x : R) (Y : Z -> R) : out (list bool * unit) := Ok (w, tt).
Definition sp_attempt (w : list bool) (aux : unit) (x h : R) (Y : Z -> R) : out (list bool * (Z -> R) * R) :=
  match w with
  | true :: w' => Ok (w', Y, 0)
  | false :: w' => Ok (w', Y, 10000)
  | nil => Ok (nil, Y, 0)
  end.
Definition A (x h : R) (b : bool) : att Rnum := mkAtt (x : Rnum) (h : Rnum) b.
Ltac absr := repeat match goal with |- context [Rabs ?a] => first [rewrite (Rabs_right a) by lra|rewrite (Rabs_left a) by lra] end.
Ltac dec := absr; repeat match goal with |- context [Rlt_dec ?a ?b] => destruct (Rlt_dec a b); [try (exfalso; lra)|try (exfalso; lra)] end.
Ltac mn := repeat match goal with |- context [Rmin ?a ?b] => first [rewrite (Rmin_left a b) by lra|rewrite (Rmin_right a b) by lra] end.
Ltac arith := cbv iota; dec; absr; mn; absr; lra.
Ltac goh q b := eapply head_run with (h1 := q) (stop := b); [absr; lra|arith|lra|reflexivity].
Ltac rej := eapply inner_rej; [eapply reject_run; [cbn; lra|reflexivity]|reflexivity|].
Ltac acc p := eapply inner_acc; [eapply accept_run with (err := 0) (h' := p); [reflexivity|reflexivity|lra|rewrite hnew0 by (cbn; lra); cbv zeta; arith]|reflexivity].

(* one rejection, not counted *)
Lemma miscount : exists st,
  @rodas Rnum _ _ sp_prep sp_attempt (opts false) 4 2 (false :: true :: true :: true :: nil) 1 0 1 (fun _ => 0) 0 0 0
    = Ok (st, fun _ => 0) /\ s_naccpt st = 3%Z /\ s_nrejct st = 0%Z /\ s_nstep st = 4%Z.
Proof.
  unfold rodas. rewrite posneg_fwd, hmaxn_fwd by lra. eexists. split.
  - apply bind_ok. eapply outer_one; [reflexivity|goh 1 true|rej; acc (1 / 5)|cbn; lia|reflexivity|].
    eapply outer_one; [reflexivity|goh (1 / 5) false|acc 1|cbn; lia|reflexivity|].
    eapply outer_one; [reflexivity|goh 1 true|acc 1|cbn; lia|reflexivity|].
    apply outer_end. reflexivity.
  - cbn. auto.
Qed.

(* a step is multiplied by 24 right after a rejection: the floor of line 341 replaces the
   small proposal by 1e-6 *)
Definition tiny : R := 8 / 10 ^ 16.
Lemma jump : exists st older,
  @rodas Rnum _ _ sp_prep sp_attempt (opts false) 2 3 (false :: false :: true :: true :: nil) 1 0 tiny (fun _ => 0) 0 0 0
    = Ok (st, fun _ => 0) /\
  exists b a r, s_hist st = b :: a :: r :: older /\ a_acc r = false /\ a_acc a = true /\
    a_x b = a_x a + a_h a /\ a_h b = 24 * a_h a /\ 0 < a_h a.
Proof.
  unfold rodas, tiny. rewrite posneg_fwd, hmaxn_fwd by lra. do 2 eexists. split.
  - apply bind_ok. eapply outer_one; [reflexivity|goh (8 / 10 ^ 16) true|rej; rej; acc (32 / 10 ^ 18)|cbn; lia|reflexivity|].
    eapply outer_one; [reflexivity|goh (8 / 10 ^ 16) true|acc (8 / 10 ^ 16)|cbn; lia|reflexivity|].
    apply outer_end. reflexivity.
  - do 3 eexists. split; [reflexivity|]. cbn [a_acc a_x a_h]. repeat split; lra.
Qed.

(* ---- not-a-number ------------------------------------------------------------------ *)
(* rationals with an absorbing element, as IEEE arithmetic has: every operation on it
   gives it back and every comparison with it is false *)
Definition lift1 (f : Q -> Q) (a : option Q) : option Q := match a with Some a => Some (f a) | None => None end.
Definition lift2 (f : Q -> Q -> Q) (a b : option Q) : option Q :=
  match a, b with Some a, Some b => Some (f a b) | _, _ => None end.
Definition test2 (f : Q -> Q -> bool) (a b : option Q) : bool :=
  match a, b with Some a, Some b => f a b | _, _ => false end.
Definition NanQ : num :=
  mkNum (option Q) (fun m e => Some (Qlit m e)) (lift2 Qplus) (lift2 Qminus) (lift2 Qmult) (lift2 Qdiv)
    (lift1 Qopp) (test2 Qltb) (test2 Qle_bool) (test2 Qeq_bool) (lift1 (fun a => a)) (lift2 (fun a _ => a)).
(* a right-hand side that answers NaN: the call never ends, whatever nmax is *)
Lemma nan_spins (C : rcoef NanQ) (o : ropts NanQ) fuel ifuel :
  @rodas NanQ _ _ (@sc_prep NanQ None) (@sc_attempt NanQ None C) o fuel ifuel (@sc_world NanQ)
     (Some 1%Q) (Some 0%Q) (Some 1%Q) (fun _ => Some 0%Q) (Some 0%Q) (Some 0%Q) (Some 0%Q) = Diverge.
Proof.
  apply rodas_spins.
  - intros w [DY1 FX] x h Y. do 3 eexists. split; [reflexivity|]. reflexivity.
  - intros w x y. do 2 eexists. reflexivity.
  - vm_compute. reflexivity.
Qed.
(* the same in exact arithmetic, with an error estimate that never gets below 1 *)
Lemma hard_spins (o : ropts Rnum) fuel ifuel :
  @rodas Rnum unit unit (fun w _ _ => Ok (w, tt)) (fun w _ _ _ Y => Ok (w, Y, 2)) o fuel ifuel tt
     1 0 1 (fun _ => 0) 0 0 0 = Diverge.
Proof.
  apply rodas_spins.
  - intros. do 3 eexists. split; [reflexivity|]. rlit. apply Rleb_false. lra.
  - intros. do 2 eexists. reflexivity.
  - rewrite !mABS_R. rewrite Rabs_R0, Rabs_R1. unfold r_uround. rlit. apply Rleb_false. lra.
Qed.

Lemma backward_two_one :
  (exists st, @rodas Rnum _ _ sp_prep sp_attempt (opts true) 1 1 (true :: nil) 1 2 1 (fun _ => 0) 0 0 0 = Ok (st, fun _ => 0) /\
     s_x st = 5) /\
  (forall W Ax (prep : W -> R -> (Z -> R) -> out (W * Ax)) attempt h0 fuel ifuel w y a b c r,
     rodas prep attempt (opts false) fuel ifuel w h0 2 1 y a b c <> Ok r).
Proof.
  split.
  - unfold rodas. rewrite posneg_bwd, hmaxn_wrong by lra. eexists. split.
    + apply bind_ok. cbn [r_outer s_last r_init].
      assert (E : forall X Y (m : out X) (f : X -> out Y) x y, m = Ok x -> f x = Ok y -> bind m f = Ok y) by (intros; subst; assumption || (rewrite H; assumption)).
      eapply E; [goh 3 false|]. cbv beta iota. eapply E.
      * eapply inner_acc; [eapply accept_run with (err := 0); [reflexivity|reflexivity|lra|reflexivity]|reflexivity].
      * reflexivity.
    + cbn [s_x]. lra.
  - intros W Ax prep attempt h0 fuel ifuel w y a b c r H.
    pose proof (backward_never W Ax prep attempt (opts false) 2 h0 1 ltac:(lra) ltac:(lra) fuel ifuel w y a b c) as G.
    rewrite H in G. cbn in G. destruct G. discriminate.
Qed.

(* ---- setTestPolicy ------------------------------------------------------------------ *)
Open Scope Z_scope.
Lemma vector_tolerances : forall (K : num) n (_atol _rtol atol rtol : Z -> K), 1 <= n ->
  exists msg, setTestPolicy n false n n _atol _rtol atol rtol = UB msg.
Proof.
  intros K n _atol _rtol atol rtol Hn. unfold setTestPolicy, forM.
  replace (Z.to_nat (n - 1 + 1)) with (S (Z.to_nat (n - 1))) by lia.
  assert (G : forall k lo st, lo + Z.of_nat k = n -> 1 <= lo -> exists msg,
    iterM (S k) lo (fun i st => let '(atol, rtol) := st in
      r <- rd 0 (n - 1) _rtol i ;; rtol <- wr 1 n rtol i r ;;
      a <- rd 0 (n - 1) _atol i ;; atol <- wr 1 n atol i a ;; Ok (atol, rtol)) st = UB msg).
  { induction k as [|k IH]; intros lo [a r] E Hlo.
    - cbn [iterM]. unfold rd at 1, inb. destruct (Z.leb_spec 0 lo), (Z.leb_spec lo (n - 1)); try lia. cbn [andb bind]. eexists; reflexivity.
    - change (iterM (S (S k)) lo ?f ?s) with (bind (f lo s) (iterM (S k) (lo + 1) f)). cbv beta iota.
      unfold rd, wr, inb. destruct (Z.leb_spec 0 lo), (Z.leb_spec lo (n - 1)), (Z.leb_spec 1 lo), (Z.leb_spec lo n); try lia. cbn [andb bind].
      apply IH; lia. }
  apply G; lia.
Qed.
Lemma scalar_tolerances : forall (K : num) n lenA lenR (_atol _rtol atol rtol : Z -> K), 0 <= n -> 1 <= lenA -> 1 <= lenR ->
  wp (setTestPolicy n true lenA lenR _atol _rtol atol rtol) (fun r =>
    forall i, 1 <= i <= n -> fst r i = _atol 0 /\ snd r i = _rtol 0).
Proof.
  intros K n lA lR _a _r a r Hn HA HR. unfold setTestPolicy.
  eapply wp_mono. 
  - apply (forM_ind (fun m (st : (Z -> K) * (Z -> K)) => forall i, 1 <= i < m -> fst st i = _a 0 /\ snd st i = _r 0)); [lia|lia|].
    intros j [a1 r1] Hj H. unfold rd, wr, inb.
    destruct (Z.leb_spec 0 0), (Z.leb_spec 0 (lA - 1)), (Z.leb_spec 0 (lR - 1)), (Z.leb_spec 1 j), (Z.leb_spec j n); try lia. cbn [andb bind wp fst snd].
    intros i Hi. unfold upd. destruct (Z.eqb_spec i j); [auto|]. apply (H i). lia.
  - intros st H i Hi. apply H. lia.
Qed.
