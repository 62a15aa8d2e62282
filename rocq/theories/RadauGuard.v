(* The factorizations used by the Newton iteration and the error estimate always belong to
   the step size in use: guarding every use changes nothing. *)
From Coq Require Import ZArith Lia.
From Verif Require Import Base HessModel CMacros VecFun JacModel RodasProofs RadauModel RadauProofs.

Section Guard.
Context {K : num}.
Variable W : Type.
Variable jacob : W -> K -> vec K -> out W.
Variable mats : W -> K -> out W.
Variable evalF : W -> K -> vec K -> W.
Variable doscal : W -> vec K -> W.
Variable newton : W -> bool -> K -> K -> K -> vec K -> out (W * nres K).
Variable estrad : W -> K -> K -> vec K -> bool -> bool -> out (W * K).
Variable adv : W -> vec K -> vec K.
Variable save : W -> W.
Variable o : dopts K.
(* "the factorizations held in w are those for the step size h" *)
Variable ph : W -> K -> bool.
Hypothesis Hmats : forall w h w', mats w h = Ok w' -> ph w' h = true.
Hypothesis Heval : forall w h x Y, ph w h = true -> ph (evalF w x Y) h = true.
Hypothesis Hscal : forall w h Y, ph w h = true -> ph (doscal w Y) h = true.
Hypothesis Hsave : forall w h, ph w h = true -> ph (save w) h = true.
Hypothesis Hnew : forall w z x h hold Y w' r, ph w h = true -> newton w z x h hold Y = Ok (w', r) -> ph w' h = true.
Hypothesis Hest : forall w x h Y f r w' e, ph w h = true -> estrad w x h Y f r = Ok (w', e) -> ph w' h = true.
Definition newton_g w z x h hold Y := if ph w h then newton w z x h hold Y else UB "stale factorization".
Definition estrad_g w x h Y f r := if ph w h then estrad w x h Y f r else UB "stale factorization".
Notation pass1 := (@d_newton K W jacob mats doscal newton).
Notation pass2 := (@d_newton K W jacob mats doscal newton_g).
Lemma refresh_ph b w x h Y nj : pc (@d_refresh K W jacob mats b w x h Y nj) (fun r => ph (fst r) h = true).
Proof.
  unfold d_refresh. apply pc_bind. destruct (if b then _ else _) as [[w1 n1]| | |]; cbn [pc]; try exact I.
  destruct (mats w1 h) eqn:E; cbn [bind pc fst]; try exact I. eapply Hmats, E.
Qed.
Lemma pass_same st : ph (q_w st) (q_h st) = true -> pass2 st = pass1 st /\ pc (pass1 st) (fun st' => ph (q_w st') (q_h st') = true).
Proof.
  intros H. unfold d_newton, newton_g. rewrite H. split; [reflexivity|].
  destruct (newton _ _ _ _ _ _) as [[w r]| | |] eqn:E; cbn [bind]; try exact I.
  destruct (nr_reason r).
  - cbn [pc q_w q_h]. eapply Hnew; eassumption.
  - apply pc_bind. eapply pc_mono; [apply refresh_ph|]. intros [w' nj] H'. cbn [pc q_w q_h fst] in *. apply Hscal, H'.
  - apply pc_bind. eapply pc_mono; [apply refresh_ph|]. intros [w' nj] H'. cbn [pc q_w q_h fst] in *. apply Hscal, H'.
Qed.
Lemma redo_same k : forall st, ph (q_w st) (q_h st) = true ->
  @d_redo K W jacob mats doscal newton_g k st = @d_redo K W jacob mats doscal newton k st /\
  pc (@d_redo K W jacob mats doscal newton k st) (fun st' => ph (q_w st') (q_h st') = true).
Proof.
  induction k as [|k IH]; intros st H; cbn [d_redo]; [split; [reflexivity|exact I]|].
  destruct (pass_same st H) as [E P]. rewrite E. destruct (pass1 st) as [st'| | |]; cbn [bind pc] in *; auto.
  destruct (q_redo st'); [apply IH, P|]. split; [reflexivity|exact P].
Qed.
Lemma control_same xend posneg hmaxn st xph : ph (q_w st) (q_h st) = true ->
  @d_control K W jacob mats evalF doscal estrad_g adv save o xend posneg hmaxn st xph =
  @d_control K W jacob mats evalF doscal estrad adv save o xend posneg hmaxn st xph /\
  pc (@d_control K W jacob mats evalF doscal estrad adv save o xend posneg hmaxn st xph)
     (fun r => snd r = false -> ph (q_w (fst r)) (q_h (fst r)) = true).
Proof.
  intros H. unfold d_control, estrad_g. rewrite H. split; [reflexivity|].
  destruct (estrad _ _ _ _ _ _) as [[w err]| | |] eqn:E; cbn [bind]; try exact I. cbv zeta.
  assert (Hw : ph w (q_h st) = true) by (eapply Hest; eassumption).
  destruct (err <? nlit 1 0)%num; [destruct (d_onestep o)|].
  - cbn [pc snd]. discriminate.
  - destruct (_ || _)%bool; [cbn [pc snd]; discriminate|].
    destruct (nlit 0 0 <=? _)%num; [|destruct (_ && _ && _)%bool].
    2: { cbn [pc fst snd q_w q_h]. intros _. auto. }
    all: apply pc_bind; eapply pc_mono; [apply refresh_ph|]; intros [w' nj] H'; cbn [pc fst snd q_w q_h] in *; auto.
  - apply pc_bind. eapply pc_mono; [apply refresh_ph|]. intros [w' nj] H'. cbn [pc fst snd q_w q_h] in *. auto.
Qed.
Lemma loop_same xend posneg hmaxn ifuel fuel : forall st, ph (q_w st) (q_h st) = true ->
  @d_loop K W jacob mats evalF doscal newton_g estrad_g adv save o xend posneg hmaxn fuel ifuel st =
  @d_loop K W jacob mats evalF doscal newton estrad adv save o xend posneg hmaxn fuel ifuel st.
Proof.
  induction fuel as [|f IH]; intros st H; cbn [d_loop]; [reflexivity|]. destruct (d_nmax o <? q_nstep st)%Z; [reflexivity|].
  destruct (redo_same ifuel st H) as [-> P]. destruct (d_redo _ _ _ _ _ st) as [st'| | |]; cbn [bind pc] in *; auto.
  destruct (control_same xend posneg hmaxn st' (d_xph st') P) as [-> P'].
  destruct (d_control _ _ _ _ _ _ _ _ _ _ _ _ _) as [[st2 leave]| | |]; cbn [bind pc fst snd] in *; auto.
  destruct leave; [reflexivity|]. apply IH. auto.
Qed.
Lemma radau_same fuel ifuel w h x xend Y a b c d e :
  radau jacob mats evalF doscal newton_g estrad_g adv save o fuel ifuel w h x xend Y a b c d e =
  radau jacob mats evalF doscal newton estrad adv save o fuel ifuel w h x xend Y a b c d e.
Proof.
  unfold radau. cbv zeta. destruct (jacob _ _ _) as [w1| | |]; cbn [bind]; auto.
  destruct (mats w1 _) as [w2| | |] eqn:E; cbn [bind]; auto. apply loop_same. cbn [q_w q_h]. apply Hscal. eapply Hmats, E.
Qed.
End Guard.

Section Real.
Context {K : num}.
Variables Sg La : Type.
Variable userF : Sg -> K -> vec K -> Sg * vec K.
Variable userJ : Sg -> K -> vec K -> vec K -> vec K -> Sg * vec K.
Variable decomr : La -> K -> vec K -> out (La * vec K).
Variable decomc : La -> K -> K -> vec K -> out La.
Variable solvereal : La -> vec K -> vec K -> out (vec K).
Variable solvecomplex : La -> vec K -> vec K -> vec K -> out (vec K * vec K).
Variable set_calhes : La -> La.
Variables (n : Z) (sh : shape) (numjac : bool) (c : rdc K) (atol rtol : vec K) (nit : Z) (thet fnewt : K) (nfuel : nat) (o : dopts K).
(* "la holds, for J, the factorizations for the step size h" *)
Variable PL : La -> vec K -> K -> bool.
Hypothesis HPL : forall la la' la'' J J' h, decomr la (U1 c / h)%num J = Ok (la', J') ->
  decomc la' (ALPH c / h)%num (BETA c / h)%num J' = Ok la'' -> PL la'' J' h = true.
Definition current (w : @wrk K Sg La) (h : K) : bool := PL (k_la w) (k_jac w) h.
Lemma newton_la fl : forall x h xph Y newt theta (w : @wrk K Sg La),
  pc (newton_loop userF solvereal solvecomplex n c nit fnewt fl x h xph Y newt theta w)
    (fun p => k_la (fst p) = k_la w /\ k_jac (fst p) = k_jac w).
Proof.
  induction fl as [|fl IH]; intros x h xph Y newt theta w; cbn [newton_loop]; [exact I|].
  destruct (userF _ _ _) as [f1 A1]. destruct (userF f1 _ _) as [f2 A2]. destruct (userF f2 _ _) as [f3 A3]. cbv zeta.
  destruct (slvrad _ _ _ _ _ _ _ _ _ _ _ _) as [[[Z1 Z2] Z3]| | |]; cbn [bind]; try exact I.
  destruct (newton_test _ _ _ _ _ _ _ _ _) as [[newh|] [[fc th] tq]]; destruct (Z.eqb _ _); cbn [pc fst k_la k_jac]; auto.
  destruct (nltb _ _); cbn [pc fst k_la k_jac]; auto.
  eapply pc_mono; [apply IH|]. intros p [-> ->]. auto.
Qed.
Lemma real_same fuel ifuel w h x xend Y a b d e e' :
  radau (k_jacob userF userJ set_calhes n sh numjac) (k_mats decomr decomc c) (k_evalF userF) (k_doscal atol rtol)
    (newton_g _ (k_newton userF solvereal solvecomplex n c nit thet fnewt nfuel) current)
    (estrad_g _ (k_estrad userF solvereal n c) current) (@k_adv K Sg La) (k_save c) o fuel ifuel w h x xend Y a b d e e' =
  radau (k_jacob userF userJ set_calhes n sh numjac) (k_mats decomr decomc c) (k_evalF userF) (k_doscal atol rtol)
    (k_newton userF solvereal solvecomplex n c nit thet fnewt nfuel)
    (k_estrad userF solvereal n c) (@k_adv K Sg La) (k_save c) o fuel ifuel w h x xend Y a b d e e'.
Proof.
  apply radau_same; unfold current.
  - intros w0 h0 w' H. unfold k_mats in H. destruct (decomr _ _ _) as [[la J]| | |] eqn:E1; cbn [bind] in H; try discriminate.
    destruct (decomc la _ _ _) as [la'| | |] eqn:E2; cbn [bind] in H; try discriminate. injection H as <-. cbn [k_la k_jac].
    eapply HPL; eassumption.
  - intros w0 h0 x0 Y0 H. unfold k_evalF. destruct (userF _ _ _). exact H.
  - intros w0 h0 Y0 H. exact H.
  - intros w0 h0 H. exact H.
  - intros w0 z x0 h0 hold Y0 w' r H E. unfold k_newton in E. cbv zeta in E.
    destruct z;
    match type of E with ?t = _ => assert (P : pc t (fun p => k_la (fst p) = k_la w0 /\ k_jac (fst p) = k_jac w0)) by (eapply pc_mono; [apply newton_la|]; intros p P; exact P) end;
    rewrite E in P; cbn [pc fst] in P; destruct P as [-> ->]; exact H.
  - intros w0 x0 h0 Y0 f r w' e0 H E. unfold k_estrad in E. cbv zeta in E.
    destruct (solvereal _ _ _) as [C| | |]; cbn [bind] in E; try discriminate.
    destruct (_ && _)%bool.
    + destruct (userF _ _ _). destruct (solvereal _ _ _); cbn [bind] in E; try discriminate. injection E as <- _. exact H.
    + injection E as <- _. exact H.
Qed.
End Real.
