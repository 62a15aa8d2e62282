(* Proofs about the driver of RodasModel.v. *)
From Coq Require Import Reals Lra.
From Verif Require Import Base HessModel CMacros RodasModel.
Open Scope Z_scope.

(* partial correctness: if the computation completes normally its result satisfies Q *)
Definition pc {A} (m : out A) (Q : A -> Prop) : Prop := match m with Ok a => Q a | _ => True end.
Lemma pc_bind {A B} (m : out A) (f : A -> out B) Q : pc m (fun a => pc (f a) Q) -> pc (bind m f) Q.
Proof. destruct m; cbn; auto. Qed.
Lemma pc_mono {A} (m : out A) (P Q : A -> Prop) : pc m P -> (forall a, P a -> Q a) -> pc m Q.
Proof. destruct m; cbn; auto. Qed.
Lemma pc_ok {A} (m : out A) Q a : pc m Q -> m = Ok a -> Q a.
Proof. intros H ->. exact H. Qed.

Section Rules.
Context {K : num}.
Variables W Ax : Type.
Variable prep : W -> K -> (Z -> K) -> out (W * Ax).
Variable attempt : W -> Ax -> K -> K -> (Z -> K) -> out (W * (Z -> K) * K).
Variable o : ropts K.
Variables xend posneg hmaxn : K.
Notation rst := (@rst K W).
Notation body := (r_body attempt o posneg hmaxn).
Notation head := (r_head prep xend posneg hmaxn).
Notation inner := (r_inner attempt o posneg hmaxn).
Notation outer := (r_outer prep attempt o xend posneg hmaxn).

Lemma inner_rule (J M : rst -> Prop) aux :
  (forall st, J st -> pc (body aux st) (fun st' => if s_reject st' then J st' else M st')) ->
  forall fuel st, J st -> pc (inner fuel aux st) M.
Proof.
  intros Hb. induction fuel as [|f IH]; intros st HJ; cbn [r_inner]; [exact I|].
  apply pc_bind. eapply pc_mono; [apply Hb; exact HJ|]. intros st' H. cbv beta in H.
  destruct (s_reject st'); [apply IH; exact H|exact H].
Qed.
Lemma outer_rule (I M Q : rst -> Prop) (J : Ax -> rst -> Prop) :
  (forall st, I st -> s_last st = true -> Q st) ->
  (forall st, I st -> s_last st = false -> pc (head st) (fun p => J (snd p) (fst p))) ->
  (forall aux st, J aux st -> pc (body aux st) (fun st' => if s_reject st' then J aux st' else M st')) ->
  (forall st, M st -> s_nstep st <= o_nmax o -> if o_onestep o then Q st else I st) ->
  forall fuel ifuel st, I st -> pc (outer fuel ifuel st) Q.
Proof.
  intros HQ Hh Hb Hm. induction fuel as [|f IH]; intros ifuel st HI; cbn [r_outer].
  - destruct (s_last st) eqn:E; [apply HQ; assumption|exact Logic.I].
  - destruct (s_last st) eqn:E; [apply HQ; assumption|].
    apply pc_bind. eapply pc_mono; [apply Hh; assumption|]. intros [st1 aux] HJ. cbn [fst snd] in HJ.
    apply pc_bind. eapply pc_mono; [apply (inner_rule (J aux) M); [apply Hb|exact HJ]|].
    intros st2 HM. cbv beta. destruct (Z.ltb_spec (o_nmax o) (s_nstep st2)); [exact Logic.I|].
    specialize (Hm st2 HM ltac:(lia)). destruct (o_onestep o); [exact Hm|]. apply IH. exact Hm.
Qed.

(* ---- statistics, for every arithmetic --------------------------------------- *)
Definition n_acc (l : list (att K)) : Z := Z.of_nat (List.length (filter (@a_acc K) l)).
Definition n_all (l : list (att K)) : Z := Z.of_nat (List.length l).
(* rejections that happened after the second acceptance (l has the newest first) *)
Fixpoint late_rej (l : list (att K)) : Z :=
  match l with
  | nil => 0
  | a :: l => late_rej l + (if negb (a_acc a) && (1 <? n_acc l) then 1 else 0)
  end.
Definition counters (st : rst) : Prop :=
  s_nstep st = n_all (s_hist st) /\ s_ndec st = n_all (s_hist st) /\
  s_nsol st = 6 * n_all (s_hist st) /\ s_nfcn st = 5 * n_all (s_hist st) /\
  s_naccpt st = n_acc (s_hist st) /\ s_nrejct st = late_rej (s_hist st).
Lemma counters_body aux st : counters st ->
  pc (body aux st) (fun st' => counters st' /\ s_njac st' = s_njac st /\
     exists a, s_hist st' = a :: s_hist st /\ a_x a = s_x st /\ a_h a = s_h st /\ a_acc a = negb (s_reject st')).
Proof.
  intros (H1 & H2 & H3 & H4 & H5 & H6). unfold r_body. apply pc_bind.
  destruct (attempt _ _ _ _ _) as [[[w Y] err]| | |]; cbn [pc]; try exact I.
  unfold r_control. cbn [s_x s_h s_Y s_w s_last s_reject s_naccpt s_nrejct s_njac s_nstep s_ndec s_nsol s_nfcn s_hacc s_erracc s_first s_hist].
  destruct (err <=? nlit 1 0)%num eqn:E; unfold counters, n_all, n_acc; cbn - [Z.mul Z.add Z.ltb];
    rewrite ?H1, ?H2, ?H3, ?H4, ?H5, ?H6; unfold n_all, n_acc; cbn - [Z.mul Z.add Z.ltb]; rewrite ?Nat2Z.inj_succ;
    repeat split; try lia; try (destruct (1 <? _); lia); try (eexists; split; [reflexivity|]; cbn; auto).
Qed.
Lemma counters_lemma fuel ifuel w h x y a b c :
  pc (outer fuel ifuel (r_init w h x y a b c)) (fun st =>
    counters st /\ s_njac st = n_acc (s_hist st) /\ n_acc (s_hist st) + s_nrejct st <= n_all (s_hist st)).
Proof.
  assert (Hfin : forall st, counters st -> n_acc (s_hist st) + s_nrejct st <= n_all (s_hist st)).
  { intros st (_ & _ & _ & _ & _ & ->). induction (s_hist st) as [|a0 l IH]; cbn; [unfold n_acc, n_all; cbn; lia|].
    unfold n_acc, n_all in *. cbn. destruct (a_acc a0); cbn [negb andb List.length]; [lia|]. destruct (1 <? _); lia. }
  apply (outer_rule (fun st => counters st /\ s_njac st = n_acc (s_hist st))
           (fun st => counters st /\ s_njac st = n_acc (s_hist st)) _
           (fun _ st => counters st /\ s_njac st = n_acc (s_hist st) + 1)).
  - intros st [H1 H2] _. auto.
  - intros st [H1 H2] _. unfold r_head. destruct (_ <=? _)%num; [exact I|].
    destruct (prep _ _ _) as [[w' aux]| | |]; cbn [bind pc fst snd]; try exact I.
    destruct H1 as (A1 & A2 & A3 & A4 & A5 & A6). unfold counters. cbn. repeat split; auto. lia.
  - intros aux st [H1 H2]. eapply pc_mono; [apply counters_body; exact H1|].
    intros st' (C1 & C2 & (a0 & E & _ & _ & Ea)).
    destruct (s_reject st') eqn:Er; (split; [exact C1|]); rewrite C2, H2, E; unfold n_acc; cbn; rewrite Ea; cbn [negb List.length]; lia.
  - intros st [H1 H2] _. destruct (o_onestep o); auto.
  - split; [|reflexivity]. unfold counters, n_all, n_acc; cbn. repeat split; reflexivity.
Qed.

(* ---- termination as far as it goes ------------------------------------------ *)
(* if every step is accepted within k attempts, fuel nmax+2 outside and k inside is enough *)
Lemma inner_mono f1 : forall f2 aux st, (f1 <= f2)%nat -> inner f1 aux st <> Diverge -> inner f2 aux st = inner f1 aux st.
Proof.
  induction f1 as [|f1 IH]; intros f2 aux st Hf Hd; [exfalso; apply Hd; reflexivity|].
  destruct f2 as [|f2]; [lia|]. cbn [r_inner] in *. destruct (body aux st) as [st'| | |]; cbn [bind] in *; auto.
  destruct (s_reject st'); auto. apply IH; [lia|exact Hd].
Qed.
Definition quickly (k : nat) : Prop := forall aux st, inner k aux st <> Diverge.
Lemma body_nstep aux st : pc (body aux st) (fun st' => s_nstep st' = s_nstep st + 1).
Proof.
  unfold r_body. destruct (attempt _ _ _ _ _) as [[[w Y] err]| | |]; cbn [bind pc]; try exact I.
  unfold r_control. destruct (err <=? nlit 1 0)%num; reflexivity.
Qed.
Lemma inner_nstep fuel aux : forall st, pc (inner fuel aux st) (fun st' => s_nstep st + 1 <= s_nstep st').
Proof.
  induction fuel as [|f IH]; intros st; cbn [r_inner]; [exact I|]. apply pc_bind.
  eapply pc_mono; [apply body_nstep|]. intros st' E. cbv beta in E. destruct (s_reject st').
  - eapply pc_mono; [apply IH|]. cbv beta. intros. lia.
  - cbn [pc]. lia.
Qed.
Lemma outer_terminates k : (forall w x y, prep w x y <> Diverge) -> quickly k ->
  forall fuel ifuel st, (k <= ifuel)%nat -> Z.of_nat fuel > o_nmax o - s_nstep st -> (1 <= fuel)%nat ->
  outer fuel ifuel st <> Diverge.
Proof.
  intros Hp Hq. induction fuel as [|f IH]; intros ifuel st Hk Hf H1; [lia|]. cbn [r_outer].
  destruct (s_last st); [discriminate|].
  destruct (head st) as [[st1 aux]| | |] eqn:Eh; cbn [bind]; try discriminate.
  2:{ unfold r_head in Eh. destruct (_ <=? _)%num; [discriminate|].
      destruct (prep _ _ _) as [[w' a']| | |] eqn:Ep; cbn [bind] in Eh; try discriminate. exfalso; eapply Hp; exact Ep. }
  assert (E1 : s_nstep st1 = s_nstep st).
  { unfold r_head in Eh. destruct (_ <=? _)%num; [discriminate|].
    destruct (prep _ _ _) as [[w' a']| | |]; cbn [bind] in Eh; try discriminate. inversion Eh; reflexivity. }
  pose proof (inner_nstep ifuel aux st1) as Hn.
  destruct (inner ifuel aux st1) as [st2| | |] eqn:Ei; cbn [bind]; try discriminate.
  2:{ exfalso. rewrite (inner_mono k) in Ei; [|exact Hk|apply Hq]. exact (Hq _ _ Ei). }
  cbn [pc] in Hn. destruct (Z.ltb_spec (o_nmax o) (s_nstep st2)); [discriminate|].
  destruct (o_onestep o); [discriminate|].
  apply IH; [exact Hk|lia|]. destruct f; [|lia]. lia.
Qed.
End Rules.
