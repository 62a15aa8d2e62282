(* C91 for SymplecticRK *)
From Coq Require Import ZArith Reals Lra Lia Bool List FunctionalExtensionality.
From Flocq Require Import Core BinarySingleNaN.
From Verif Require Import Base HessModel F64 SympModel SympTables SympProofs SympTop SympTabProofs RepeatSpec.
Import ListNotations.
Open Scope Z_scope.

Section Rel.
Context {K : num}.
Variables n s : Z.
Hypothesis Hn : 0 <= n.
Hypothesis Hs : 1 <= s.
Variable long : bool.
Variable nar : K -> K.
Variable f : vec K -> vec K.
Variables ta tb tq : Z -> K.
Let ag (m : Z) (x x' : Z -> K) := forall i, 0 <= i < m -> x i = x' i.
Let ag2 (x x' : Z -> K) := forall i l, 0 <= i < s -> 0 <= l < n -> x (i * n + l) = x' (i * n + l).
Lemma both_wp {A B} (P : A -> Prop) (Q : B -> Prop) (R : A -> B -> Prop) a b : wp a P -> wp b Q -> (forall x y, P x -> Q y -> R x y) -> both R a b.
Proof. destruct a, b; cbn; try contradiction. auto. Qed.
Lemma both_seq {A B A' B'} (R : A -> B -> Prop) (Q : A' -> B' -> Prop) a b g g' :
  both R a b -> (forall x y, R x y -> both Q (g x) (g' y)) -> both Q (bind a g) (bind b g').
Proof. destruct a, b; cbn; try contradiction; try congruence; auto. Qed.
Lemma stage_same Y Y' i : ag2 Y Y' -> 0 <= i < s -> stage n Y i = stage n Y' i.
Proof. intros H Hi. extensionality l. unfold stage. destruct (inb 0 (n - 1) l) eqn:E; [|reflexivity]. apply inb_iff in E. apply H; lia. Qed.
Lemma newval_same ga ga' u u' Y Y' i l : ag (s * s) ga ga' -> ag n u u' -> ag2 Y Y' -> 0 <= i < s -> 0 <= l < n -> newval n s ga u Y i l = newval n s ga' u' Y' i l.
Proof.
  intros Hg Hu HY Hi Hl. unfold newval. rewrite (Hu l Hl). apply acc_ext. intros j Hj. rewrite (Hg (i * s + j)) by nia. rewrite (HY j l Hj Hl). reflexivity.
Qed.
Lemma sqsum_same ga ga' u u' Y1 Y1' Y Y' : ag (s * s) ga ga' -> ag n u u' -> ag2 Y1 Y1' -> ag2 Y Y' -> sqsum n s ga u Y1 Y s = sqsum n s ga' u' Y1' Y' s.
Proof.
  intros Hg Hu H1 HY. unfold sqsum. apply for_ext. intros i tv Hi. apply acc_ext. intros l Hl.
  rewrite (newval_same ga ga' u u' Y1 Y1' i l) by (assumption || lia). rewrite (HY i l) by lia. reflexivity.
Qed.
Definition it_rel (x x' : bool * Z * vec K * vec K * vec K * K * K * Z) : Prop :=
  let '(ok, it, _, Y, Y1, tv, tvold, _) := x in let '(ok', it', _, Y', Y1', tv', tvold', _) := x' in
  ok = ok' /\ it = it' /\ ag2 Y Y' /\ (ok = true -> ag2 Y1 Y1') /\ tv = tv'.
Lemma iterate_both ga ga' u u' k : ag (s * s) ga ga' -> ag n u u' -> forall it v v' Y Y' Y1 Y1' tv tvold tvold' nev nev', ag2 Y Y' ->
  both it_rel (iterate n s long f k it ga u v Y Y1 tv tvold nev) (iterate n s long f k it ga' u' v' Y' Y1' tv tvold' nev').
Proof.
  intros Hg Hu. induction k as [|k IH]; intros it v v' Y Y' Y1 Y1' tv tvold tvold' nev nev' HY; cbn [iterate].
  - cbn. do 3 (split; [auto|]). split; [discriminate|reflexivity].
  - eapply both_seq; [eapply (both_wp _ _ (fun x x' => ag2 (snd (fst x)) (snd (fst x')))); [apply slopes_ok; assumption|apply slopes_ok; assumption|]|].
    { intros [[a b] c] [[a' b'] c'] (_ & HA) (_ & HA') i l Hi Hl. cbn [fst snd]. rewrite HA, HA' by assumption. rewrite (stage_same Y Y' i HY Hi). reflexivity. }
    intros [[v1 Z1] nv1] [[v1' Z1'] nv1'] HZ. cbn [fst snd] in HZ.
    eapply both_seq; [eapply (both_wp _ _ (fun x x' => ag2 (snd (fst x)) (snd (fst x')) /\ snd x = snd x')); [apply heart_ok; assumption|apply heart_ok; assumption|]|].
    { intros [[a b] c] [[a' b'] c'] (E & HA) (E' & HA'). cbn [fst snd]. split.
      - intros i l Hi Hl. rewrite HA, HA' by assumption. apply newval_same; assumption.
      - rewrite E, E'. apply sqsum_same; assumption. }
    intros [[v2 Y2] tv2] [[v2' Y2'] tv2'] [HY2 E]. cbn [fst snd] in HY2, E. subst tv2'.
    destruct (success long tv2 tv); [cbn; auto 6|]. apply IH. exact HY2.
Qed.
Definition coefs_of (h : K) (o : obj (K := K)) : Prop := (oldh o =? h)%num = true ->
  (forall i, 0 <= i < s * s -> oga o i = (ta i * nar h)%num) /\ (forall i, 0 <= i < s -> ogb o i = (tb i * nar h)%num).
Lemma step_both itermax h o o' u u' : coefs_of h o -> coefs_of h o' -> ag n (oe o) (oe o') -> otv o = otv o' -> ag n u u' ->
  both (fun x x' => fst (fst x) = fst (fst x') /\ ag n (snd x) (snd x') /\ ag n (oe (snd (fst x))) (oe (snd (fst x'))) /\
      oiter (snd (fst x)) = oiter (snd (fst x')) /\ otv (snd (fst x)) = otv (snd (fst x')))
    (step n s long nar f ta tb tq itermax h true o u) (step n s long nar f ta tb tq itermax h true o' u').
Proof.
  intros Hc Hc' He Ht Hu. unfold step. cbn [negb andb].
  assert (C : forall o, coefs_of h o -> wp (if negb (oldh o =? h)%num then
      ga <- scale (s * s) ta (nar h) ;; gb <- scale s tb (nar h) ;; q <- scale (s * s) tq (nar h) ;; Ok (h, ga, gb, q)
    else Ok (oldh o, oga o, ogb o, oq o)) (fun x => let '(_, ga, gb, _) := x in (forall i, 0 <= i < s * s -> ga i = (ta i * nar h)%num) /\ (forall i, 0 <= i < s -> gb i = (tb i * nar h)%num))).
  { clear o o' Hc Hc' He Ht. intros o Hc. unfold coefs_of in Hc. destruct (oldh o =? h)%num; cbn [negb].
    - cbn. apply Hc. reflexivity.
    - apply wp_bind. eapply wp_mono; [apply scale_ok; nia|]. intros ga H1. apply wp_bind. eapply wp_mono; [apply scale_ok; lia|]. intros gb H2.
      apply wp_bind. eapply wp_mono; [apply scale_ok; nia|]. intros q _. cbn. split; assumption. }
  eapply both_seq; [eapply (both_wp _ _ (fun x x' => ag (s * s) (snd (fst (fst x))) (snd (fst (fst x'))) /\ ag s (snd (fst x)) (snd (fst x')))); [apply C, Hc|apply C, Hc'|]|].
  { intros [[[a b] c] d] [[[a' b'] c'] d'] [h1 h2] [h3 h4]. cbn [fst snd]. split; intros i Hi; [rewrite h1, h3 by assumption|rewrite h2, h4 by assumption]; reflexivity. }
  intros [[[oh ga] gb] q] [[[oh' ga'] gb'] q'] [Hga Hgb]. cbn [fst snd] in Hga, Hgb.
  eapply both_seq; [eapply (both_wp _ _ ag2); [apply spread_ok; assumption|apply spread_ok; assumption|]|].
  { intros Y Y' h1 h2 i l Hi Hl. rewrite h1, h2 by assumption. apply Hu, Hl. }
  intros Y Y' HY. rewrite <- Ht.
  eapply both_seq; [apply (iterate_both ga ga' u u' (Z.to_nat itermax) Hga Hu 0 _ _ Y Y' _ _ (otv o) _ _ _ _ HY)|].
  intros [[[[[[[ok it] v] Yl] Y1] tv] tvold] nev] [[[[[[[ok' it'] v'] Yl'] Y1'] tv'] tvold'] nev'] (<- & <- & HYl & HY1 & <-).
  destruct ok; [|cbn; auto 6]. specialize (HY1 eq_refl).
  eapply both_seq; [eapply (both_wp _ _ (fun x x' => ag n (snd x) (snd x') /\ ag n (snd (fst x)) (snd (fst x')))); [apply finish_ok; assumption|apply finish_ok; assumption|]|].
  { intros [[[a b] c] d] [[[a' b'] c'] d'] (_ & h1) (_ & h2). cbn [fst snd].
    assert (D : forall p, 0 <= p < n -> delta_ n s nar gb Y1 p = delta_ n s nar gb' Y1' p).
    { intros p Hp. apply acc_ext. intros i Hi. rewrite (Hgb i Hi), (HY1 i p Hi Hp). reflexivity. }
    split; intros p Hp; destruct (h1 p Hp) as [p1 p2]; destruct (h2 p Hp) as [p3 p4]; [rewrite p1, p3|rewrite p2, p4]; rewrite (D p Hp), (Hu p Hp), (He p Hp); reflexivity. }
  intros [[[a b] c] d] [[[a' b'] c'] d'] [h1 h2]. cbn [fst snd] in h1, h2. cbn. auto 6.
Qed.
End Rel.

(* exact arithmetic: the compensation of reachable objects is 0 *)
Lemma step_exact n s long f ta tb tq itermax h (o o' : obj (K := Rnum)) (u u' : vec Rnum) : 1 <= n -> 1 <= s ->
  reachable (K := Rnum) n s long (fun x => x) f ta tb tq o -> reachable (K := Rnum) n s long (fun x => x) f ta tb tq o' -> otv o = otv o' -> (forall i, 0 <= i < n -> u i = u' i) ->
  both (fun x x' => fst (fst x) = fst (fst x') /\ (forall i, 0 <= i < n -> snd x i = snd x' i) /\ oiter (snd (fst x)) = oiter (snd (fst x')))
    (step (K := Rnum) n s long (fun x => x) f ta tb tq itermax h true o u) (step (K := Rnum) n s long (fun x => x) f ta tb tq itermax h true o' u').
Proof.
  intros H1 H2 R1 R2 Et Hu. assert (H0 : 0 <= n) by lia.
  assert (C : forall o, reachable (K := Rnum) n s long (fun x => x) f ta tb tq o -> coefs_of (K := Rnum) s (fun x => x) ta tb h o /\ forall i, 0 <= i < n -> oe o i = 0%R).
  { intros p Hp. destruct (reach_robj n s long f ta tb tq H0 H2 p H1 Hp) as (A1 & A2 & A3). split; [|exact A3]. intros E. cbn in E. unfold Reqb in E.
    destruct (Req_EM_T (oldh p) h) as [e|]; [|discriminate]. rewrite <- e. split; assumption. }
  destruct (C o R1) as [C1 E1]. destruct (C o' R2) as [C2 E2].
  pose proof (step_both (K := Rnum) n s H0 H2 long (fun x => x) f ta tb tq itermax h o o' u u' C1 C2 (fun i Hi => eq_trans (E1 i Hi) (eq_sym (E2 i Hi))) Et Hu) as B.
  unfold both in *. destruct (step (K := Rnum) n s long (fun x => x) f ta tb tq itermax h true o u), (step (K := Rnum) n s long (fun x => x) f ta tb tq itermax h true o' u'); try exact B.
  tauto.
Qed.

(* double precision, the two-stage method, one component *)
Section Wit.
Variable pow : f64 -> f64 -> f64.
Notation K := (F64 pow).
Definition sy_new : out (obj (K := K)) := construct (K := K) 1 (tabv (tab_la false 2)) (tabv (tab_lb false 2)) (tabv (tab_lc false 2))
  (fun _ => f_lit 0 0) (fun _ => f_lit 0 0) (fun _ => f_lit 0 0) (fun _ => f_lit 0 0) (fun _ => f_lit 0 0) (fun _ => f_lit 0 0) 0.
Definition sy_step (f : vec K -> vec K) (itermax : Z) (o : obj (K := K)) (u : f64) : out (bool * obj (K := K) * vec K) :=
  step (K := K) 1 2 false (fun x => x) f (tabv (tab_la false 2)) (tabv (tab_lb false 2)) (tabv (tab_lc false 2)) itermax (f_lit 1 0) true o (fun _ => u).
Definition sy_one : vec K -> vec K := fun _ _ => f_lit 1 0.
Definition sy_id : vec K -> vec K := fun y => y.
Definition feq (x y : f64) : bool := match B2SF x, B2SF y with
  | SpecFloat.S754_zero _, SpecFloat.S754_zero _ => true
  | SpecFloat.S754_finite a m e, SpecFloat.S754_finite b m' e' => Bool.eqb a b && (Pos.eqb m m') && (Z.eqb e e')
  | _, _ => false end.
Lemma feq_ok x y : feq x y = true -> B2R x = B2R y.
Proof.
  unfold feq. destruct x as [a| | |a m e H], y as [b| | |b m' e' H']; cbn; try discriminate; [reflexivity|].
  rewrite !andb_true_iff. intros [[E1 E2] E3]. apply eqb_prop in E1. apply Pos.eqb_eq in E2. apply Z.eqb_eq in E3. subst. reflexivity.
Qed.
Definition sy_check : bool :=
  match sy_new with Ok o =>
    match sy_step sy_one 10 o (f_of (2 ^ 53)) with
    | Ok (true, o1, _) =>
        match sy_step sy_one 10 o1 (f_of 0), sy_step sy_one 10 o (f_of 0) with
        | Ok (true, _, u2), Ok (true, _, u3) => feq (u2 0) (f_of 2) && feq (u3 0) (f_of 1)
        | _, _ => false end
    | _ => false end
  | _ => false end.
Lemma sy_check_true : sy_check = true. Proof. vm_compute. reflexivity. Qed.
Local Opaque sy_step f_of sy_new.
Lemma sy_carried : exists o o1 u1 o2 u2 o3 u3, sy_new = Ok o /\ sy_step sy_one 10 o (f_of (2 ^ 53)) = Ok (true, o1, u1) /\
  sy_step sy_one 10 o1 (f_of 0) = Ok (true, o2, u2) /\ B2R (u2 0 : f64) = 2%R /\ sy_step sy_one 10 o (f_of 0) = Ok (true, o3, u3) /\ B2R (u3 0 : f64) = 1%R.
Proof.
  pose proof sy_check_true as H. unfold sy_check in H.
  destruct sy_new as [o| | |] eqn:E0; try discriminate.
  destruct (sy_step sy_one 10 o (f_of (2 ^ 53))) as [[[[|] o1] u1]| | |] eqn:E1; try discriminate.
  destruct (sy_step sy_one 10 o1 (f_of 0)) as [[[[|] o2] u2]| | |] eqn:E2; try discriminate.
  destruct (sy_step sy_one 10 o (f_of 0)) as [[[[|] o3] u3]| | |] eqn:E3; try discriminate.
  apply andb_true_iff in H. destruct H as [H1 H2]. apply feq_ok in H1, H2.
  exists o, o1, u1, o2, u2, o3, u3. do 3 (split; [assumption || reflexivity|]).
  rewrite H1, H2. split; [apply (f_of_val 2); lia|]. split; [assumption|apply (f_of_val 1); lia].
Qed.
Local Transparent sy_step f_of sy_new.
Definition sy_check2 : bool :=
  match sy_new with Ok o =>
    match sy_step sy_id 1 o (f_of 1) with
    | Ok (false, o1, _) =>
        match sy_step sy_id 1 o1 (f_of 0), sy_step sy_id 1 o (f_of 0) with
        | Ok (false, _, _), Ok (true, _, _) => true
        | _, _ => false end
    | _ => false end
  | _ => false end.
Lemma sy_check2_true : sy_check2 = true. Proof. vm_compute. reflexivity. Qed.
Local Opaque sy_step f_of sy_new.
Lemma sy_failed : exists o o1 u1 o2 u2 o3 u3, sy_new = Ok o /\ sy_step sy_id 1 o (f_of 1) = Ok (false, o1, u1) /\
  sy_step sy_id 1 o1 (f_of 0) = Ok (false, o2, u2) /\ sy_step sy_id 1 o (f_of 0) = Ok (true, o3, u3).
Proof.
  pose proof sy_check2_true as H. unfold sy_check2 in H.
  destruct sy_new as [o| | |] eqn:E0; try discriminate.
  destruct (sy_step sy_id 1 o (f_of 1)) as [[[[|] o1] u1]| | |] eqn:E1; try discriminate.
  destruct (sy_step sy_id 1 o1 (f_of 0)) as [[[[|] o2] u2]| | |] eqn:E2; try discriminate.
  destruct (sy_step sy_id 1 o (f_of 0)) as [[[[|] o3] u3]| | |] eqn:E3; try discriminate.
  exists o, o1, u1, o2, u2, o3, u3. do 3 (split; [assumption || reflexivity|]). assumption.
Qed.
End Wit.
