(* C91 for Rock4-L: a call computes the same whatever the work arrays and mp hold *)
From Coq Require Import ZArith Lia Bool List.
From Verif Require Import Base Spec HessModel VecFun CMacros Rock4Model Rock4Spec Rock4Proofs Rock4LModel RepeatSpec RepeatProofs RepeatRock.
Import ListNotations.
Open Scope Z_scope.

Section RockL.
Context {K : num}.
Variable Sg : Type.
Variable opL : Sg -> vec K -> vec K -> K -> K -> Sg * vec K.
Variable opLc : Sg -> vec K -> vec K -> K -> K -> K -> Sg * vec K.
Variable opA : Sg -> vec K -> vec K -> K -> K -> vec K -> Sg * vec K.
Variable opAc : Sg -> vec K -> vec K -> K -> K -> K -> vec K -> Sg * vec K.
Variables RECF FPA FPB : Z -> K.
Variable size : Z.
Let ag (v v' : Z -> K) := forall i, 0 <= i < size -> v i = v' i.
Let same_r (x x' : Sg * vec K) : Prop := fst x = fst x' /\ ag (snd x) (snd x').
Definition agl (V : list Z) (H H' : heap (K := K)) : Prop := forall p, In p V -> ag (H p) (H' p).
Let heq (V : list Z) (x x' : heap * Sg) : Prop := agl V (fst x) (fst x') /\ snd x = snd x'.
Lemma agl_set V H H' q v v' : agl V H H' -> ag v v' -> agl (q :: V) (hset H q v) (hset H' q v').
Proof.
  intros HA HV p Hin. unfold hset. destruct (Z.eqb_spec p q) as [e|e]; [exact HV|]. destruct Hin as [h|h]; [congruence|]. exact (HA _ h).
Qed.
Lemma ag_res V H H' q x x' : agl V H H' -> same_r x x' -> both (heq (q :: V)) (let '(f, v) := x in Ok (hset H q v, f)) (let '(f, v) := x' in Ok (hset H' q v, f)).
Proof. destruct x as [f v], x' as [f' v']. intros HA [E HV]. cbn in *. split; [apply agl_set; assumption|exact E]. Qed.
Hypothesis rdL : forall s x x' y y' a b, ag x x' -> ag y y' -> same_r (opL s x y a b) (opL s x' y' a b).
Lemma callL_both V H H' s p q a b o : agl V H H' -> In p V -> In q V -> both (heq (o :: V)) (callL opL H s p q a b o) (callL opL H' s p q a b o).
Proof.
  intros HA Ip Iq. unfold callL. destruct ((o =? p) || (o =? q)); [cbn; reflexivity|]. apply ag_res; [exact HA|]. apply rdL; apply HA; assumption.
Qed.
Definition call_local (call : heap (K := K) -> Sg -> Z -> Z -> K -> K -> K -> Z -> out (heap (K := K) * Sg)) (P : list Z) : Prop :=
  forall V H H' s p q a b c o, agl V H H' -> In p V -> In q V -> (forall x, In x P -> In x V) -> both (heq (o :: V)) (call H s p q a b c o) (call H' s p q a b c o).
Definition l_rel (P : list Z) (y : Z) (ok : bool) (x x' : heap (K := K) * Sg * Z * Z * Z) : Prop :=
  let '(H, s, g0, g1, g2) := x in let '(H', s', g0', g1', g2') := x' in
  s = s' /\ g0 = g0' /\ g1 = g1' /\ g2 = g2' /\ exists V, agl V H H' /\ In y V /\ (forall x, In x P -> In x V) /\ In g1 V /\ (ok = true -> In g0 V).
Lemma l_loop_both call P mr d dt y H H' s g0 g1 g2 V : call_local call P -> 1 <= d -> agl V H H' -> In y V -> (forall x, In x P -> In x V) -> In g1 V ->
  both (l_rel P y (2 <=? d)) (l_loop RECF call mr d dt y (H, s, g0, g1, g2)) (l_loop RECF call mr d dt y (H', s, g0, g1, g2)).
Proof.
  intros HC Hd HA Iy IP I1. unfold l_loop.
  eapply both_mono; [apply (both_forM (fun i => l_rel P y (2 <? i)))|]; [lia| | |].
  - cbn. do 4 (split; [auto|]). exists V. do 4 (split; [assumption|]). discriminate.
  - intros i [[[[h1 s1] a0] a1] a2] [[[[h1' s1'] a0'] a1'] a2'] Hi (<- & <- & <- & <- & V' & A & Iy' & IP' & Ig & Ig').
    apply both_same. intros [c1 c2]. eapply both_bind.
    + apply (HC V' h1 h1' s1 a1 (if i =? 2 then y else a0)); [exact A|exact Ig| |exact IP'].
      destruct (Z.eqb_spec i 2) as [e|ne]; [exact Iy'|]. apply Ig'. apply Z.ltb_lt. lia.
    + intros [u v] [u' v'] [Hu Hv]. cbn [fst snd] in Hu, Hv. subst v'. cbn. do 4 (split; [reflexivity|]). exists (a2 :: V'). split; [exact Hu|].
      split; [right; exact Iy'|]. split; [intros x Hx; right; apply IP', Hx|]. split; [left; reflexivity|]. intros _. right. exact Ig.
  - intros x x' Hx. destruct x as [[[[a b] c] d'] e], x' as [[[[a' b'] c'] d''] e']. cbn in *.
    destruct (Z.leb_spec 2 d) as [l|l]; [replace (2 <? d + 1) with true in Hx by (symmetry; apply Z.ltb_lt; lia)|replace (2 <? d + 1) with false in Hx by (symmetry; apply Z.ltb_ge; lia)]; exact Hx.
Qed.
Definition lest_rel (V : list Z) (e e' : lest (K := K) Sg) : Prop :=
  agl V (l_H e) (l_H e') /\ l_f e = l_f e' /\ l_funccal e = l_funccal e' /\ l_nsteps e = l_nsteps e'.
Ltac inV := cbn [In]; tauto.
Ltac cstep V := eapply (both_bind (heq V)); [apply callL_both; [eassumption|inV|inV]|];
  let H := fresh "H" in let H' := fresh "H'" in let A := fresh "A" in intros [H ?] [H' ?] [A ?]; cbn [fst snd] in *; subst;
  repeat match goal with X : agl _ ?a _ |- _ => lazymatch a with H => fail | _ => clear X end end.
Lemma kernel1_both y k1 g0 g1 g2 d i r e e' dt :
  (forall s x x' y y' a b c, ag x x' -> ag y y' -> same_r (opLc s x y a b c) (opLc s x' y' a b c)) -> 1 <= d -> lest_rel [y] e e' ->
  both (lest_rel [y]) (kernel1 opL opLc RECF FPA FPB y k1 g0 g1 g2 d i r e dt) (kernel1 opL opLc RECF FPA FPB y k1 g0 g1 g2 d i r e' dt).
Proof.
  intros rdLc Hd. destruct e as [H s fc ns], e' as [H' s' fc' ns']. intros (HA & Es & Efc & Ens). cbn [l_H l_f l_funccal l_nsteps] in *. subst s' fc' ns'.
  unfold kernel1. cbn [l_H l_f l_funccal l_nsteps]. cbv zeta. apply both_same; intros c.
  cstep [g1; y].
  eapply both_bind; [apply (l_loop_both (callLc opLc) [] r d dt y _ _ _ g0 g1 g2 [g1; y])|]; try assumption; try inV.
  { intros V a a' u p q x1 x2 x3 o Ha Ip Iq _. unfold callLc. destruct ((o =? p) || (o =? q)); [cbn; reflexivity|].
    apply ag_res; [exact Ha|]. apply rdLc; apply Ha; assumption. }
  intros [[[[a b] p0] p1] p2] [[[[a' b'] p0'] p1'] p2'] (<- & <- & <- & <- & V & Av & Iy & _ & I1 & _). clear A.
  assert (A : agl [p1; y] a a') by (intros p Hp; apply Av; cbn in Hp; destruct Hp as [ <- | [ <- | [] ] ]; assumption). clear Av V Iy I1.
  cbn [bind].
  do 10 (apply both_same; intro).
  cstep [k1; p1; y]. cstep [p0; k1; p1; y]. cstep [k1; p0; k1; p1; y]. cstep [y; k1; p0; k1; p1; y].
  cbn [both]. unfold lest_rel. cbn [l_H l_f l_funccal l_nsteps]. split; [|auto].
  match goal with A : agl _ ?a ?b |- agl _ ?a ?b => intros w Hin; apply (A w); revert Hin; inV end.
Qed.
Lemma kernel2_both y b k1 g0 g1 g2 d i r e e' dt :
  (forall s x x' y y' a b g g', ag x x' -> ag y y' -> ag g g' -> same_r (opA s x y a b g) (opA s x' y' a b g')) ->
  (forall s x x' y y' a b c g g', ag x x' -> ag y y' -> ag g g' -> same_r (opAc s x y a b c g) (opAc s x' y' a b c g')) -> 1 <= d -> 
  lest_rel [y; b] e e' ->
  both (lest_rel [y; b]) (kernel2 opL opA opAc RECF FPA FPB y b k1 g0 g1 g2 d i r e dt) (kernel2 opL opA opAc RECF FPA FPB y b k1 g0 g1 g2 d i r e' dt).
Proof.
  intros rdA rdAc Hd. destruct e as [H s fc ns], e' as [H' s' fc' ns']. intros (HA & Es & Efc & Ens). cbn [l_H l_f l_funccal l_nsteps] in *. subst s' fc' ns'.
  unfold kernel2. cbn [l_H l_f l_funccal l_nsteps]. cbv zeta. apply both_same; intros c.
  eapply (both_bind (heq [g1; y; b])).
  { unfold callA. destruct ((g1 =? y) || (g1 =? y) || (g1 =? b)); [cbn; reflexivity|]. apply ag_res; [exact HA|]. apply rdA; apply HA; inV. }
  intros [H0 s0] [H0' s0'] [A E]. cbn [fst snd] in A, E. subst s0'. clear HA.
  eapply both_bind; [apply (l_loop_both (fun H f pin ps u v w pout => callAc opAc H f pin ps u v w b pout) [b] r d dt y H0 H0' s0 g0 g1 g2 [g1; y; b])|]; try assumption; try inV.
  { intros V a a' u p q x1 x2 x3 o Ha Ip Iq IP. unfold callAc. destruct ((o =? p) || (o =? q) || (o =? b)); [cbn; reflexivity|].
    apply ag_res; [exact Ha|]. apply rdAc; apply Ha; try assumption. apply IP; inV. }
  intros [[[[a u] p0] p1] p2] [[[[a' u'] p0'] p1'] p2'] (<- & <- & <- & <- & V & Av & Iy & Ib & I1 & _). clear A.
  specialize (Ib b ltac:(inV)).
  assert (A : agl [p1; y; b] a a') by (intros p Hp; apply Av; cbn in Hp; destruct Hp as [ <- | [ <- | [ <- | [] ] ] ]; assumption). clear Av V Iy Ib I1.
  cbn [bind].
  do 10 (apply both_same; intro).
  cstep [k1; p1; y; b]. cstep [p0; k1; p1; y; b]. cstep [p2; p0; k1; p1; y; b]. cstep [p0; p2; p0; k1; p1; y; b].
  cbn [both]. unfold lest_rel. cbn [l_H l_f l_funccal l_nsteps]. split; [|auto].
  match goal with A : agl _ ?h1 ?h2 |- _ => 
    assert (A2 : agl [y; p0; p2; p0; k1; p1; y; b] (hset h1 y (fun i => (h1 p1 i + h1 p0 i)%num)) (hset h2 y (fun i => (h2 p1 i + h2 p0 i)%num))) end.
  { apply agl_set; [assumption|]. intros j Hj. match goal with A : agl _ ?a ?b |- _ => rewrite (A p1 ltac:(inV) j Hj), (A p0 ltac:(inV) j Hj); reflexivity end. }
  intros w Hin; apply (A2 w); revert Hin; inV.
Qed.

Variable W : Type.
Variable RW : W -> W -> Prop.
Variable toint : K -> out Z.
Variable kern : Z -> Z -> Z -> W -> K -> out W.
Hypothesis kern_both : forall d i r w w' h, 1 <= d -> RW w w' -> both RW (kern d i r w h) (kern d i r w' h).
Variable tend eigmax : K.
Definition v_rel (st st' : lst (K := K) W) : Prop :=
  v_t st = v_t st' /\ v_h st = v_h st' /\ v_mdego st = v_mdego st' /\ (v_mdego st = 0 \/ v_mp1 st = v_mp1 st' /\ v_mp2 st = v_mp2 st') /\
  v_stages st = v_stages st' /\ v_hist st = v_hist st' /\ RW (v_w st) (v_w st').
Lemma lv_body_both st st' : v_rel st st' -> both v_rel (lv_body toint kern tend eigmax st) (lv_body toint kern tend eigmax st').
Proof.
  destruct st as [t h mo m1 m2 sg w hi], st' as [t' h' mo' m1' m2' sg' w' hi']. unfold v_rel at 1. cbn [v_t v_h v_mdego v_mp1 v_mp2 v_stages v_w v_hist].
  intros (<- & <- & <- & Hmp & <- & <- & Hw). unfold lv_body. cbn [v_t v_h v_mdego v_mp1 v_mp2 v_stages v_w v_hist]. cbv zeta.
  set (h1 := if (fabs _ <=? _)%num then _ else _). clearbody h1. destruct (h1 <? nlit 10 0 * r4_uround)%num; [cbn; reflexivity|].
  apply both_same. intros md. destruct (Z.ltb_spec 152 md) as [l|l]; [cbn; reflexivity|].
  set (rq := Z.max md 5 - 4). assert (Hrq : 1 <= rq <= 148) by (unfold rq; lia). clearbody rq.
  eapply (both_bind (fun x x' => x = x' /\ 1 <= fst (fst (fst x)))).
  { destruct (Z.eqb_spec rq mo) as [e|ne].
    - destruct Hmp as [z|[-> ->]]; [exfalso; lia|]. cbn; split; [reflexivity|lia].
    - rewrite (mdegre_same rq m1 m1' Hrq). pose proof (selection rq m1' Hrq) as HS. destruct (mdegre rq m1') as [[[x y] z]| | |]; cbn in *; auto.
      split; [reflexivity|]. destruct HS as [_ HS]. apply right_block_bounds in HS. lia. }
  intros [[[md3 a1] a2] sg1] x' [ <- Hmd ]. cbn [fst] in Hmd. eapply both_bind; [apply (kern_both md3 a1 a2 w w' h1 Hmd Hw)|]. intros w2 w2' Hw2.
  cbn [both]. unfold v_rel. cbn [v_t v_h v_mdego v_mp1 v_mp2 v_stages v_w v_hist].
  do 3 (split; [reflexivity|]). split; [right; split; reflexivity|]. do 2 (split; [reflexivity|]). exact Hw2.
Qed.
Lemma rock4l_both wrong fuel w w' t0 h0 m1 m2 m1' m2' : RW w w' ->
  both v_rel (rock4l toint kern tend eigmax wrong fuel w t0 h0 m1 m2) (rock4l toint kern tend eigmax wrong fuel w' t0 h0 m1' m2').
Proof.
  intros Hw. unfold rock4l. destruct wrong; [cbn; reflexivity|].
  assert (L : forall fuel st st', v_rel st st' -> both v_rel (lv_loop toint kern tend eigmax fuel st) (lv_loop toint kern tend eigmax fuel st')).
  { clear w w' Hw fuel. induction fuel as [|f IH]; intros st st' H; cbn [lv_loop]; pose proof H as (Et & _); rewrite <- Et; destruct (v_t st <? tend)%num; try (cbn; exact H); [exact Logic.I|].
    eapply both_bind; [apply lv_body_both, H|]. exact IH. }
  apply L. unfold v_rel. cbn [v_t v_h v_mdego v_mp1 v_mp2 v_stages v_w v_hist]. do 3 (split; [reflexivity|]). split; [left; reflexivity|]. do 2 (split; [reflexivity|]). exact Hw.
Qed.
End RockL.

Lemma rock4l_linear (K : num) Sg (opL : Sg -> vec K -> vec K -> K -> K -> Sg * vec K) (opLc : Sg -> vec K -> vec K -> K -> K -> K -> Sg * vec K)
  toint RECF FPA FPB size y k1 g0 g1 g2 (tend rho : K) wrong fuel (e e' : lest (K := K) Sg) t0 h0 m1 m1' m2 m2' :
  let same := fun r r' : Sg * vec K => fst r = fst r' /\ forall i, 0 <= i < size -> snd r i = snd r' i in
  let ag := fun v v' : vec K => forall i, 0 <= i < size -> v i = v' i in
  (forall s x x' y y' a b, ag x x' -> ag y y' -> same (opL s x y a b) (opL s x' y' a b)) ->
  (forall s x x' y y' a b c, ag x x' -> ag y y' -> same (opLc s x y a b c) (opLc s x' y' a b c)) ->
  l_f e = l_f e' -> ag (l_H e y) (l_H e' y) ->
  let call := rock4l toint (kernel1 opL opLc RECF FPA FPB y k1 g0 g1 g2) tend rho wrong fuel in
  both (fun st st' => v_t st = v_t st' /\ ag (l_H (v_w st) y) (l_H (v_w st') y) /\ l_f (v_w st) = l_f (v_w st') /\ v_stages st = v_stages st' /\
      l_funccal (v_w st) = l_funccal (v_w st') /\ l_nsteps (v_w st) = l_nsteps (v_w st') /\ v_hist st = v_hist st')
    (call (l_init e) t0 h0 m1 m2) (call (l_init e') t0 h0 m1' m2').
Proof.
  intros same ag HL HLc Ef Ay call. subst call.
  eapply both_mono; [apply (rock4l_both (lest Sg) (lest_rel Sg size [y]))|].
  - intros d i r w w' h Hd Hw. apply (kernel1_both Sg opL opLc (fun s _ x _ _ _ => (s, x)) (fun s _ x _ _ _ _ => (s, x)) RECF FPA FPB size HL); assumption.
  - unfold lest_rel, l_init. cbn [l_H l_f l_funccal l_nsteps]. split; [|auto]. intros p [ <- | [] ]. exact Ay.
  - intros st st' (E1 & E2 & E3 & E4 & E5 & E6 & HA & F1 & F2 & F3). split; [exact E1|]. split; [exact (HA y (or_introl eq_refl))|]. auto 6.
Qed.
Lemma rock4l_affine (K : num) Sg (opL : Sg -> vec K -> vec K -> K -> K -> Sg * vec K) (opA : Sg -> vec K -> vec K -> K -> K -> vec K -> Sg * vec K) (opAc : Sg -> vec K -> vec K -> K -> K -> K -> vec K -> Sg * vec K)
  toint RECF FPA FPB size y b k1 g0 g1 g2 (tend rho : K) wrong fuel (e e' : lest (K := K) Sg) t0 h0 m1 m1' m2 m2' :
  let same := fun r r' : Sg * vec K => fst r = fst r' /\ forall i, 0 <= i < size -> snd r i = snd r' i in
  let ag := fun v v' : vec K => forall i, 0 <= i < size -> v i = v' i in
  (forall s x x' y y' a b, ag x x' -> ag y y' -> same (opL s x y a b) (opL s x' y' a b)) ->
  (forall s x x' y y' a b g g', ag x x' -> ag y y' -> ag g g' -> same (opA s x y a b g) (opA s x' y' a b g')) ->
  (forall s x x' y y' a b c g g', ag x x' -> ag y y' -> ag g g' -> same (opAc s x y a b c g) (opAc s x' y' a b c g')) ->
  l_f e = l_f e' -> ag (l_H e y) (l_H e' y) -> ag (l_H e b) (l_H e' b) ->
  let call := rock4l toint (kernel2 opL opA opAc RECF FPA FPB y b k1 g0 g1 g2) tend rho wrong fuel in
  both (fun st st' => v_t st = v_t st' /\ ag (l_H (v_w st) y) (l_H (v_w st') y) /\ ag (l_H (v_w st) b) (l_H (v_w st') b) /\ l_f (v_w st) = l_f (v_w st') /\ v_stages st = v_stages st' /\
      l_funccal (v_w st) = l_funccal (v_w st') /\ l_nsteps (v_w st) = l_nsteps (v_w st') /\ v_hist st = v_hist st')
    (call (l_init e) t0 h0 m1 m2) (call (l_init e') t0 h0 m1' m2').
Proof.
  intros same ag HL HA0 HAc Ef Ay Ab call. subst call.
  eapply both_mono; [apply (rock4l_both (lest Sg) (lest_rel Sg size [y; b]))|].
  - intros d i r w w' h Hd Hw. apply (kernel2_both Sg opL (fun s _ x _ _ _ => (s, x)) opA opAc RECF FPA FPB size HL); assumption.
  - unfold lest_rel, l_init. cbn [l_H l_f l_funccal l_nsteps]. split; [|auto]. intros p [ <- | [ <- | [] ] ]; assumption.
  - intros st st' (E1 & E2 & E3 & E4 & E5 & E6 & HA & F1 & F2 & F3). split; [exact E1|]. split; [exact (HA y (or_introl eq_refl))|]. split; [exact (HA b (or_intror (or_introl eq_refl)))|]. auto 6.
Qed.
