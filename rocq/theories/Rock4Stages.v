(* C100: the numbers of stages reported by Rock4 and Rock4-L. *)
From Coq Require Import Reals ZArith Lia List.
From Verif Require Import Base HessModel CMacros Rock4Model Rock4Spec Rock4Proofs Rock4Drive ExtReal Rock4Witness.
Import ListNotations.
Open Scope Z_scope.

(* Rock4.hpp:167, NbStages(): the member mdeg; after a pass it is equal to mdego (lines 228-231) *)
Definition nb_stages {K : num} {W : Type} (st : dst (K := K) W) : Z := u_mdego st.
Section D.
Context {K : num}.
Context {W : Type}.
Variable toint : K -> out Z.
Variable kern : Z -> Z -> Z -> W -> K -> out (W * K).
Variable init accept : W -> W.
Variable rho : W -> W * K.
Variable tend : K.
Notation body := (d_body toint kern accept rho tend).
Notation reach := (reach toint kern accept rho tend).
Lemma body_stages st st' : body st = Ok st' ->
  (u_mdego st' = u_mdego st /\ u_stages st' = u_stages st /\ 1 <= u_mdego st) \/ u_stages st' = Z.max (u_mdego st' + 4) (u_stages st).
Proof.
  unfold d_body. cbv zeta. set (h := if nleb (mABS_diff tend (u_t st)) _ then _ else _). destruct (nltb h _); [discriminate|].
  destruct (if u_nrho st =? 0 then rho (u_w st) else (u_w st, u_eig st)) as [w1 eig].
  destruct (toint _) as [z| | |]; cbn [bind]; try discriminate. destruct (if 152 <? z then _ else _) as [h1 z1].
  set (m := Z.max z1 5 - 4). assert (Hm : 1 <= m) by lia. clearbody m.
  destruct (Z.eqb_spec m (u_mdego st)) as [Hq|Hq]; cbn [bind].
  - destruct (kern _ _ _ w1 h1) as [[w2 err]| | |]; cbn [bind]; try discriminate.
    destruct (nltb err (nlit 1 0)); intros E; injection E as <-; cbn [u_mdego u_stages]; left; lia.
  - destruct (mdegre m (u_mp1 st)) as [[[d i] r]| | |]; cbn [bind]; try discriminate.
    destruct (kern d i r w1 h1) as [[w2 err]| | |]; cbn [bind]; try discriminate.
    destruct (nltb err (nlit 1 0)); intros E; injection E as <-; cbn [u_mdego u_stages]; right; destruct (Z.ltb_spec (u_stages st) (d + 4)); lia.
Qed.
Variables (w0 : W) (t0 h0 hl0 : K) (m1 m2 : Z).
Notation start := (r4_start init w0 t0 h0 hl0 m1 m2).
Definition most (l : list (att K)) : Z := fold_right (fun a s => Z.max (t_deg a + 4) s) 0 l.
Lemma stages_run st : reach start st ->
  u_stages st = most (u_hist st) /\ nb_stages st = match u_hist st with nil => 0 | a :: _ => t_deg a end /\ (u_mdego st = 0 \/ u_mdego st + 4 <= u_stages st).
Proof.
  intros HR. induction HR as [|st st' HR IH Ht Hb].
  - cbn. auto.
  - destruct (reach_pass toint kern init accept rho tend _ _ _ (start_cached init w0 t0 h0 hl0 m1 m2) HR Ht Hb) as (a & w1 & w2 & err & Hh & _ & _ & _ & Hd & _).
    destruct IH as (I1 & I2 & I3). rewrite Hh. unfold nb_stages in *. cbn [most fold_right]. fold (most (u_hist st)).
    destruct (body_stages st st' Hb) as [(B1 & B2 & B3)|B]; rewrite <- I1; lia.
Qed.
Lemma stages_reported st : reach start st -> u_stages st = most (u_hist st) /\ forall a l, u_hist st = a :: l -> nb_stages st = t_deg a.
Proof. intros HR. destruct (stages_run st HR) as (E1 & E2 & _). split; [exact E1|]. intros a l E. rewrite E2, E. reflexivity. Qed.
Lemma too_few st : reach start st -> u_hist st <> nil -> nb_stages st + 4 <= most (u_hist st).
Proof.
  intros HR Hn. destruct (stages_run st HR) as (_ & E & _). rewrite E. destruct (u_hist st) as [|a l]; [congruence|]. cbn [most fold_right]. lia.
Qed.
End D.

(* the stages are evaluations of the right-hand side: an attempted step of degree d makes d + 4 *)
Section N.
Context {K : num}.
Variable Sg : Type.
Variable userF : Sg -> vec K -> Sg * vec K.
Variable userrho : Sg -> Sg * K.
Variable toint : K -> out Z.
Variables (RECF FPA FPB FPBE : Z -> K) (size : Z) (atol rtol tend : K).
Notation kern := (kernel userF RECF FPA FPB FPBE size atol rtol).
Notation rho := (r4_rho userrho).
Definition total (l : list (att K)) : Z := fold_right (fun a s => t_deg a + 4 + s) 0 l.
Lemma stages_evaluations (e0 : est Sg) t0 h0 hl0 m1 m2 st :
  reach toint kern k_accept rho tend (r4_start (k_init userF) e0 t0 h0 hl0 m1 m2) st -> e_funccal (u_w st) = 1 + total (u_hist st).
Proof.
  intros HR. induction HR as [|st st' HR IH Ht Hb].
  - cbn [r4_start u_w u_hist total fold_right]. unfold k_init. destruct (callF userF _ _ _ _) as [H f]. reflexivity.
  - destruct (reach_pass toint kern (k_init userF) k_accept rho tend _ _ _ (start_cached _ _ _ _ _ _ _) HR Ht Hb) as (a & w1 & w2 & err & Hh & _ & Hq & _ & _ & _ & Hw & _ & Hk & _ & _ & Ha & Hr).
    assert (H2 : e_funccal w1 = e_funccal (u_w st)).
    { destruct (u_nrho st =? 0).
      - pose proof (rho_same Sg userrho (u_w st)) as X. cbv zeta in X. rewrite <- Hw in X. cbn [fst] in X. tauto.
      - injection Hw as -> _. reflexivity. }
    pose proof (kernel_total Sg userF RECF FPA FPB FPBE size atol rtol (fun _ _ => True) ltac:(auto) _ _ _ w1 (t_h a) 0 (proj2 (proj2 Hq)) Logic.I) as X.
    rewrite Hk in X. cbn [wp fst] in X. destruct X as [X1 _].
    rewrite Hh. cbn [total fold_right]. fold (total (u_hist st)).
    destruct (t_acc a).
    + destruct (Ha eq_refl) as [-> _]. cbn [k_accept e_funccal]. lia.
    + destruct (Hr eq_refl) as [-> _]. lia.
Qed.
End N.

(* the run of Rock4Witness: a rejected step, then an accepted one *)
Lemma missed_case : exists T st,
  reach (K := ExtR) toint_R kern0 id0 rho0 (Fin T) (r4_start id0 0 (Fin 0%R) (Fin 1%R) (Fin 0%R) 0 0) st /\
  Datatypes.length (u_hist st) = 2%nat /\ nb_stages st <> most (u_hist st).
Proof.
  destruct (stale 0) as (T & st & HR & _ & _ & HL). exists T, st. split; [exact HR|]. split; [exact HL|].
  assert (Hn : u_hist st <> nil) by (intros E; rewrite E in HL; discriminate).
  pose proof (too_few _ _ id0 id0 _ _ _ _ _ _ _ _ st HR Hn). lia.
Qed.
