(* Proofs about LogModel.v.  The specification is independent of the loop: filter, then
   number from 1, then print each line. *)
From Coq Require Import ZArith List String Lia.
From Verif Require Import LogModel.
Import ListNotations.
Open Scope Z_scope.
Open Scope string_scope.

Section LogP.
Variable dbl : Type.
Variable tos_d : dbl -> string.
Variable tos_i : Z -> string.
Notation event := (event dbl).

(* one printed line *)
Definition line (k : Z) (e : event) : string :=
  tos_i k ++ " Time: " ++ tos_d (ev_time e) ++ " step: " ++ tos_i (ev_step e) ++ " Event: " ++
  names (ev_type e) ++
  match ev_type e with
  | changedH | rejectedStep => " new step: " ++ tos_d (ev_value e)
  | _ => "" end ++ nl.
Definition wanted (E : eventType) (e : event) : Prop := ev_type e = E \/ E = all.
(* the events of a history that are wanted, in order *)
Inductive selected (E : eventType) : list event -> list event -> Prop :=
| sel_nil : selected E [] []
| sel_in e L Sel : wanted E e -> selected E L Sel -> selected E (e :: L) (e :: Sel)
| sel_out e L Sel : ~ wanted E e -> selected E L Sel -> selected E (e :: L) Sel.
Fixpoint report (k : Z) (Sel : list event) : string :=
  match Sel with [] => "" | e :: Sel => line k e ++ report (k + 1) Sel end.
(* a history of put calls *)
Definition record_all (puts : list (dbl * Z * eventType * dbl)) : list event :=
  fold_left (fun L p => let '(t, s, e, v) := p in log_put L t s e v) puts [].

Lemma str_app_assoc (a b c : string) : (a ++ b) ++ c = a ++ (b ++ c).
Proof. induction a; cbn; congruence. Qed.
Lemma str_app_nil (a : string) : a ++ "" = a.
Proof. induction a; cbn; congruence. Qed.
Lemma ev_eqb_spec a b : ev_eqb a b = true <-> a = b.
Proof. destruct a, b; cbn; split; congruence. Qed.
Lemma wanted_dec E e : (ev_eqb (ev_type e) E || ev_eqb E all)%bool = true <-> wanted E e.
Proof. unfold wanted. rewrite Bool.orb_true_iff, !ev_eqb_spec. tauto. Qed.

Lemma loop_spec E L : forall k ret, exists Sel, selected E L Sel /\
  tostring_loop tos_d tos_i E L k ret = ret ++ report (k + 1) Sel.
Proof.
  induction L as [|e L IH]; intros k ret; cbn [tostring_loop].
  - exists []. split; [constructor|]. cbn. rewrite str_app_nil. reflexivity.
  - destruct (ev_eqb (ev_type e) E || ev_eqb E all)%bool eqn:H.
    + apply wanted_dec in H. destruct (IH (k + 1) (ret ++ ((if (ev_eqb (ev_type e) changedH || ev_eqb (ev_type e) rejectedStep)%bool
        then (tos_i (k + 1) ++ " Time: " ++ tos_d (ev_time e) ++ " step: " ++ tos_i (ev_step e) ++ " Event: " ++ names (ev_type e)) ++ " new step: " ++ tos_d (ev_value e)
        else tos_i (k + 1) ++ " Time: " ++ tos_d (ev_time e) ++ " step: " ++ tos_i (ev_step e) ++ " Event: " ++ names (ev_type e)) ++ nl))) as (Sel & HS & Eq).
      exists (e :: Sel). split; [constructor; assumption|]. cbv zeta. rewrite Eq. cbn [report].
      rewrite !str_app_assoc. f_equal. rewrite <- !str_app_assoc. f_equal. unfold line.
      destruct (ev_type e); cbn [ev_eqb orb names]; rewrite ?str_app_assoc; cbn; rewrite ?str_app_nil; reflexivity.
    + destruct (IH k ret) as (Sel & HS & Eq). exists Sel. split; [|exact Eq]. constructor; [|exact HS].
      intros W. apply wanted_dec in W. congruence.
Qed.
Lemma selected_fun E L Sel Sel' : selected E L Sel -> selected E L Sel' -> Sel = Sel'.
Proof. intros H. revert Sel'. induction H; intros Sel'' H'; inversion H'; subst; try contradiction; f_equal; auto. Qed.
Lemma selected_all L : selected all L L.
Proof. induction L; constructor; auto. right; reflexivity. Qed.
Lemma record_all_spec puts : record_all puts = map (fun p => let '(t, s, e, v) := p in Ev t v s e) puts.
Proof.
  unfold record_all. assert (H : forall acc, fold_left (fun L p => let '(t, s, e, v) := p in log_put L t s e v) puts acc
    = (acc ++ map (fun p => let '(t, s, e, v) := p in Ev t v s e) puts)%list).
  { induction puts as [|[[[t s] e] v] ps IH]; intros acc; cbn; [rewrite app_nil_r; reflexivity|].
    rewrite IH. unfold log_put. rewrite <- app_assoc. reflexivity. }
  apply H.
Qed.
Lemma logger_lemma puts E :
  exists Sel, selected E (map (fun p => let '(t, s, e, v) := p in Ev t v s e) puts) Sel /\
    tostring tos_d tos_i (record_all puts) E = report 1 Sel /\
    (E = all -> Sel = map (fun p => let '(t, s, e, v) := p in Ev t v s e) puts).
Proof.
  rewrite record_all_spec. destruct (loop_spec E (map (fun p => let '(t, s, e, v) := p in Ev t v s e) puts) 0 "") as (Sel & HS & Eq).
  exists Sel. split; [exact HS|]. split; [exact Eq|]. intros ->. eapply selected_fun; [exact HS|apply selected_all].
Qed.
End LogP.
(* the text of an event tells its type *)
Lemma names_inj e e' : names e = names e' -> e = e'.
Proof. destruct e, e'; cbn [names]; intros H; solve [reflexivity | discriminate H]. Qed.
