(* C30, C31, C33, C34: consequences of Rock4Real.one_pass. *)
From Coq Require Import Reals Lra.
From Verif Require Import Base CMacros ExtReal Rock4Model Rock4Spec Rock4Proofs Rock4Drive Rock4Real.
Open Scope R_scope.

Section D.
Context {W : Type}.
Variable toint : ext -> out Z.
Variable kern : Z -> Z -> Z -> W -> ext -> out (W * ext).
Variable init accept : W -> W.
Variable rho : W -> W * ext.
Variable T : R.
Notation body := (d_body (K := ExtR) toint kern accept rho (Fin T)).
Notation loop := (d_loop (K := ExtR) toint kern accept rho (Fin T)).
Notation reach := (reach (K := ExtR) toint kern accept rho (Fin T)).
Hypothesis toint_ok : forall x z, toint x = Ok z -> exists r, x = Fin r /\ (0 <= r -> IZR z <= r < IZR z + 1).
Variables (w0 : W) (t0 h0 : R) (hl0 : ext) (m1 m2 : Z).
Notation start := (r4_start (K := ExtR) init w0 (Fin t0) (Fin h0) hl0 m1 m2).
Notation run := (fun fuel => rock4 (K := ExtR) toint kern init accept rho (Fin T) fuel w0 (Fin t0) (Fin h0) hl0 m1 m2).

Lemma start_ok : ok start t0 h0.
Proof.
  constructor; cbn; try reflexivity; try lia.
  - exists 5. split; [apply (f_equal Fin), Rlit_0|lra].
  - exists 0. apply (f_equal Fin), Rlit_0.
  - left. reflexivity.
Qed.
Lemma lt_dec t : nltb (n := ExtR) (Fin t) (Fin T) = true <-> t < T.
Proof. cbn. destruct (Rltb_spec t T); split; intros; try reflexivity; try lra; discriminate. Qed.
Definition timed (a : att ExtR) : Prop := exists t h, t_t a = Fin t /\ t_h a = Fin h /\ t0 <= t /\ 0 < h /\ t + h <= T.
Lemma reach_time st : t0 <= T -> reach start st -> exists t h, ok st t h /\ t0 <= t <= T /\ Forall timed (u_hist st) /\ Forall stable (u_hist st).
Proof.
  intros H0 HR. induction HR as [|st st' HR IH Ht Hb].
  - exists t0, h0. split; [apply start_ok|]. split; [lra|]. split; constructor.
  - destruct IH as (t & h & Hok & Htb & HF & HS). rewrite (ok_t _ _ _ Hok) in Ht. apply lt_dec in Ht.
    pose proof (proj1 (one_pass toint kern accept rho T toint_ok st t h Hok Ht)) as HP. rewrite Hb in HP.
    destruct HP as (a & h1 & h2 & t' & h' & Hh & Ha & Ha2 & Hs & Hok' & _ & B1 & B2 & A1 & A2).
    exists t', h'. split; [exact Hok'|]. rewrite Hh. split; [|split].
    + destruct (t_acc a); [destruct (A1 eq_refl) as [-> _]|destruct (A2 eq_refl) as [-> _]]; lra.
    + constructor; [|exact HF]. exists t, h2. repeat split; auto; lra.
    + constructor; assumption.
Qed.
(* one pass from a reachable state *)
Lemma reach_step st st' : t0 <= T -> reach start st -> nltb (n := ExtR) (u_t st) (Fin T) = true -> body st = Ok st' ->
  exists t t' h a, u_t st = Fin t /\ u_t st' = Fin t' /\ u_hist st' = a :: u_hist st /\ t_h a = Fin h /\ 0 < h /\
    t' = (if t_acc a then t + h else t).
Proof.
  intros H0 HR Ht Hb. destruct (reach_time st H0 HR) as (t & h & Hok & Htb & _). rewrite (ok_t _ _ _ Hok) in Ht. apply lt_dec in Ht.
  pose proof (proj1 (one_pass toint kern accept rho T toint_ok st t h Hok Ht)) as HP. rewrite Hb in HP.
  destruct HP as (a & h1 & h2 & t' & h' & Hh & Ha & Ha2 & Hs & Hok' & _ & B1 & B2 & A1 & A2).
  exists t, t', h2, a. split; [apply Hok|]. split; [apply Hok'|]. split; [exact Hh|]. split; [exact Ha2|]. split; [lra|].
  destruct (t_acc a); [apply A1; reflexivity|apply A2; reflexivity].
Qed.
Lemma returns_at_tend fuel st : t0 <= T -> run fuel = Ok st -> u_t st = Fin T.
Proof.
  intros H0 H. destruct (loop_reach toint kern accept rho (Fin T) start fuel start (reach0 _ _ _ _ _ _) st H) as [HR Hx].
  destruct (reach_time st H0 HR) as (t & h & Hok & Htb & _). rewrite (ok_t _ _ _ Hok) in *. f_equal.
  cbn in Hx. destruct (Rltb_spec t T); [discriminate|]. lra.
Qed.

(* ---- termination ---------------------------------------------------------------------------- *)
Hypothesis toint_div : forall x, toint x <> Diverge.
Hypothesis kern_div : forall d i r w h, right_block d i r -> kern d i r w h <> Diverge.
Definition ends (st : dst (K := ExtR) W) : Prop := exists n, loop n st <> Diverge.
Lemma ends_done st t h : ok st t h -> T <= t -> ends st.
Proof.
  intros Hok H. exists 0%nat. cbn [d_loop]. rewrite (ok_t _ _ _ Hok). cbn. destruct (Rltb_spec t T); [lra|]. discriminate.
Qed.
Lemma ends_step st t h : ok st t h -> t < T -> (forall st', body st = Ok st' -> stepped T st t h st' -> ends st') -> ends st.
Proof.
  intros Hok Ht HN. pose proof (proj1 (one_pass toint kern accept rho T toint_ok st t h Hok Ht)) as HP.
  destruct (body st) as [st'|s|s|] eqn:Eb.
  - destruct (HN st' eq_refl HP) as [n Hn]. exists (S n). cbn [d_loop]. destruct (nltb _ _); [|discriminate].
    cbn [bind]. rewrite Eb. exact Hn.
  - exists 1%nat. cbn [d_loop]. destruct (nltb _ _); [|discriminate]. rewrite Eb. discriminate.
  - exists 1%nat. cbn [d_loop]. destruct (nltb _ _); [|discriminate]. rewrite Eb. discriminate.
  - destruct HP as [(x & Hx)|(d & i & r & w & hh & Hr & Hx)]; [elim (toint_div _ Hx)|elim (kern_div _ _ _ _ _ Hr Hx)].
Qed.
Lemma ends_small st t h : ok st t h -> 101 / 100 * h < 10 / 10000000000000000 -> ends st.
Proof.
  intros Hok Hh. destruct (Rlt_dec t T) as [Ht|Ht]; [|eapply ends_done; [exact Hok|lra]].
  destruct (proj2 (one_pass toint kern accept rho T toint_ok st t h Hok Ht)) as [s Hs].
  { destruct (Rle_dec (T - t) (101 / 100 * h)); lra. }
  exists 1%nat. cbn [d_loop]. destruct (nltb _ _); [|discriminate]. rewrite Hs. discriminate.
Qed.
Definition delta : R := 1 / 10000000000000000.
Lemma shrink h : exists n, 101 / 100 * (h * (65 / 100) ^ n) < 10 / 10000000000000000.
Proof.
  destruct (Rle_dec h 0) as [H|H].
  - exists 0%nat. cbn. lra.
  - destruct (pow_lt_1_zero (65 / 100) ltac:(rewrite Rabs_right; lra) (8 / 10000000000000000 / h) ltac:(apply Rdiv_lt_0_compat; lra)) as [n Hn].
    specialize (Hn n (le_n n)). rewrite Rabs_right in Hn by (apply Rle_ge, pow_le; lra).
    exists n. apply Rlt_trans with (101 / 100 * (8 / 10000000000000000)); [|lra].
    apply Rmult_lt_compat_l; [lra|]. apply (Rmult_lt_compat_l h) in Hn; [|lra].
    replace (h * (8 / 10000000000000000 / h)) with (8 / 10000000000000000) in Hn by (field; lra). exact Hn.
Qed.
Lemma clamp_le t h : (if Rle_dec (T - t) (101 / 100 * h) then T - t else h) <= 101 / 100 * h \/ h <= 0.
Proof. destruct (Rle_dec (T - t) (101 / 100 * h)); lra. Qed.
Section Budget.
Variable B : R.   (* accepted states with at most B to go end *)
Hypothesis HB : forall st t h, ok st t h -> T - t <= B -> ends st.
Lemma after_accept t st' t2 h2 h' : T - t <= B + delta -> ok st' t2 h' -> t2 = t + h2 -> h' <= 55 / 10 * h2 -> ends st'.
Proof.
  intros Hg Hok' -> Hh'. destruct (Rle_dec delta h2) as [H|H].
  - eapply HB; [exact Hok'|]. lra.
  - eapply ends_small; [exact Hok'|]. unfold delta in *. lra.
Qed.
(* no more reset of the step *)
Lemma streak_late n : forall st t h, ok st t h -> T - t <= B + delta -> (10 <= u_nrejloc st)%Z ->
  101 / 100 * (h * (65 / 100) ^ n) < 10 / 10000000000000000 -> ends st.
Proof.
  induction n as [|n IH]; intros st t h Hok Hg Hl Hs.
  - cbn in Hs. eapply ends_small; [exact Hok|]. lra.
  - destruct (Rlt_dec t T) as [Ht|Ht]; [|eapply ends_done; [exact Hok|lra]].
    apply (ends_step st t h Hok Ht). intros st' _ (a & h1 & h2 & t' & h' & Hh & Ha & Ha2 & _ & Hok' & E1 & B1 & B2 & A1 & A2).
    destruct (t_acc a) eqn:Eacc.
    + destruct (A1 eq_refl) as [E2 E3]. eapply (after_accept t st' t' h2 h'); eassumption.
    + destruct (A2 eq_refl) as [-> [[E3 E4]|[_ [E4 _]]]]; [|lia].
      pose proof (clamp_le t h) as Hc. rewrite <- E1 in Hc. destruct Hc as [Hc|Hc]; [|exfalso; destruct (Rle_dec (T - t) (101 / 100 * h)); lra].
      eapply (IH st' t h' Hok' Hg); [lia|]. cbn [pow] in Hs.
      assert (Hp : 0 < (65 / 100) ^ n) by (apply pow_lt; lra).
      apply Rle_lt_trans with (2 := Hs). apply Rmult_le_compat_l; [lra|]. rewrite <- Rmult_assoc. apply Rmult_le_compat_r; lra.
Qed.
Lemma streak_any n : forall st t h, ok st t h -> T - t <= B + delta ->
  101 / 100 * (h * (65 / 100) ^ n) < 10 / 10000000000000000 -> ends st.
Proof.
  induction n as [|n IH]; intros st t h Hok Hg Hs.
  - cbn in Hs. eapply ends_small; [exact Hok|]. lra.
  - destruct (Rlt_dec t T) as [Ht|Ht]; [|eapply ends_done; [exact Hok|lra]].
    apply (ends_step st t h Hok Ht). intros st' _ (a & h1 & h2 & t' & h' & Hh & Ha & Ha2 & _ & Hok' & E1 & B1 & B2 & A1 & A2).
    destruct (t_acc a) eqn:Eacc.
    + destruct (A1 eq_refl) as [E2 E3]. eapply (after_accept t st' t' h2 h'); eassumption.
    + destruct (A2 eq_refl) as [-> [[E3 E4]|[E3 [E4 E5]]]].
      * pose proof (clamp_le t h) as Hc. rewrite <- E1 in Hc. destruct Hc as [Hc|Hc]; [|exfalso; destruct (Rle_dec (T - t) (101 / 100 * h)); lra].
        eapply (IH st' t h' Hok' Hg). cbn [pow] in Hs.
        assert (Hp : 0 < (65 / 100) ^ n) by (apply pow_lt; lra).
        apply Rle_lt_trans with (2 := Hs). apply Rmult_le_compat_l; [lra|]. rewrite <- Rmult_assoc. apply Rmult_le_compat_r; lra.
      * destruct (shrink h') as [k Hk]. eapply (streak_late k st' t h' Hok' Hg); [lia|exact Hk].
Qed.
End Budget.
Lemma all_end k : forall st t h, ok st t h -> T - t <= INR k * delta -> ends st.
Proof.
  induction k as [|k IH]; intros st t h Hok Hg.
  - cbn in Hg. eapply ends_done; [exact Hok|]. lra.
  - destruct (shrink h) as [n Hn]. eapply (streak_any (INR k * delta) IH n st t h Hok); [|exact Hn].
    rewrite S_INR in Hg. lra.
Qed.
Lemma terminates : exists fuel, run fuel <> Diverge.
Proof.
  assert (Hun : forall x : R, exists k, x < INR k).
  { intros x. destruct (archimed x) as [H _]. exists (Z.to_nat (up x)). rewrite INR_IZR_INZ.
    apply Rlt_le_trans with (IZR (up x)); [lra|]. apply IZR_le. lia. }
  destruct (Hun ((T - t0) / delta)) as [k Hk].
  assert (Hd : 0 < delta) by (unfold delta; lra).
  apply (all_end k start t0 h0 start_ok).
  apply (Rmult_lt_compat_r delta) in Hk; [|exact Hd]. unfold Rdiv in Hk. rewrite Rmult_assoc, Rinv_l in Hk by lra. lra.
Qed.
End D.
