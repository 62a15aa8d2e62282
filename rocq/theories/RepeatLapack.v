(* The full and banded classes Matrices do not use what their arrays held before *)
From Coq Require Import ZArith Lia Bool List.
From Verif Require Import Base Spec HessModel JacModel JacProofs LayoutModel LayoutProofs RepeatSpec RepeatProofs.
Open Scope Z_scope.

(* Matrices.hpp: decomr, decomc, solvereal, solvecomplex of the full class (lines 47-113) and of the
   banded class (lines 147-205) in the form the solver models expect; the state: the members E1,
   ipivr; the members E2R, ipivc; the buffer Z2N.  Z2N is overwritten before it is read, so its
   contents after a solve are not tracked.  These classes do not read the flag calhes. *)
Section Mats.
Context {K : num}.
Definition mats : Type := (@fact K * @fact K * vec K)%type.
Notation ftrf := (vec K -> vec K * ivec * Z).
Notation ftrs := (vec K -> ivec -> vec K -> vec K * Z).
Definition m_decomr_full (trf : ftrf) (n : Z) (la : mats) (fac : K) (J : vec K) : out (mats * vec K) :=
  f <- decomr_full trf n (fst (fst (fst la))) J fac ;; Ok (f, snd (fst la), snd la, J).
Definition m_decomr_band (trf : ftrf) (n kl ku : Z) (la : mats) (fac : K) (J : vec K) : out (mats * vec K) :=
  f <- decomr_band trf n kl ku (fst (fst (fst la))) J fac ;; Ok (f, snd (fst la), snd la, J).
Definition m_decomc_full (trf : ftrf) (n : Z) (la : mats) (al be : K) (J : vec K) : out mats :=
  f <- decomc_full trf n (fst (snd (fst la))) J al be ;; Ok (fst (fst la), f, snd la).
Definition m_decomc_band (trf : ftrf) (n kl ku : Z) (la : mats) (al be : K) (J : vec K) : out mats :=
  f <- decomc_band trf n kl ku (fst (snd (fst la))) J al be ;; Ok (fst (fst la), f, snd la).
Definition m_solvereal (trs : ftrs) (la : mats) (b J : vec K) : out (vec K) := solvereal trs (fst (fst la)) b.
Definition m_solvecomplex (trs : ftrs) (n : Z) (la : mats) (b1 b2 J : vec K) : out (vec K * vec K) :=
  solvecomplex trs n (snd (fst la)) (snd la) b1 b2.
(* the two states hold the same Jacobian *)
Definition same_jac (n : Z) (sh : shape) (_ : mats) (J : vec K) (_ : mats) (J' : vec K) : Prop := jagree n sh J J'.

Lemma pack_gen n (Z2 Zr Zi : vec K) : 1 <= n ->
  wp (pack n Z2 Zr Zi) (fun Y => forall i, 1 <= i <= n -> Y (2 * i - 1) = Zr i /\ Y (2 * i) = Zi i).
Proof.
  intros Hn. unfold pack.
  refine (wp_mono _ _ _ (forM_ind (fun q (Y : vec K) => forall i, n + 1 - q < i <= n -> Y (2 * i - 1) = Zr i /\ Y (2 * i) = Zi i) _ _ _ _ _ _ _) _).
  - lia.
  - intros; lia.
  - intros q Y Hq HY. cbv zeta. apply wp_rd; [lia|]. apply wp_wr; [lia|]. apply wp_rd; [lia|].
    rewrite wr_ok by lia. cbn [wp]. intros i Hi.
    destruct (Z.eq_dec i (n + 1 - q)) as [->|Hne].
    + rewrite upd_same. rewrite upd_other by lia. rewrite upd_same. auto.
    + rewrite !(upd_other _ (2 * (n + 1 - q))) by lia. rewrite !(upd_other _ (2 * (n + 1 - q) - 1)) by lia.
      apply HY. lia.
  - intros Y HY i Hi. apply HY. lia.
Qed.
Lemma unpack_gen n (Z2 Zr Zi : vec K) : 1 <= n ->
  wp (unpack n Z2 (Zr, Zi)) (fun Y => forall i, 1 <= i <= n -> fst Y i = Z2 (2 * i - 1) /\ snd Y i = Z2 (2 * i)).
Proof.
  intros Hn. unfold unpack.
  refine (wp_mono _ _ _ (forM_ind (fun q (Y : vec K * vec K) => forall i, 1 <= i < q -> fst Y i = Z2 (2 * i - 1) /\ snd Y i = Z2 (2 * i)) _ _ _ _ _ _ _) _).
  - lia.
  - intros; lia.
  - intros q [Yr Yi] Hq HY. apply wp_rd; [lia|]. apply wp_wr; [lia|]. apply wp_rd; [lia|]. apply wp_wr; [lia|].
    cbn [wp fst snd] in *. intros i Hi.
    destruct (Z.eq_dec i q) as [->|Hne].
    + rewrite !upd_same. auto.
    + rewrite !upd_other by lia. apply HY. lia.
  - intros Y HY i Hi. apply HY. lia.
Qed.
Lemma wp_ok_ex {A} (m : out A) (P : A -> Prop) : wp m P -> exists a, m = Ok a /\ P a.
Proof. destruct m; cbn; try contradiction. intros H. eexists. split; [reflexivity|exact H]. Qed.
Lemma factorise_both n same trf trs (A A' : vec K) : lapack_local n same trf trs -> same A A' ->
  both (fun f f' => forall r r', vagree n r r' -> both (vagree n) (solvereal trs f r) (solvereal trs f' r')) (factorise trf A) (factorise trf A').
Proof.
  intros HL Hs. destruct (HL A A' Hs) as [H1 H2]. unfold factorise. destruct (trf A) as [[LU ip] info], (trf A') as [[LU' ip'] info']. cbn [fst snd] in *. subst info'.
  destruct (negb (info =? 0)); [reflexivity|]. cbn [both]. intros r r' Hr. unfold solvereal.
  destruct (H2 (fun k => r (k + 1)) (fun k => r' (k + 1))) as [G1 G2]; [intros k Hk; apply Hr; lia|].
  destruct (trs LU ip (fun k => r (k + 1))) as [X e], (trs LU' ip' (fun k => r' (k + 1))) as [X' e']. cbn [fst snd] in *. subst e'.
  destruct (negb (e =? 0)); [reflexivity|]. cbn [both]. intros i Hi. apply G2. lia.
Qed.
Lemma cfactorise_both n same trf trs (A A' : vec K) : 1 <= n -> lapack_local (2 * n) same trf trs -> same A A' ->
  both (fun f f' => forall w w' r r' s s', vagree n r r' -> vagree n s s' ->
    both (fun q q' => vagree n (fst q) (fst q') /\ vagree n (snd q) (snd q')) (solvecomplex trs n f w r s) (solvecomplex trs n f' w' r' s')) (factorise trf A) (factorise trf A').
Proof.
  intros Hn HL Hs. destruct (HL A A' Hs) as [H1 H2]. unfold factorise. destruct (trf A) as [[LU ip] info], (trf A') as [[LU' ip'] info']. cbn [fst snd] in *. subst info'.
  destruct (negb (info =? 0)); [reflexivity|]. cbn [both]. intros w w' r r' s s' Hr Hq. unfold solvecomplex.
  destruct (wp_ok_ex _ _ (pack_gen n w r s Hn)) as (Y & -> & HY). destruct (wp_ok_ex _ _ (pack_gen n w' r' s' Hn)) as (Y' & -> & HY'). cbn [bind].
  destruct (H2 (fun k => Y (k + 1)) (fun k => Y' (k + 1))) as [G1 G2].
  { intros k Hk. destruct (Z.Even_or_Odd k) as [[m ->]|[m ->]].
    - replace (2 * m + 1) with (2 * (m + 1) - 1) by lia. rewrite (proj1 (HY (m + 1) ltac:(lia))), (proj1 (HY' (m + 1) ltac:(lia))). apply Hr. lia.
    - replace (2 * m + 1 + 1) with (2 * (m + 1)) by lia. rewrite (proj2 (HY (m + 1) ltac:(lia))), (proj2 (HY' (m + 1) ltac:(lia))). apply Hq. lia. }
  destruct (trs LU ip (fun k => Y (k + 1))) as [X e], (trs LU' ip' (fun k => Y' (k + 1))) as [X' e']. cbn [fst snd] in *. subst e'.
  destruct (negb (e =? 0)); [reflexivity|].
  destruct (wp_ok_ex _ _ (unpack_gen n (fun i => X (i - 1)) r s Hn)) as (U & -> & HU). destruct (wp_ok_ex _ _ (unpack_gen n (fun i => X' (i - 1)) r' s' Hn)) as (U' & -> & HU'). cbn [both].
  split; intros i Hi; cbn [fst snd]; [pose proof (proj1 (HU i Hi)) as Q; pose proof (proj1 (HU' i Hi)) as Q'|pose proof (proj2 (HU i Hi)) as Q; pose proof (proj2 (HU' i Hi)) as Q'];
    unfold vec in *; cbv beta in Q, Q'; rewrite Q, Q'; apply G2; lia.
Qed.
Lemma full_in n i j : in_full n i j <-> in_shape n Full i j.
Proof. reflexivity. Qed.
Lemma band_in n kl ku i j : in_band n kl ku i j <-> in_shape n (Band kl ku) i j.
Proof. reflexivity. Qed.
Lemma decomr_full_both n (trf : ftrf) (trs : ftrs) (E E' J J' : vec K) fac : 1 <= n -> lapack_local n (same_entries (in_full n) (lapack_ge n)) trf trs -> jagree n Full J J' ->
  both (fun f f' => forall r r', vagree n r r' -> both (vagree n) (solvereal trs f r) (solvereal trs f' r')) (decomr_full trf n E J fac) (decomr_full trf n E' J' fac).
Proof.
  intros Hn HL HJ. unfold decomr_full. destruct (wp_ok_ex _ _ (asm_real_full_spec n E J fac Hn)) as (A & -> & HA). destruct (wp_ok_ex _ _ (asm_real_full_spec n E' J' fac Hn)) as (A' & -> & HA').
  cbn [bind]. apply (factorise_both n _ _ _ _ _ HL). intros i j Hij. rewrite (HA i j Hij), (HA' i j Hij). pose proof (HJ i j Hij) as Ej. cbn [sh_off] in Ej. rewrite Ej. reflexivity.
Qed.
Lemma decomr_band_both n kl ku (trf : ftrf) (trs : ftrs) (E E' J J' : vec K) fac : 1 <= n -> 0 <= kl -> 0 <= ku -> lapack_local n (same_entries (in_band n kl ku) (lapack_gb kl ku)) trf trs -> jagree n (Band kl ku) J J' ->
  both (fun f f' => forall r r', vagree n r r' -> both (vagree n) (solvereal trs f r) (solvereal trs f' r')) (decomr_band trf n kl ku E J fac) (decomr_band trf n kl ku E' J' fac).
Proof.
  intros Hn Hl Hu HL HJ. unfold decomr_band. destruct (wp_ok_ex _ _ (asm_real_band_spec n kl ku E J fac Hn Hl Hu)) as (A & -> & HA). destruct (wp_ok_ex _ _ (asm_real_band_spec n kl ku E' J' fac Hn Hl Hu)) as (A' & -> & HA').
  cbn [bind]. apply (factorise_both n _ _ _ _ _ HL). intros i j Hij. rewrite (HA i j Hij), (HA' i j Hij). pose proof (HJ i j Hij) as Ej. cbn [sh_off] in Ej. rewrite Ej. reflexivity.
Qed.
Lemma decomc_full_both n (trf : ftrf) (trs : ftrs) (E E' J J' : vec K) al be : 1 <= n -> lapack_local (2 * n) (same_centries (in_full n) (lapack_ge n)) trf trs -> jagree n Full J J' ->
  both (fun f f' => forall w w' r r' s s', vagree n r r' -> vagree n s s' ->
    both (fun q q' => vagree n (fst q) (fst q') /\ vagree n (snd q) (snd q')) (solvecomplex trs n f w r s) (solvecomplex trs n f' w' r' s')) (decomc_full trf n E J al be) (decomc_full trf n E' J' al be).
Proof.
  intros Hn HL HJ. unfold decomc_full. destruct (wp_ok_ex _ _ (asm_complex_full_spec n E J al be Hn)) as (A & -> & HA). destruct (wp_ok_ex _ _ (asm_complex_full_spec n E' J' al be Hn)) as (A' & -> & HA').
  cbn [bind]. apply (cfactorise_both n _ _ _ _ _ Hn HL). intros i j Hij. destruct (HA i j Hij) as [-> ->], (HA' i j Hij) as [-> ->]. pose proof (HJ i j Hij) as Ej. cbn [sh_off] in Ej. rewrite Ej. split; reflexivity.
Qed.
Lemma decomc_band_both n kl ku (trf : ftrf) (trs : ftrs) (E E' J J' : vec K) al be : 1 <= n -> 0 <= kl -> 0 <= ku -> lapack_local (2 * n) (same_centries (in_band n kl ku) (lapack_gb kl ku)) trf trs -> jagree n (Band kl ku) J J' ->
  both (fun f f' => forall w w' r r' s s', vagree n r r' -> vagree n s s' ->
    both (fun q q' => vagree n (fst q) (fst q') /\ vagree n (snd q) (snd q')) (solvecomplex trs n f w r s) (solvecomplex trs n f' w' r' s')) (decomc_band trf n kl ku E J al be) (decomc_band trf n kl ku E' J' al be).
Proof.
  intros Hn Hl Hu HL HJ. unfold decomc_band. destruct (wp_ok_ex _ _ (asm_complex_band_spec n kl ku E J al be Hn Hl Hu)) as (A & -> & HA). destruct (wp_ok_ex _ _ (asm_complex_band_spec n kl ku E' J' al be Hn Hl Hu)) as (A' & -> & HA').
  cbn [bind]. apply (cfactorise_both n _ _ _ _ _ Hn HL). intros i j Hij. destruct (HA i j Hij) as [-> ->], (HA' i j Hij) as [-> ->]. pose proof (HJ i j Hij) as Ej. cbn [sh_off] in Ej. rewrite Ej. split; reflexivity.
Qed.
Lemma anew_full n (trf ctrf : ftrf) (trs ctrs : ftrs) : 1 <= n ->
  lapack_local n (same_entries (in_full n) (lapack_ge n)) trf trs -> lapack_local (2 * n) (same_centries (in_full n) (lapack_ge n)) ctrf ctrs ->
  starts_anew n Full mats (fun la => la) (same_jac n Full) /\ real_anew n mats (m_decomr_full trf n) (m_solvereal trs) (same_jac n Full) /\
  complex_anew n mats (m_decomr_full trf n) (m_decomc_full ctrf n) (m_solvereal trs) (m_solvecomplex ctrs n) (same_jac n Full).
Proof.
  intros Hn HL HC. split; [intros la la' J J' HJ; exact HJ|]. split.
  - intros la la' J J' a HJ. unfold m_decomr_full. eapply both_bind; [apply decomr_full_both; eassumption|].
    intros f f' Hf. cbn [both fst snd]. split; [exact HJ|]. intros r r' Hr. apply Hf. exact Hr.
  - intros la la' J J' a al be HJ. unfold m_decomr_full. eapply both_bind; [apply decomr_full_both; eassumption|].
    intros f f' Hf. cbn [both fst snd]. unfold m_decomc_full. eapply both_bind; [apply decomc_full_both; eassumption|].
    intros g g' Hg. cbn [both fst snd]. split; [exact HJ|]. split; [intros r r' Hr; apply Hf; exact Hr|]. intros r r' s s' Hr Hs. apply Hg; assumption.
Qed.
Lemma anew_band n kl ku (trf ctrf : ftrf) (trs ctrs : ftrs) : 1 <= n -> 0 <= kl -> 0 <= ku ->
  lapack_local n (same_entries (in_band n kl ku) (lapack_gb kl ku)) trf trs -> lapack_local (2 * n) (same_centries (in_band n kl ku) (lapack_gb kl ku)) ctrf ctrs ->
  starts_anew n (Band kl ku) mats (fun la => la) (same_jac n (Band kl ku)) /\ real_anew n mats (m_decomr_band trf n kl ku) (m_solvereal trs) (same_jac n (Band kl ku)) /\
  complex_anew n mats (m_decomr_band trf n kl ku) (m_decomc_band ctrf n kl ku) (m_solvereal trs) (m_solvecomplex ctrs n) (same_jac n (Band kl ku)).
Proof.
  intros Hn Hl Hu HL HC. split; [intros la la' J J' HJ; exact HJ|]. split.
  - intros la la' J J' a HJ. unfold m_decomr_band. eapply both_bind; [apply decomr_band_both; eassumption|].
    intros f f' Hf. cbn [both fst snd]. split; [exact HJ|]. intros r r' Hr. apply Hf. exact Hr.
  - intros la la' J J' a al be HJ. unfold m_decomr_band. eapply both_bind; [apply decomr_band_both; eassumption|].
    intros f f' Hf. cbn [both fst snd]. unfold m_decomc_band. eapply both_bind; [apply decomc_band_both; eassumption|].
    intros g g' Hg. cbn [both fst snd]. split; [exact HJ|]. split; [intros r r' Hr; apply Hf; exact Hr|]. intros r r' s s' Hr Hs. apply Hg; assumption.
Qed.
End Mats.
