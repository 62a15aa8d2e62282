(* Proofs about the complex routines dechc/solhc of HessModel.v over the reals. *)
From Verif Require Import Base HessModel FieldLU HessProofs.
From Coq Require Import Reals Lra Field_theory.
Open Scope Z_scope.

(* complex numbers as pairs *)
Definition CC : Type := (R * R)%type.
Definition Czero : CC := (0, 0)%R.
Definition Cone : CC := (1, 0)%R.
Definition Cadd (a b : CC) : CC := (fst a + fst b, snd a + snd b)%R.
Definition Csub (a b : CC) : CC := (fst a - fst b, snd a - snd b)%R.
Definition Cmul (a b : CC) : CC := (fst a * fst b - snd a * snd b, snd a * fst b + fst a * snd b)%R.
Definition Copp (a : CC) : CC := (- fst a, - snd a)%R.
Definition Cinv (a : CC) : CC :=
  (fst a / (fst a * fst a + snd a * snd a), - snd a / (fst a * fst a + snd a * snd a))%R.
Definition Cdiv (a b : CC) : CC := Cmul a (Cinv b).

Lemma C_norm_pos (a b : R) : (a, b) <> Czero -> (a * a + b * b <> 0)%R.
Proof.
  intros H E. apply H. unfold Czero.
  assert (a = 0 /\ b = 0)%R as [-> ->]; [|reflexivity].
  pose proof (Rle_0_sqr a); pose proof (Rle_0_sqr b). unfold Rsqr in *.
  split; apply Rsqr_0_uniq; unfold Rsqr; lra.
Qed.
Lemma Cfth : field_theory Czero Cone Cadd Cmul Csub Copp Cdiv Cinv (@eq CC).
Proof.
  constructor.
  - constructor; unfold Czero, Cone, Cadd, Cmul, Csub, Copp; intros; cbn [fst snd];
      repeat match goal with x : CC |- _ => destruct x end; cbn [fst snd]; f_equal; ring.
  - unfold Czero, Cone. intros H. injection H. lra.
  - reflexivity.
  - intros [a b] H. apply C_norm_pos in H. unfold Cmul, Cinv, Cone; cbn [fst snd]. f_equal; field; exact H.
Qed.
Notation sumC := (sum CC Czero Cadd).
Notation Csat := (fsat CC Czero Cadd Cmul).
Notation effC := (eff CC Czero).
Notation elimC_inv := (elim_inv CC Czero Cadd Cmul).
Notation bwdC_inv := (bwd_inv CC Czero Cadd Cmul Csub).
Notation fwdsC := (fwds CC Cadd Cmul).
Definition cmat (Ar Ai : Z -> Z -> R) : Z -> Z -> CC := fun i j => (Ar i j, Ai i j).
Definition cvec (Br Bi : Z -> R) : Z -> CC := fun i => (Br i, Bi i).

Lemma Rabs2_zero a b : (Rabs a + Rabs b = 0)%R -> a = 0%R /\ b = 0%R.
Proof.
  intros H. pose proof (Rabs_pos a); pose proof (Rabs_pos b).
  split; [destruct (Req_dec a 0)|destruct (Req_dec b 0)]; auto;
    match goal with H : _ <> _ |- _ => apply Rabs_pos_lt in H end; lra.
Qed.

Definition pivC (k : Z) (Ar Ai : Rmat) : Z :=
  if Rlt_dec (Rabs (Ar k k) + Rabs (Ai k k)) (Rabs (Ar (k + 1)%Z k) + Rabs (Ai (k + 1)%Z k)) then k + 1 else k.

Lemma dechc_pivot_spec (n k : Z) (Ar Ai : Rmat) : 1 <= k < n ->
  @dechc_pivot Rnum n k (k + 1) Ar Ai = Ok (pivC k Ar Ai).
Proof.
  intros Hk. unfold dechc_pivot. rewrite forM_single. repeat step.
  rewrite !nabs_R. cbn. unfold Rltb, pivC. destruct (Rlt_dec _ _); reflexivity.
Qed.

(* The special-case branch of line 170 does not give the complex product when the
   pivot-row element is purely imaginary and the multiplier has a non zero real part;
   [col_clean] excludes exactly this. *)
Definition col_clean (lr tr ti : R) : Prop := tr = 0%R -> ti <> 0%R -> lr = 0%R.

Lemma dechc_col_spec (n k m j : Z) (Ar Ai : Rmat) : 1 <= k < n -> m = k \/ m = k + 1 -> k + 1 <= j <= n ->
  col_clean (Ar (k + 1) k) (Ar m j) (Ai m j) ->
  wp (@dechc_col Rnum n k (k + 1) m j Ar Ai) (fun '(Ar', Ai') =>
    let o := if m =? k then k + 1 else k in
    cmat Ar' Ai' k j = cmat Ar Ai m j /\
    cmat Ar' Ai' (k + 1) j = Cadd (cmat Ar Ai o j) (Cmul (cmat Ar Ai (k + 1) k) (cmat Ar Ai m j)) /\
    (forall i c, c <> j \/ (i <> k /\ i <> k + 1) -> Ar' i c = Ar i c /\ Ai' i c = Ai i c)).
Proof.
  intros Hk Hm Hj Hcl. unfold dechc_col. cbv zeta.
  assert (Hmn : 1 <= m <= n) by lia.
  repeat step. rewrite !nabs_R. cbn [neqb Rnum nmul nadd nsub nopp].
  unfold n0; cbn [nlit Rnum]; rewrite !Rlit_0. unfold cmat, Cadd, Cmul; cbn [fst snd].
  unfold col_clean in Hcl.
  assert (Hfin : forall Br Bi : Rmat, forall v w : R,
     (forall i c, c <> j \/ (i <> k /\ i <> k + 1) -> Br i c = Ar i c /\ Bi i c = Ai i c) ->
     Br k j = Ar m j -> Bi k j = Ai m j ->
     Br (k + 1) j = v -> Bi (k + 1) j = w ->
     (let o := (if m =? k then k + 1 else k)%Z in v = Ar o j + (Ar (k + 1)%Z k * Ar m j - Ai (k + 1)%Z k * Ai m j) /\
        w = Ai o j + (Ai (k + 1)%Z k * Ar m j + Ar (k + 1)%Z k * Ai m j))%R ->
     (Br k j, Bi k j) = (Ar m j, Ai m j) /\
     (Br (k + 1) j, Bi (k + 1) j) =
     ((Ar (if m =? k then k + 1 else k)%Z j + (Ar (k + 1)%Z k * Ar m j - Ai (k + 1)%Z k * Ai m j))%R,
      (Ai (if m =? k then k + 1 else k)%Z j + (Ai (k + 1)%Z k * Ar m j + Ar (k + 1)%Z k * Ai m j))%R) /\
     (forall i c : Z, c <> j \/ i <> k /\ i <> k + 1 -> Br i c = Ar i c /\ Bi i c = Ai i c)).
  { intros Br Bi v w H1 H2 H3 H4 H5. cbv zeta. intros [H6 H7].
    rewrite H2, H3, H4, H5, H6, H7. auto. }
  assert (Hmo : (m = k /\ (if m =? k then k + 1 else k) = k + 1) \/ (m = k + 1 /\ (if m =? k then k + 1 else k) = k)).
  { destruct Hm as [->| ->]; [rewrite Z.eqb_refl; auto|]. destruct (Z.eqb_spec (k + 1) k); [lia|auto]. }
  destruct (Reqb_spec (Rabs (Ar m j) + Rabs (Ai m j)) 0) as [E|E]; cbn [negb].
  - apply Rabs2_zero in E. destruct E as [E1 E2]. cbn [wp].
    eapply Hfin; try reflexivity.
    + intros i c Hc. split; u2; reflexivity.
    + u2. reflexivity.
    + u2. reflexivity.
    + destruct Hmo as [[-> ->]|[-> ->]]; u2; rewrite E1, E2; split; rring.
  - rewrite forM_single. repeat step.
    destruct (Reqb_spec (Ai m j) 0) as [Ei|Ei]; [|destruct (Reqb_spec (Ar m j) 0) as [Er|Er]];
      repeat step; cbn [wp];
      (eapply Hfin; try reflexivity;
       [intros i c Hc; split; u2; reflexivity|u2; reflexivity|u2; reflexivity|]).
    + destruct Hmo as [[-> ->]|[-> ->]]; u2; rewrite Ei; split; rring.
    + specialize (Hcl Er Ei). destruct Hmo as [[-> ->]|[-> ->]]; u2; rewrite Er, Hcl; split; rring.
    + destruct Hmo as [[-> ->]|[-> ->]]; u2; split; rring.
Qed.

(* the guard for one value of k: o is the non pivot row; the condition says that the
   multiplier has real part zero *)
Definition step_clean (n k : Z) (Ar Ai : Rmat) : Prop :=
  let m := pivC k Ar Ai in
  let o := if m =? k then k + 1 else k in
  forall j, k + 1 <= j <= n -> Ar m j = 0%R -> Ai m j <> 0%R ->
    (Ar o k * Ar m k + Ai o k * Ai m k = 0)%R.

Lemma dechc_step_spec (n k : Z) (Ar Ai : Rmat) ip : 1 <= k < n -> step_clean n k Ar Ai ->
  wp (@dechc_step Rnum n k Ar Ai ip) (fun '(Ar', Ai', ip', ret, brk) =>
    let m := pivC k Ar Ai in
    ip' (k - 1) = m /\ (forall q, q <> k - 1 -> q <> n - 1 -> ip' q = ip q) /\
    if brk : bool
    then ret = k /\ cmat Ar Ai k k = Czero /\ cmat Ar Ai (k + 1) k = Czero /\
         (forall i j, cmat Ar' Ai' i j = cmat Ar Ai i j)
    else ret = 0 /\ elim_step CC Czero Cadd Cmul Copp Cdiv n k m (cmat Ar Ai) (cmat Ar' Ai')).
Proof.
  intros Hk Hcl. unfold dechc_step. cbv zeta.
  replace (Z.min n (1 + k)) with (k + 1) by lia.
  rewrite dechc_pivot_spec by lia. cbn [bind].
  unfold step_clean in Hcl.
  set (m := pivC k Ar Ai) in *.
  assert (Hm : m = k \/ m = k + 1) by (unfold m, pivC; destruct (Rlt_dec _ _); auto).
  assert (Hz : (Rabs (Ar m k) + Rabs (Ai m k) = 0)%R -> cmat Ar Ai k k = Czero /\ cmat Ar Ai (k + 1) k = Czero /\ m = k).
  { unfold m, pivC, cmat, Czero. destruct (Rlt_dec _ _) as [H|H]; intros E.
    - rewrite E in H. pose proof (Rabs_pos (Ar k k)); pose proof (Rabs_pos (Ai k k)). lra.
    - rewrite E in H. destruct (Rabs2_zero _ _ E) as [-> ->]. split; [reflexivity|]. split; [|reflexivity].
      pose proof (Rabs_pos (Ar (k + 1) k)); pose proof (Rabs_pos (Ai (k + 1) k)).
      destruct (Rabs2_zero (Ar (k + 1) k) (Ai (k + 1) k)) as [-> ->]; [lra|reflexivity]. }
  step. step. step.
  cbv zeta in Hcl.
  set (o := if m =? k then k + 1 else k) in *.
  assert (Hmo : (m = k /\ o = k + 1) \/ (m = k + 1 /\ o = k)).
  { unfold o. destruct Hm as [->| ->]; [rewrite Z.eqb_refl; auto|].
    destruct (Z.eqb_spec (k + 1) k); [lia|auto]. }
  match goal with |- wp (bind ?e ?f) ?Q => assert (Hsw : wp e (fun '(A1, B1, ip1) =>
     ip1 (k - 1) = m /\ (forall q, q <> k - 1 -> q <> n - 1 -> ip1 q = ip q) /\
     A1 k k = Ar m k /\ A1 (k + 1) k = Ar o k /\ B1 k k = Ai m k /\ B1 (k + 1) k = Ai o k /\
     (forall i c, c <> k \/ (i <> k /\ i <> k + 1) -> A1 i c = Ar i c /\ B1 i c = Ai i c))) end.
  { destruct (Z.eqb_spec m k) as [E|E]; cbn [negb].
    - cbn [wp]. rewrite upd_same. split; [reflexivity|]. split; [intros; rewrite upd_other by lia; reflexivity|].
      destruct Hmo as [[E1 E2]|[E1 E2]]; [|lia]. rewrite E1, E2. repeat split; reflexivity.
    - destruct Hmo as [[E1 E2]|[E1 E2]]; [lia|].
      repeat step. cbn [wp]. rewrite upd_other by lia. rewrite upd_same.
      split; [reflexivity|]. split.
      { intros q H1 H2. rewrite !upd_other by lia. reflexivity. }
      rewrite E1, E2. u2. repeat (split; [reflexivity|]).
      intros i c Hc. u2. split; reflexivity. }
  apply wp_bind. eapply wp_mono; [exact Hsw|]. clear Hsw.
  intros [[A1 B1] ip1] (Hip & Hip2 & Hkk & Hk1 & Hkki & Hk1i & Hrest).
  rewrite !nabs_R. cbn [neqb nadd Rnum]. unfold n0 at 1; cbn [nlit Rnum]; rewrite Rlit_0.
  destruct (Reqb_spec (Rabs (Ar m k) + Rabs (Ai m k)) 0) as [E|E].
  { cbn [wp]. split; [exact Hip|]. split; [exact Hip2|]. split; [reflexivity|].
    destruct (Hz E) as (Z1 & Z2 & Z3). split; [exact Z1|]. split; [exact Z2|].
    destruct Hmo as [[E1 E2]|[E1 E2]]; [|lia].
    intros i j. unfold cmat. destruct (Z.eq_dec j k) as [->|]; [|destruct (Hrest i j) as [-> ->]; [lia|reflexivity]].
    destruct (Z.eq_dec i k) as [->|]; [rewrite Hkk, Hkki, E1; reflexivity|].
    destruct (Z.eq_dec i (k + 1)) as [->|]; [rewrite Hk1, Hk1i, E2; reflexivity|].
    destruct (Hrest i k) as [-> ->]; [lia|reflexivity]. }
  assert (Hden : (Ar m k * Ar m k + Ai m k * Ai m k <> 0)%R).
  { apply C_norm_pos. unfold Czero. intros X. injection X as X1 X2. apply E. rewrite X1, X2, Rabs_R0. ring. }
  rewrite forM_single. repeat step. cbn [bind].
  cbn [nmul ndiv nopp nadd nsub Rnum].
  match goal with |- context [upd2 A1 (k + 1) k ?x] => set (lr := x) end.
  match goal with |- context [upd2 B1 (k + 1) k ?x] => set (li := x) end.
  set (A2 := upd2 A1 (k + 1) k lr). set (B2 := upd2 B1 (k + 1) k li).
  assert (Lv : (lr, li) = Copp (Cdiv (cmat Ar Ai o k) (cmat Ar Ai m k))).
  { unfold lr, li, Copp, Cdiv, Cmul, Cinv, cmat; cbn [fst snd]. rewrite Hk1, Hk1i.
    f_equal; field; exact Hden. }
  assert (Lr0 : (Ar o k * Ar m k + Ai o k * Ai m k = 0)%R -> lr = 0%R).
  { intros Hz0. apply (f_equal fst) in Lv. cbn [fst] in Lv. rewrite Lv.
    unfold Copp, Cdiv, Cmul, Cinv, cmat; cbn [fst snd].
    replace (- (Ar o k * (Ar m k / (Ar m k * Ar m k + Ai m k * Ai m k)) - Ai o k * (- Ai m k / (Ar m k * Ar m k + Ai m k * Ai m k))))%R
      with (- (Ar o k * Ar m k + Ai o k * Ai m k) / (Ar m k * Ar m k + Ai m k * Ai m k))%R by (field; exact Hden).
    rewrite Hz0. field. exact Hden. }
  apply wp_bind.
  eapply wp_mono.
  { apply (forM_ind (fun j (B : Rmat * Rmat) => let '(Br, Bi) := B in
      (forall c, k + 1 <= c < j -> cmat Br Bi k c = cmat Ar Ai m c /\
          cmat Br Bi (k + 1) c = Cadd (cmat Ar Ai o c) (Cmul (lr, li) (cmat Ar Ai m c))) /\
      (forall i c, c >= j \/ c <= k \/ (i <> k /\ i <> k + 1) -> Br i c = A2 i c /\ Bi i c = B2 i c))).
    - lia.
    - split; [intros; lia|split; reflexivity].
    - intros j [Br Bi] Hj [H1 H2].
      assert (Hm' : forall r, r = k \/ r = k + 1 -> Br r j = Ar r j /\ Bi r j = Ai r j).
      { intros r Hr. destruct (H2 r j) as [-> ->]; [lia|]. unfold A2, B2. rewrite !upd2_other by lia. apply Hrest. lia. }
      assert (HL : Br (k + 1) k = lr /\ Bi (k + 1) k = li).
      { destruct (H2 (k + 1) k) as [-> ->]; [lia|]. unfold A2, B2. rewrite !upd2_same. auto. }
      eapply wp_mono; [apply dechc_col_spec; auto; try lia|].
      { unfold col_clean. destruct HL as [-> _]. destruct (Hm' m Hm) as [-> ->].
        intros T1 T2. apply Lr0. apply (Hcl j); auto. }
      cbv zeta. fold o. intros [Br' Bi'] (G1 & G2 & G3). split.
      + intros c Hc. destruct (Z.eq_dec c j) as [->|].
        * rewrite G1, G2. unfold cmat in *.
          destruct (Hm' m Hm) as [-> ->]. destruct (Hm' o) as [-> ->]; [tauto|].
          destruct HL as [-> ->]. split; reflexivity.
        * destruct (H1 c ltac:(lia)) as [E1 E2]. unfold cmat in *.
          destruct (G3 k c) as [-> ->]; [lia|]. destruct (G3 (k + 1) c) as [-> ->]; [lia|]. auto.
      + intros i c Hc. destruct (G3 i c) as [-> ->]; [lia|]. apply H2. lia. }
  intros [A3 B3] [H1 H2]. cbn [wp].
  split; [exact Hip|]. split; [exact Hip2|]. split; [reflexivity|].
  unfold elim_step. fold o.
  assert (L : cmat A3 B3 (k + 1) k = (lr, li)).
  { unfold cmat. destruct (H2 (k + 1) k) as [-> ->]; [lia|]. unfold A2, B2. rewrite !upd2_same. reflexivity. }
  rewrite L. split; [exact Hm|]. split.
  { unfold cmat. intros X. apply E. unfold Czero in X. injection X as X1 X2. rewrite X1, X2, Rabs_R0. ring. }
  split.
  { unfold cmat. destruct (H2 k k) as [-> ->]; [lia|]. unfold A2, B2. rewrite !upd2_other by lia. rewrite Hkk, Hkki. reflexivity. }
  split; [exact Lv|]. split; [intros j Hj; apply H1; lia|]. split; [intros j Hj; apply H1; lia|].
  intros i j Hi Hj Hij. unfold cmat. destruct (H2 i j) as [-> ->]; [lia|]. unfold A2, B2.
  destruct Hij as [[I1 I2]|I]; rewrite !upd2_other by lia; destruct (Hrest i j) as [-> ->]; try lia; reflexivity.
Qed.

(* the loop of dechc, as a state transformer; used only to state the guard *)
Definition dechc_body (n k : Z) (st : Rmat * Rmat * ivec * Z * bool) : out (Rmat * Rmat * ivec * Z * bool) :=
  let '(Ar, Ai, ip, ret, brk) := st in
  if brk : bool then Ok st else @dechc_step Rnum n k Ar Ai ip.
(* no column update of the run meets the special case of line 170 with a multiplier
   whose real part is not zero *)
Definition dechc_clean (n : Z) (Ar Ai : Rmat) (ip : ivec) : Prop :=
  forall k Ar' Ai' ip' ret, 1 <= k < n ->
    forM 1 (k - 1) (dechc_body n) (Ar, Ai, upd ip (n - 1) 1, 0, false) = Ok (Ar', Ai', ip', ret, false) ->
    step_clean n k Ar' Ai'.

Lemma iterM_S {St} d : forall i (f : Z -> St -> out St) s,
  iterM (S d) i f s = bind (iterM d i f s) (f (i + Z.of_nat d)).
Proof.
  induction d as [|d IH]; intros i f s.
  - cbn [iterM bind]. replace (i + Z.of_nat 0) with i by lia. destruct (f i s); reflexivity.
  - change (iterM (S (S d)) i f s) with (bind (f i s) (iterM (S d) (i + 1) f)).
    change (iterM (S d) i f s) with (bind (f i s) (iterM d (i + 1) f)).
    rewrite bind_assoc. destruct (f i s); cbn [bind]; auto.
    rewrite IH. replace (i + 1 + Z.of_nat d) with (i + Z.of_nat (S d)) by lia. reflexivity.
Qed.
Lemma forM_snoc {St} lo hi (f : Z -> St -> out St) s : lo <= hi ->
  forM lo hi f s = bind (forM lo (hi - 1) f s) (f hi).
Proof.
  intros H. unfold forM. replace (Z.to_nat (hi - lo + 1)) with (S (Z.to_nat (hi - 1 - lo + 1))) by lia.
  rewrite iterM_S. replace (lo + Z.of_nat (Z.to_nat (hi - 1 - lo + 1))) with hi by lia. reflexivity.
Qed.

Lemma dechc_spec (n : Z) (Ar Ai : Rmat) ip : 1 <= n -> dechc_clean n Ar Ai ip ->
  wp (@dechc Rnum n Ar Ai ip) (fun '(Ar', Ai', ip', ret) =>
    (0 <= ret <= n) /\
    (ret = 0 -> elimC_inv n n (effC 1 (cmat Ar Ai)) (cmat Ar' Ai') ip' /\ cmat Ar' Ai' n n <> Czero) /\
    (ret <> 0 -> exists x, (exists i, 1 <= i <= n /\ x i <> Czero) /\
                           Csat n (effC 1 (cmat Ar Ai)) x (fun _ => Czero))).
Proof.
  intros Hn Hclean. unfold dechc. step.
  set (H := effC 1 (cmat Ar Ai)).
  set (P := fun k (st : Rmat * Rmat * ivec * Z * bool) => let '(A', B', ip', ret, brk) := st in
    if brk : bool then (1 <= ret < n) /\ exists x, (exists i, 1 <= i <= n /\ x i <> Czero) /\ Csat n H x (fun _ => Czero)
    else ret = 0 /\ elimC_inv n k H (cmat A' B') ip').
  assert (C10 : Cone <> Czero) by (unfold Cone, Czero; intros X; injection X; lra).
  assert (Hloop : forall d : nat, 1 + Z.of_nat d <= n ->
     wp (forM 1 (Z.of_nat d) (dechc_body n) (Ar, Ai, upd ip (n - 1) 1, 0, false)) (P (Z.of_nat d + 1))).
  { induction d as [|d IH]; intros Hd.
    - rewrite forM_empty by lia. cbn [wp P]. split; [reflexivity|]. apply elim_inv_start.
    - rewrite forM_snoc by lia. replace (Z.of_nat (S d) - 1) with (Z.of_nat d) by lia.
      specialize (IH ltac:(lia)). apply wp_ok in IH. destruct IH as [[[[[A1 B1] ip1] ret1] brk1] [Heq Hinv]].
      rewrite Heq. cbn [bind]. unfold dechc_body. unfold P in Hinv.
      set (k := Z.of_nat (S d)) in *. replace (Z.of_nat d + 1) with k in Hinv by (unfold k; lia).
      assert (Hk : 1 <= k < n) by (unfold k; lia).
      destruct brk1; [cbn [wp P]; exact Hinv|]. destruct Hinv as [-> Hinv].
      assert (Hc1 : step_clean n k A1 B1).
      { apply (Hclean k A1 B1 ip1 0 Hk). replace (k - 1) with (Z.of_nat d) by (unfold k; lia). exact Heq. }
      eapply wp_mono; [apply dechc_step_spec; [lia|exact Hc1]|].
      intros [[[[A2 B2] ip2] ret2] brk2]. cbv zeta. intros (Hi1 & Hi2 & Hb). unfold P. destruct brk2.
      + destruct Hb as (-> & E1 & E2 & _). split; [lia|].
        eapply (singular_at CC Czero Cone Cadd Cmul Csub Copp Cdiv Cinv Cfth n k _ (cmat A1 B1) ip1);
          [lia|exact C10|exact Hinv|exact E1|intros _; exact E2].
      + destruct Hb as [-> Hst]. split; [reflexivity|].
        eapply (elim_inv_step CC Czero Cone Cadd Cmul Csub Copp Cdiv Cinv Cfth);
          [lia|exact Hinv|exact Hst|exact Hi1|]. intros q Hq. apply Hi2; lia. }
  apply wp_bind. eapply (wp_mono _ (P n)).
  { destruct (Z.eqb_spec n 1) as [E1|Hn1]; cbn [negb].
    - subst n. cbn [wp P]. split; [reflexivity|]. apply elim_inv_start.
    - specialize (Hloop (Z.to_nat (n - 1)) ltac:(lia)).
      replace (Z.of_nat (Z.to_nat (n - 1))) with (n - 1) in Hloop by lia.
      replace (n - 1 + 1) with n in Hloop by lia. exact Hloop. }
  intros [[[[A1 B1] ip1] ret1] brk1] HP. repeat step. rewrite !nabs_R.
  cbn [neqb nadd Rnum]. unfold n0; cbn [nlit Rnum]; rewrite Rlit_0. cbn [wp]. unfold P in HP.
  destruct brk1.
  - destruct HP as [Hr Hx]. destruct (Reqb_spec (Rabs (A1 n n) + Rabs (B1 n n)) 0);
    (split; [lia|]; split; [lia|]; intros _; exact Hx).
  - destruct HP as [-> Hinv]. destruct (Reqb_spec (Rabs (A1 n n) + Rabs (B1 n n)) 0) as [E|E].
    + split; [lia|]. split; [lia|]. intros _. apply Rabs2_zero in E. destruct E as [E1 E2].
      eapply (singular_at CC Czero Cone Cadd Cmul Csub Copp Cdiv Cinv Cfth n n _ (cmat A1 B1) ip1);
        [lia|exact C10|exact Hinv|unfold cmat; rewrite E1, E2; reflexivity|lia].
    + split; [lia|]. split; [|intros X; exfalso; apply X; reflexivity]. intros _. split; [exact Hinv|].
      unfold cmat, Czero. intros X. injection X as X1 X2. apply E. rewrite X1, X2, Rabs_R0. ring.
Qed.

(* solhc *)
Ltac uv := cbn [car Rnum];
  repeat match goal with
  | |- context [@upd ?T ?v ?i ?x ?a] =>
      first [ rewrite (@upd_other T v i x a) by lia
            | replace (@upd T v i x a) with x by (unfold upd; rewrite (proj2 (Z.eqb_eq _ _)) by lia; reflexivity) ]
  end.
Lemma solhc_fwd_spec (n k : Z) (Ar Ai : Rmat) ip (Br Bi : Rvec) : 1 <= k < n ->
  ip (k - 1) = k \/ ip (k - 1) = k + 1 ->
  wp (@solhc_fwd Rnum n k Ar Ai ip (Br, Bi)) (fun '(Br', Bi') => forall i,
     cvec Br' Bi' i = fwd1 CC Cadd Cmul k (ip (k - 1)) (cmat Ar Ai (k + 1) k) (cvec Br Bi) i).
Proof.
  intros Hk Hip. unfold solhc_fwd. replace (Z.min n (k + 1)) with (k + 1) by lia.
  step. set (M := ip (k - 1)) in *. repeat step. rewrite forM_single. repeat step.
  cbn [wp]. intros i. unfold fwd1, cvec, cmat, Cadd, Cmul. cbn [nadd nmul nsub Rnum fst snd].
  assert (Hmo : (M = k /\ (if M =? k then k + 1 else k) = k + 1) \/ (M = k + 1 /\ (if M =? k then k + 1 else k) = k)).
  { destruct Hip as [->| ->]; [rewrite Z.eqb_refl; auto|]. destruct (Z.eqb_spec (k + 1) k); [lia|auto]. }
  destruct Hmo as [[-> ->]|[-> ->]];
    (destruct (Z.eqb_spec i k) as [->|]; [uv; reflexivity|destruct (Z.eqb_spec i (k + 1)) as [->|]; uv; reflexivity]).
Qed.

Lemma solhc_div_spec (n k : Z) (Ar Ai : Rmat) (Br Bi : Rvec) : 1 <= k <= n -> cmat Ar Ai k k <> Czero ->
  wp (@solhc_div Rnum n k Ar Ai (Br, Bi)) (fun '(Br', Bi') =>
     cvec Br' Bi' k = Cdiv (cvec Br Bi k) (cmat Ar Ai k k) /\
     (forall i, i <> k -> Br' i = Br i /\ Bi' i = Bi i)).
Proof.
  intros Hk Hp. unfold solhc_div. repeat step. cbn [wp].
  unfold cvec, cmat, Cdiv, Cmul, Cinv in *. apply C_norm_pos in Hp.
  cbn [nadd nmul nsub ndiv Rnum fst snd]. split.
  - uv. f_equal; field; exact Hp.
  - intros i Hi. uv. split; reflexivity.
Qed.

Lemma solhc_bwd_spec (n kb : Z) (Ar Ai : Rmat) (Br Bi : Rvec) : 1 <= kb < n ->
  cmat Ar Ai (n - kb + 1) (n - kb + 1) <> Czero ->
  wp (@solhc_bwd Rnum n kb Ar Ai (Br, Bi)) (fun '(Br', Bi') => forall i, 1 <= i <= n ->
     cvec Br' Bi' i = bwd1 CC Cmul Csub Cdiv (n - kb + 1) (cmat Ar Ai) (cvec Br Bi) i).
Proof.
  intros Hk Hp. unfold solhc_bwd. cbv zeta. set (k := n - kb + 1) in *. assert (1 <= k <= n) by (unfold k; lia).
  apply wp_bind. eapply wp_mono; [apply solhc_div_spec; [lia|exact Hp]|].
  intros [Br1 Bi1] [Hd Ho]. repeat step.
  set (q := Cdiv (cvec Br Bi k) (cmat Ar Ai k k)) in *.
  eapply wp_mono.
  { apply (forM_ind (fun i (C : Rvec * Rvec) => let '(Cr, Ci) := C in
      (forall c, 1 <= c < i -> cvec Cr Ci c = Csub (cvec Br Bi c) (Cmul (cmat Ar Ai c k) q)) /\
      (forall c, ~ (1 <= c < i) -> Cr c = Br1 c /\ Ci c = Bi1 c))).
    - lia.
    - split; [lia|split; reflexivity].
    - intros i [Cr Ci] Hi [H1 H2]. repeat step. cbn [wp]. split.
      + intros c Hc. destruct (Z.eq_dec c i) as [->|].
        * unfold cvec in *. uv. destruct (H2 i) as [-> ->]; [lia|].
          destruct (Ho i) as [-> ->]; [unfold k; lia|]. rewrite <- Hd.
          unfold Csub, Cmul, cmat. cbn [nadd nmul nsub nopp ndiv Rnum fst snd]. f_equal; rring.
        * unfold cvec in *. uv. apply H1. lia.
      + intros c Hc. uv. apply H2. lia. }
  intros [Cr Ci] [H1 H2] i Hi. unfold bwd1. destruct (Z.eqb_spec i k) as [->|Hne].
  - unfold cvec in *. destruct (H2 k) as [-> ->]; [unfold k; lia|]. exact Hd.
  - destruct (Z.ltb_spec i k).
    + apply H1. unfold k in *; lia.
    + unfold cvec. destruct (H2 i) as [-> ->]; [unfold k in *; lia|]. destruct (Ho i Hne) as [-> ->]. reflexivity.
Qed.

Lemma solhc_spec (n : Z) (H : Z -> Z -> CC) (Ar Ai : Rmat) ip (br bi : Rvec) : 1 <= n ->
  elimC_inv n n H (cmat Ar Ai) ip -> cmat Ar Ai n n <> Czero ->
  wp (@solhc Rnum n Ar Ai ip (br, bi)) (fun '(xr, xi) => Csat n H (cvec xr xi) (cvec br bi)).
Proof.
  intros Hn Hinv Hnn. pose proof Hinv as (Hd & Hip & Hs). unfold solhc.
  set (A := cmat Ar Ai) in *.
  assert (Hend : forall (Br Bi : Rvec) (B1 : Z -> CC), (forall i, 1 <= i <= n -> B1 i = fwdsC n A ip (cvec br bi) i) ->
     bwdC_inv n 1 A B1 (cvec Br Bi) ->
     wp (@solhc_div Rnum n 1 Ar Ai (Br, Bi)) (fun '(xr, xi) => Csat n H (cvec xr xi) (cvec br bi))).
  { intros Br Bi B1 HB1 HB.
    assert (H11 : A 1 1 <> Czero) by (destruct (Z.eq_dec n 1) as [->|]; [exact Hnn|apply Hd; lia]).
    eapply wp_mono; [apply solhc_div_spec; [lia|exact H11]|].
    intros [xr xi] [E1 E2].
    eapply (solve_correct CC Czero Cone Cadd Cmul Csub Copp Cdiv Cinv Cfth n H A ip (cvec br bi) B1); auto.
    eapply (bwd_inv_step CC Czero Cone Cadd Cmul Csub Copp Cdiv Cinv Cfth n 1 A B1 (cvec Br Bi)); auto; [lia|].
    intros i Hi. unfold bwd1. destruct (Z.eqb_spec i 1) as [->|].
    - exact E1.
    - destruct (Z.ltb_spec i 1); [lia|]. unfold cvec. destruct (E2 i) as [-> ->]; auto. }
  apply wp_bind. destruct (Z.eqb_spec n 1) as [E|Hn1]; cbn [negb].
  - subst n. cbn [wp]. apply (Hend br bi (cvec br bi)); [reflexivity|].
    apply (bwd_inv_start CC Czero Cone Cadd Cmul Csub Copp Cdiv Cinv Cfth).
  - apply wp_bind.
    eapply (wp_mono _ (fun '(Br, Bi) => forall i, cvec Br Bi i = fwdsC (n - 1 + 1) A ip (cvec br bi) i)).
    { apply (forM_ind (fun k (B : Rvec * Rvec) => let '(Br, Bi) := B in forall i, cvec Br Bi i = fwdsC k A ip (cvec br bi) i)).
      - lia.
      - reflexivity.
      - intros k [Br Bi] Hk HB. eapply wp_mono; [apply solhc_fwd_spec; [lia|apply Hip; lia]|].
        intros [Br' Bi'] HB' i. rewrite HB', fwds_S by lia. unfold fwd1. rewrite !HB. reflexivity. }
    intros [B1r B1i] HB1.
    eapply (wp_mono _ (fun '(Br, Bi) => bwdC_inv n (n - (n - 1 + 1) + 1) A (cvec B1r B1i) (cvec Br Bi))).
    { apply (forM_ind (fun kb (B : Rvec * Rvec) => let '(Br, Bi) := B in bwdC_inv n (n - kb + 1) A (cvec B1r B1i) (cvec Br Bi))).
      - lia.
      - replace (n - 1 + 1) with n by lia.
        apply (bwd_inv_start CC Czero Cone Cadd Cmul Csub Copp Cdiv Cinv Cfth).
      - intros kb [Br Bi] Hk HB.
        assert (Hkk : A (n - kb + 1) (n - kb + 1) <> Czero).
        { destruct (Z.eq_dec (n - kb + 1) n) as [->|]; [exact Hnn|apply Hd; lia]. }
        eapply wp_mono; [apply solhc_bwd_spec; [lia|exact Hkk]|].
        intros [Br' Bi'] HB'. replace (n - (kb + 1) + 1) with (n - kb + 1 - 1) by lia.
        eapply (bwd_inv_step CC Czero Cone Cadd Cmul Csub Copp Cdiv Cinv Cfth n (n - kb + 1) A (cvec B1r B1i) (cvec Br Bi)); auto; lia. }
    intros [Br Bi] HB. replace (n - (n - 1 + 1) + 1) with 1 in HB by lia.
    apply (Hend Br Bi (cvec B1r B1i)); [|exact HB]. intros i _. rewrite HB1. f_equal. lia.
Qed.
