(* The degrees 63, 129 and 148: a point of the interval where the polynomial exceeds 1. *)
From Coq Require Import Bool Reals Lra Lia List ZArith FunctionalExtensionality.
From Verif Require Import Base HessModel VecFun Spec Rock4Model Rock4Spec Rock4Proofs Rock4Drive Rock4Step Rock4LModel Rock4LSpec Rock4LProofs Rock4LDrive Rock4TabSpec Rock4TabNG Rock4TabL Cheb Rock4Check Rock4Poly Rock4Stab Rock4StabEval Rock4StabKer Rock4StabThm.
Import ListNotations.
Open Scope R_scope.

Definition ngA (i j : nat) : Z := nthZ ng_FPA (50 * j + i).
Definition ngB (i j : nat) : Z := nthZ ng_FPB (50 * j + i).
Definition lA (i j : nat) : Z := nthZ l_FPA (6 * i + j).
Definition lB (i j : nat) : Z := nthZ l_FPB (4 * i + j).
Lemma amp_ng : amp ng_RECF (ngA 36) (ngB 36) 36 7908 5 && amp ng_RECF (ngA 47) (ngB 47) 47 209 25 && amp ng_RECF (ngA 49) (ngB 49) 49 209 25 = true.
Proof. vm_cast_no_check (eq_refl true). Qed.
Lemma amp_l : amp l_RECF (lA 36) (lB 36) 36 7908 5 && amp l_RECF (lA 47) (lB 47) 47 209 25 && amp l_RECF (lA 49) (lB 49) 49 209 25 = true.
Proof. vm_cast_no_check (eq_refl true). Qed.

(* the degrees, the product h*lambda, 5 times a spectral radius for which the driver chooses the degree *)
Inductive bad : Z -> Z -> Z -> Z -> Prop :=
| bad63 : bad 63 7908 5 7908
| bad129 : bad 129 209 25 30000
| bad148 : bad 148 209 25 40000.
Lemma bad_amp d a b rho i r : bad d a b rho -> right_block d i r ->
  amp ng_RECF (ngA (Z.to_nat (i - 1))) (ngB (Z.to_nat (i - 1))) (Z.to_nat (i - 1)) a b = true /\
  amp l_RECF (lA (Z.to_nat (i - 1))) (lB (Z.to_nat (i - 1))) (Z.to_nat (i - 1)) a b = true.
Proof.
  intros HB (Hi & Hn & _). set (k := Z.to_nat (i - 1)) in *. assert (Hk : (k < 50)%nat) by lia. clearbody k.
  assert (X := amp_ng). assert (Y := amp_l). apply andb_prop in X, Y. destruct X as [X X3], Y as [Y Y3]. apply andb_prop in X, Y. destruct X as [X1 X2], Y as [Y1 Y2].
  assert (HH : forallb (fun k => implb (nth k MS 0 =? 63)%Z (Nat.eqb k 36) && implb (nth k MS 0 =? 129)%Z (Nat.eqb k 47) && implb (nth k MS 0 =? 148)%Z (Nat.eqb k 49)) (seq 0 50) = true) by (vm_cast_no_check (eq_refl true)).
  rewrite forallb_forall in HH. specialize (HH k). assert (Hin : In k (seq 0 50)) by (apply in_seq; lia). specialize (HH Hin). clear Hin. cbv beta in HH.
  apply andb_prop in HH. destruct HH as [HH H3]. apply andb_prop in HH. destruct HH as [H1 H2].
  destruct HB; rewrite Hn in H1, H2, H3; cbn [Z.eqb Pos.eqb implb] in H1, H2, H3.
  - apply Nat.eqb_eq in H1. subst k. split; assumption.
  - apply Nat.eqb_eq in H2. subst k. split; assumption.
  - apply Nat.eqb_eq in H3. subst k. split; assumption.
Qed.
Lemma exact_rl t l k z : exactly t l -> exps_ok l = true -> (k < Datatypes.length l)%nat -> z = Z.of_nat k -> t z = rl (nthZ l k).
Proof. intros H He Hk ->. rewrite (exps_nth _ _ He). rewrite (H (Z.of_nat k)) by lia. now rewrite Nat2Z.id. Qed.

Lemma not_damped lam (v : vec Rnum) q : v 0%Z <> 0 -> 1 < Rabs q -> ~ damped [(lam, v)] (fun k => q * v k).
Proof.
  intros Hv Hq (c & C1 & C2). specialize (C1 (lam, v) (or_introl eq_refl)). cbn [fst] in C1.
  assert (X := f_equal (fun g => g 0%Z) C2). cbn [comb fst snd] in X.
  assert (E : q * v 0%Z = c lam * v 0%Z) by (refine (eq_trans X _); apply Rplus_0_r).
  apply Rmult_eq_reg_r in E; [|exact Hv]. rewrite E in Hq. lra.
Qed.
Lemma scal_linear lam : linear (fun (v : vec Rnum) k => lam * v k).
Proof. intros u v x z. apply functional_extensionality. intros k. rring. Qed.
Definition ones : vec Rnum := fun _ => 1.
Lemma comb_one lam v : comb [(lam, v)] (fun _ => 1) = v.
Proof. apply functional_extensionality. intros k. cbn [comb fst snd]. eapply eq_trans; [apply Rplus_0_r|apply Rmult_1_l]. Qed.
Lemma scal_eigen lam v : Forall (eigen (fun v k => lam * v k)) [(lam, v)].
Proof. constructor; [intros k; reflexivity|constructor]. Qed.

Section NGref.
Variables RECF FPA FPB FPBE : Z -> R.
Hypothesis T1 : exactly RECF ng_RECF.
Hypothesis T2 : exactly FPA ng_FPA.
Hypothesis T3 : exactly FPB ng_FPB.
Lemma ng_amplifies d a b rho i r h lam (y : vec Rnum) : bad d a b rho -> right_block d i r -> h * lam = - (IZR a / IZR b) ->
  exists q, 1 < Rabs q /\
  new_y (fun v k => lam * v k) FPA FPB h i (stage (fun v k => lam * v k) (t_mu1 RECF r) (t_mu RECF r) (t_kappa RECF r) h y (Z.to_nat d)) = fun k => q * y k.
Proof.
  intros HB HR Hz. destruct (bad_amp d a b rho i r HB HR) as [HA _]. destruct (rb_deg d i r HR) as (E1 & E2 & E3 & E4 & E5 & E6).
  assert (X := ng_exps). apply andb_prop in X. destruct X as [X X3]. apply andb_prop in X. destruct X as [X1 X2].
  destruct ng_lens as (L1 & L2 & L3). change Datatypes.length with List.length in *.
  assert (N1 : forall k z, (k < 4382)%nat -> z = Z.of_nat k -> RECF z = rl (nthZ ng_RECF k)).
  { intros k z Hk ->. apply exact_rl; [exact T1|exact X1|rewrite L1; exact Hk|reflexivity]. }
  assert (N2 : forall k z, (k < 300)%nat -> z = Z.of_nat k -> FPA z = rl (nthZ ng_FPA k)).
  { intros k z Hk ->. apply exact_rl; [exact T2|exact X2|rewrite L2; exact Hk|reflexivity]. }
  assert (N3 : forall k z, (k < 200)%nat -> z = Z.of_nat k -> FPB z = rl (nthZ ng_FPB k)).
  { intros k z Hk ->. apply exact_rl; [exact T3|exact X3|rewrite L3; exact Hk|reflexivity]. }
  destruct (amp_sound ng_RECF (ngA (Z.to_nat (i - 1))) (ngB (Z.to_nat (i - 1))) (Z.to_nat (i - 1)) a b (t_mu1 RECF r) (t_mu RECF r) (t_kappa RECF r) (tab FPA i) (tab FPB i) HA) with (h := h) (lam := lam) (y := y) as (q & Q1 & Q2).
  - unfold t_mu1. apply N1; lia.
  - intros j Hj. split; [unfold t_mu|unfold t_kappa]; apply N1; lia.
  - intros j Hj. unfold tab, ngA. apply N2; lia.
  - intros j Hj. unfold tab, ngB. apply N3; lia.
  - exact Hz.
  - exists q. split; [exact Q1|]. rewrite <- E1. exact Q2.
Qed.
Definition start_e (lam : R) : est (K := Rnum) unit := mkEst (fun p _ => if (p =? 2)%Z then lam else 1) tt 2 3 4 5 6 7 8 1 0%Z.
Lemma bad_interval d a b rho : bad d a b rho -> interval d (- (IZR a / IZR b)) /\ (1 <= b)%Z /\ - (IZR rho / 5) <= - (IZR a / IZR b) <= 0 /\ (0 <= rho <= 40000)%Z.
Proof. intros HB. unfold interval. destruct HB; cbn [Z.add Pos.add Pos.succ]; repeat split; try lia; cbn [pow]; lra. Qed.
Lemma has_block d : In d MS -> exists i r, right_block d i r.
Proof.
  intros H. apply (In_nth _ _ 0%Z) in H. destruct H as (k & Hk & E). change (Datatypes.length MS) with 50%nat in Hk.
  exists (Z.of_nat k + 1)%Z, (block_start (Z.of_nat k + 1)). repeat split; try lia. replace (Z.to_nat (Z.of_nat k + 1 - 1)) with k by lia. exact E.
Qed.
Lemma bad_in d a b rho : bad d a b rho -> In d MS.
Proof. intros HB. destruct HB; unfold MS; cbn [In]; tauto. Qed.
Lemma ng_unstable d : In d [63; 129; 148]%Z -> exists (f : vec Rnum -> vec Rnum) l i r (e : est (K := Rnum) unit) h x,
  linear f /\ Forall (eigen f) l /\ right_block d i r /\ NoDup (ptrs unit e) /\ e_H e (e_fn e) = f (e_H e (e_y e)) /\ e_H e (e_y e) = comb l (fun _ => 1) /\
  (forall p, In p l -> interval d (h * fst p)) /\
  kernel (K := Rnum) (fun s v => (s, f v)) RECF FPA FPB FPBE 1 1 1 d i r e h = Ok x /\ ~ damped l (e_H (fst x) (e_temp (fst x))).
Proof.
  intros Hd. assert (HB : exists a b rho, bad d a b rho).
  { destruct Hd as [<-|[<-|[<-|[]]]]; do 3 eexists; constructor. }
  destruct HB as (a & b & rho & HB). destruct (bad_interval d a b rho HB) as (HI & Hb & _).
  destruct (has_block d (bad_in d a b rho HB)) as (i & r & HR).
  set (lam := - (IZR a / IZR b)) in *. set (f := fun (v : vec Rnum) k => lam * v k).
  exists f, [(lam, ones)], i, r, (start_e lam), 1.
  assert (HN : NoDup (ptrs unit (start_e lam))) by (unfold ptrs, start_e; cbn; repeat constructor; cbn; intuition discriminate).
  assert (Hfn : e_H (start_e lam) (e_fn (start_e lam)) = f (e_H (start_e lam) (e_y (start_e lam)))).
  { apply functional_extensionality. intros k. unfold f, start_e. cbn. symmetry. apply Rmult_1_r. }
  assert (W := kernel_step unit (fun s v => (s, f v)) RECF FPA FPB FPBE 1 1 1 f d i r (start_e lam) 1 (fun _ _ => eq_refl) ltac:(lia) HR HN Hfn).
  destruct (kernel (K := Rnum) (fun s v => (s, f v)) RECF FPA FPB FPBE 1 1 1 d i r (start_e lam) 1) as [[e' err]| | |] eqn:EK; try contradiction.
  exists (e', err). destruct W as (W1 & _).
  split; [apply scal_linear|]. split; [apply scal_eigen|]. split; [exact HR|]. split; [exact HN|]. split; [exact Hfn|].
  split; [now rewrite comb_one|]. split; [intros p [<-|[]]; cbn [fst]; now rewrite Rmult_1_l|]. split; [exact EK|].
  cbn [fst]. rewrite W1. destruct (ng_amplifies d a b rho i r 1 lam ones HB HR (Rmult_1_l _)) as (q & Q1 & Q2).
  change (e_H (start_e lam) (e_y (start_e lam))) with ones. fold f in Q2. rewrite Q2. apply not_damped; [unfold ones; lra|exact Q1].
Qed.
End NGref.

Lemma follows_nil_inv {W} (P : R -> Z -> W -> W -> Prop) L u u' : follows P L u u' -> L = [] -> u' = u.
Proof. intros H E. destruct H as [|L' ? ? ? ? ? ?]; [reflexivity|]. symmetry in E. now apply app_cons_not_nil in E. Qed.
Lemma follows_one {W} (P : R -> Z -> W -> W -> Prop) t h d u u' : follows P [(t, h, d)] u u' -> P h d u u'.
Proof.
  intros H. remember [(t, h, d)] as L eqn:EL. revert EL. destruct H as [|L' t' h' d' w w' w'' H1 H2]; [discriminate|].
  intros EL. change [(t, h, d)] with ([] ++ [(t, h, d)]) in EL. apply app_inj_tail in EL. destruct EL as [E1 E2]. injection E2 as -> -> ->.
  now rewrite (follows_nil_inv _ _ _ _ H1 E1) in H2.
Qed.

Section Lref.
Variables RECF FPA FPB : Z -> R.
Hypothesis T1 : exactly RECF l_RECF.
Hypothesis T2 : exactly FPA l_FPA.
Hypothesis T3 : exactly FPB l_FPB.
Lemma l_amplifies d a b rho i r h lam (y : vec Rnum) : bad d a b rho -> right_block d i r -> h * lam = - (IZR a / IZR b) ->
  exists q, 1 < Rabs q /\ rock4_step RECF FPA FPB (fun v k => lam * v k) d i r h y = fun k => q * y k.
Proof.
  intros HB HR Hz. destruct (bad_amp d a b rho i r HB HR) as [_ HA]. destruct (rb_deg d i r HR) as (E1 & E2 & E3 & E4 & E5 & E6).
  assert (X := l_exps). apply andb_prop in X. destruct X as [X X3]. apply andb_prop in X. destruct X as [X1 X2].
  destruct l_lens as (L1 & L2 & L3). change Datatypes.length with List.length in *.
  assert (N1 : forall k z, (k < 4382)%nat -> z = Z.of_nat k -> RECF z = rl (nthZ l_RECF k)).
  { intros k z Hk ->. apply exact_rl; [exact T1|exact X1|rewrite L1; exact Hk|reflexivity]. }
  assert (N2 : forall k z, (k < 300)%nat -> z = Z.of_nat k -> FPA z = rl (nthZ l_FPA k)).
  { intros k z Hk ->. apply exact_rl; [exact T2|exact X2|rewrite L2; exact Hk|reflexivity]. }
  assert (N3 : forall k z, (k < 200)%nat -> z = Z.of_nat k -> FPB z = rl (nthZ l_FPB k)).
  { intros k z Hk ->. apply exact_rl; [exact T3|exact X3|rewrite L3; exact Hk|reflexivity]. }
  destruct (amp_sound l_RECF (lA (Z.to_nat (i - 1))) (lB (Z.to_nat (i - 1))) (Z.to_nat (i - 1)) a b (RECF (r - 1)%Z) (fun j => RECF (r - 1 + 2 * j - 3)%Z) (fun j => RECF (r - 1 + 2 * j - 2)%Z)
    (row FPA 6 i) (row FPB 4 i) HA) with (h := h) (lam := lam) (y := y) as (q & Q1 & Q2).
  - apply N1; lia.
  - intros j Hj. split; apply N1; lia.
  - intros j Hj. unfold row, lA. apply N2; lia.
  - intros j Hj. unfold row, lB. apply N3; lia.
  - exact Hz.
  - exists q. split; [exact Q1|]. unfold rock4_step. rewrite <- E1. exact Q2.
Qed.
Lemma bad_chosen d a b rho d' : bad d a b rho -> In d' MS -> stable_degree (IZR rho / 5) 1 d' ->
  (forall d1, In d1 MS -> 1 * (IZR rho / 5) < 353 / 1000 * (IZR (d1 + 4)) ^ 2 - 3 -> (d' <= d1)%Z) -> d' = d.
Proof.
  intros HB Hin Hst Hmin. assert (H1 : (d' <= d)%Z).
  { apply Hmin; [apply (bad_in d a b rho HB)|]. destruct HB; cbn [Z.add Pos.add Pos.succ Pos.add_carry]; lra. }
  assert (H2 : forall c, (IZR rho / 5 > 353 / 1000 * (IZR (c + 4)) ^ 2 - 3) -> (0 <= c)%Z -> (c < d')%Z).
  { intros c Hc Hc0. unfold stable_degree in Hst. assert (0 < IZR (d' + 4)) by (apply (IZR_lt 0); apply MS_pos in Hin; lia).
    assert (IZR (c + 4) < IZR (d' + 4)); [|apply lt_IZR in H0; lia].
    apply Rnot_le_lt. intros Hle. assert (IZR (d' + 4) ^ 2 <= IZR (c + 4) ^ 2) by (apply pow_incr; lra). lra. }
  destruct HB.
  - assert (Y := H2 59%Z ltac:(cbn [Z.add Pos.add Pos.succ Pos.add_carry]; lra) ltac:(lia)). unfold MS in Hin. cbn [In] in Hin. lia.
  - assert (Y := H2 120%Z ltac:(cbn [Z.add Pos.add Pos.succ Pos.add_carry]; lra) ltac:(lia)). unfold MS in Hin. cbn [In] in Hin. lia.
  - assert (Y := H2 138%Z ltac:(cbn [Z.add Pos.add Pos.succ Pos.add_carry]; lra) ltac:(lia)). unfold MS in Hin. cbn [In] in Hin. lia.
Qed.
(* a whole run: one step of length 1 *)
Lemma l_unstable toint d : truncates toint -> In d [63; 129; 148]%Z -> exists (A : vec Rnum -> vec Rnum) l rho (e0 : lest (K := Rnum) Z) fuel st,
  linear A /\ Forall (eigen A) l /\ (forall p, In p l -> - rho <= fst p <= 0) /\ l_H e0 0%Z = comb l (fun _ => 1) /\
  101 / 100 * 1 * rho + 3 < 353 / 1000 * 152 ^ 2 /\
  rock4l (K := Rnum) toint (kernel1 (cnt_L A) (cnt_Lc A) RECF FPA FPB 0 1 2 3 4) 1 rho false fuel (l_init e0) 0 1 0 0 = Ok st /\
  v_t st = 1 /\ v_hist st = [(0, 1, d)] /\ ~ damped l (l_H (v_w st) 0%Z).
Proof.
  intros Htoint Hd. assert (HB : exists a b rho, bad d a b rho).
  { destruct Hd as [<-|[<-|[<-|[]]]]; do 3 eexists; constructor. }
  destruct HB as (a & b & rho & HB). destruct (bad_interval d a b rho HB) as (HI & Hb & Hr & Hr2).
  assert (Hr3 : 0 <= IZR rho <= 40000) by (split; [apply (IZR_le 0)|apply (IZR_le _ 40000)]; lia).
  set (lam := - (IZR a / IZR b)) in *. set (A := fun (v : vec Rnum) k => lam * v k).
  set (e0 := mkL (K := Rnum) (fun _ => ones) 0%Z 0%Z 0%Z).
  assert (Hdeg : 101 / 100 * 1 * (IZR rho / 5) + 3 < 353 / 1000 * 152 ^ 2) by lra.
  assert (P1 : doc_L Z A (cnt_L A)) by (intros ? ? ? ? ?; reflexivity).
  assert (P2 : doc_Lc Z A (cnt_Lc A)) by (intros ? ? ? ? ? ?; reflexivity).
  assert (P3 : NoDup [0; 1; 2; 3; 4]%Z) by (repeat constructor; cbn; intuition discriminate).
  destruct (linear_run Z A (scal_linear lam) (cnt_L A) RECF FPA FPB (fun _ _ => True) toint 1 (IZR rho / 5) 0 1 0 1 2 3 4 0 0 e0 Htoint ltac:(lra) ltac:(lra) Hdeg ltac:(lra) Logic.I P1
    (fun _ _ _ _ _ _ _ => Logic.I) (cnt_Lc A) P2 (fun _ _ _ _ _ _ _ _ => Logic.I) P3) as (fuel & st & E & Et & (G1 & G2 & (x & l' & G3 & _) & G4) & HS & _).
  exists A, [(lam, ones)], (IZR rho / 5), e0, fuel, st.
  split; [apply scal_linear|]. split; [apply scal_eigen|]. split; [intros p [<-|[]]; exact Hr|]. split; [now rewrite comb_one|].
  split; [exact Hdeg|]. split; [exact E|]. split; [exact Et|].
  assert (El : l' = []).
  { destruct l' as [|x' l']; [reflexivity|]. rewrite G3 in G4. cbn [Datatypes.length] in G4. rewrite !S_INR in G4. assert (0 <= INR (Datatypes.length l')) by apply pos_INR. lra. }
  subst l'. rewrite G3 in *. destruct x as [[t h] d'].
  cbn [List.rev List.app] in *. destruct (Forall_inv G2) as (F1 & F2 & F3 & F4 & F5).
  assert (Eh : t = 0 /\ h = 1) by (cbn [leads] in G1; lra).
  destruct Eh as [-> ->]. assert (Ed : d' = d) by (apply (bad_chosen d a b rho d' HB F3 F4 F5)). subst d'. split; [reflexivity|].
  apply follows_one in HS. destruct HS as (i & r & HR & Hu).
  rewrite Hu. destruct (l_amplifies d a b rho i r 1 lam ones HB HR (Rmult_1_l _)) as (q & Q1 & Q2).
  change (l_H e0 0%Z) with ones. fold A in Q2. rewrite Q2. apply not_damped; [unfold ones; lra|exact Q1].
Qed.
End Lref.
