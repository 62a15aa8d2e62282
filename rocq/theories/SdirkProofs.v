(* C40, C41: the step of Sdirkl is the Runge-Kutta step. *)
From Coq Require Import Reals Lra FunctionalExtensionality.
From Verif Require Import Base FieldLU HessModel Spec HessPathProofs SdirkModel SdirkSpec.
Open Scope Z_scope.
Local Arguments Z.mul : simpl never.
Local Arguments Z.add : simpl never.
Local Arguments Z.sub : simpl never.

Section Mem.
Variable RK : method Rnum.
Variable n : Z.
Variable dt : R.
Variable affine : bool.
Variable op : vec Rnum -> vec Rnum.
Hypothesis Hn : 0 <= n.
Notation s := (m_s RK).
Notation zsize := (zsize RK n affine).
Notation ld := (ld RK n affine).
Notation st := (st RK n affine).
Notation smem := (smem (K := Rnum)).
Definition blk (m : smem) (p : ptr) : vec Rnum := match p with Io => io m | Buf o => fun i => zb m (o + i) end.
Definition valid (p : ptr) : Prop := match p with Io => True | Buf o => 0 <= o /\ o + n <= zsize end.
Definition sep (p q : ptr) : Prop := match p, q with Io, Io => False | Buf o, Buf o' => o + n <= o' \/ o' + n <= o | _, _ => True end.
Lemma sep_sym p q : sep p q -> sep q p.
Proof. destruct p, q; cbn; tauto. Qed.
(* one element is written *)
Definition upd1 (p : ptr) (i : Z) (x : R) (m m' : smem) : Prop :=
  blk m' p i = x /\ (forall k, 0 <= k < n -> k <> i -> blk m' p k = blk m p k) /\ (forall q, sep p q -> veq n (blk m' q) (blk m q)).
(* a vector is written *)
Definition eff (p : ptr) (v : vec Rnum) (m m' : smem) : Prop :=
  veq n (blk m' p) v /\ (forall q, sep p q -> veq n (blk m' q) (blk m q)).
Lemma ld_ok p i m : valid p -> 0 <= i < n -> ld p i m = Ok (blk m p i).
Proof. intros Hv Hi. destruct p as [|o]; cbn in *; apply rd_ok; lia. Qed.
Lemma st_ok p i x m : valid p -> 0 <= i < n -> wp (st p i x m) (upd1 p i x m).
Proof.
  intros Hv Hi. destruct p as [|o]; cbn in *; rewrite wr_ok by lia; cbn [bind wp]; unfold upd1; cbn; repeat split.
  - unfold upd. rewrite Z.eqb_refl. reflexivity.
  - intros k Hk Hne. unfold upd. destruct (Z.eqb_spec k i); [contradiction|reflexivity].
  - intros q Hq k Hk. destruct q; [contradiction|reflexivity].
  - unfold upd. rewrite Z.eqb_refl. reflexivity.
  - intros k Hk Hne. unfold upd. destruct (Z.eqb_spec (o + k) (o + i)); [lia|reflexivity].
  - intros q Hq k Hk. destruct q as [|o']; [reflexivity|]. cbn. unfold upd. destruct (Z.eqb_spec (o' + k) (o + i)); [lia|reflexivity].
Qed.
Lemma upd1_trans p i x y m m1 m2 : upd1 p i x m m1 -> upd1 p i y m1 m2 -> upd1 p i y m m2.
Proof.
  intros (A1 & A2 & A3) (B1 & B2 & B3). split; [exact B1|]. split.
  - intros k Hk Hne. rewrite B2, A2 by assumption. reflexivity.
  - intros q Hq k Hk. rewrite B3, A3 by assumption. reflexivity.
Qed.
(* a loop over the elements *)
Lemma loop_eff (p : ptr) (v : vec Rnum) (body : Z -> smem -> out smem) m :
  (forall i m', 0 <= i < n -> (forall k, i <= k < n -> blk m' p k = blk m p k) -> (forall q, sep p q -> veq n (blk m' q) (blk m q)) -> wp (body i m') (upd1 p i (v i) m')) ->
  wp (forM 0 (n - 1) body m) (eff p v m).
Proof.
  intros Hb.
  set (P := (fun j m' => (forall k, 0 <= k < j -> blk m' p k = v k) /\ (forall k, j <= k < n -> blk m' p k = blk m p k) /\
    (forall q, sep p q -> veq n (blk m' q) (blk m q)))).
  assert (HL : wp (forM 0 (n - 1) body m) (P (n - 1 + 1))).
  { apply forM_ind; [lia| |]; unfold P.
    - split; [intros; lia|]. split; [reflexivity|]. intros q _ k _. reflexivity.
    - intros j m1 Hj (H1 & H2 & H3). eapply wp_mono; [apply Hb; [lia|exact H2|exact H3]|]. intros m2 (B1 & B2 & B3). split; [|split].
      + intros k Hk. destruct (Z.eq_dec k j) as [->|]; [exact B1|]. rewrite B2 by lia. apply H1. lia.
      + intros k Hk. rewrite B2 by lia. apply H2. lia.
      + intros q Hq k Hk. rewrite B3, H3 by assumption. reflexivity. }
  eapply wp_mono; [exact HL|]. intros m' (H1 & _ & H3). split; [intros k Hk; apply H1; lia|exact H3].
Qed.

Hypothesis Hs : 1 <= s.
Lemma cl_ok nv (c : Z -> R) (v : Z -> ptr) o m : 1 <= nv <= s -> valid o -> (forall j, 0 <= j < nv -> valid (v j) /\ sep o (v j)) ->
  wp (cl RK n affine nv c v o m) (eff o (fun i => rsum 0 (nv - 1) (fun j => c j * blk m (v j) i)%R) m).
Proof.
  intros Hnv Ho Hv. unfold cl. apply wp_rd; [lia|]. apply loop_eff. intros i m1 Hi _ Hq.
  apply wp_rd; [lia|]. rewrite ld_ok by (try apply Hv; lia). cbn [bind].
  apply wp_bind. eapply wp_mono; [apply st_ok; assumption|]. intros m2 U2.
  set (P := (fun j m' => upd1 o i (rsum 0 (j - 1) (fun l => c l * blk m (v l) i)%R) m1 m')).
  assert (HL : wp (forM 1 (nv - 1) (fun j m => oi <- ld o i m ;; vj <- rd 0 s v j ;; x <- ld vj i m ;; cj <- rd 0 (s - 1) c j ;; st o i (oi + x * cj)%num m) m2)
    (P (nv - 1 + 1))).
  { apply forM_ind; [lia| |]; unfold P.
    - change (1 - 1) with 0. rewrite rsum_lo, rsum_empty by lia. rewrite Rplus_0_r. rewrite <- (Hq (v 0)) by (try apply Hv; lia). exact U2.
    - intros j m3 Hj U3. rewrite ld_ok by assumption. cbn [bind]. apply wp_rd; [lia|]. rewrite ld_ok by (try apply Hv; lia). cbn [bind]. apply wp_rd; [lia|].
      eapply wp_mono; [apply st_ok; assumption|]. intros m4 U4. eapply upd1_trans; [exact U3|]. destruct U3 as (V1 & V2 & V3).
      replace (j + 1 - 1) with j by lia. rewrite rsum_hi by lia. rewrite V1 in U4. rewrite V3 in U4 by (try apply Hv; lia). rewrite Hq in U4 by (try apply Hv; lia).
      cbn [nadd nmul Rnum] in U4. rewrite Rmult_comm in U4. exact U4. }
  eapply wp_mono; [exact HL|]. intros m' U. unfold P in U. replace (nv - 1 + 1 - 1) with (nv - 1) in U by lia. exact U.
Qed.
Lemma pluscl_ok nv (c : Z -> R) (v : Z -> ptr) o m : 0 <= nv <= s -> valid o -> (forall j, 0 <= j < nv -> valid (v j) /\ sep o (v j)) ->
  wp (pluscl RK n affine nv c v o m) (eff o (fun i => blk m o i + rsum 0 (nv - 1) (fun j => c j * blk m (v j) i))%R m).
Proof.
  intros Hnv Ho Hv. unfold pluscl. apply loop_eff. intros i m1 Hi Ho1 Hq.
  set (P := (fun j m' => upd1 o i (blk m o i + rsum 0 (j - 1) (fun l => c l * blk m (v l) i))%R m1 m')).
  assert (HL : wp (forM 0 (nv - 1) (fun j m => oi <- ld o i m ;; cj <- rd 0 (s - 1) c j ;; vj <- rd 0 (s - 1) v j ;; x <- ld vj i m ;; st o i (oi + cj * x)%num m) m1)
    (P (nv - 1 + 1))).
  { apply forM_ind; [lia| |]; unfold P.
    - rewrite rsum_empty by lia. rewrite Rplus_0_r. split; [apply Ho1; lia|]. split; [reflexivity|]. intros q _ k _. reflexivity.
    - intros j m3 Hj U3. rewrite ld_ok by assumption. cbn [bind]. apply wp_rd; [lia|]. apply wp_rd; [lia|]. rewrite ld_ok by (try apply Hv; lia). cbn [bind].
      eapply wp_mono; [apply st_ok; assumption|]. intros m4 U4. eapply upd1_trans; [exact U3|]. destruct U3 as (V1 & V2 & V3).
      replace (j + 1 - 1) with j by lia. rewrite rsum_hi by lia. rewrite V1 in U4. rewrite V3 in U4 by (try apply Hv; lia). rewrite Hq in U4 by (try apply Hv; lia).
      cbn [nadd nmul Rnum] in U4. rewrite Rplus_assoc in U4. exact U4. }
  eapply wp_mono; [exact HL|]. intros m' U. unfold P in U. replace (nv - 1 + 1 - 1) with (nv - 1) in U by lia. exact U.
Qed.
Lemma plusa_ok a phi c o m : valid c -> valid o -> sep o c ->
  wp (plusa RK n affine a phi c o m) (eff o (fun i => a * phi i + blk m c i)%R m).
Proof.
  intros Hc Ho Hsep. unfold plusa. apply loop_eff. intros i m1 Hi _ Hq. apply wp_rd; [lia|]. rewrite ld_ok by assumption. cbn [bind].
  rewrite (Hq c Hsep i Hi). apply st_ok; assumption.
Qed.
Lemma minus_ok z b m : valid z -> valid b -> sep z b ->
  wp (minus RK n affine z b m) (eff z (fun i => blk m z i - blk m b i)%R m).
Proof.
  intros Hz Hb Hsep. unfold minus. apply loop_eff. intros i m1 Hi Ho Hq. rewrite !ld_ok by assumption. cbn [bind].
  rewrite (Hq b Hsep i Hi), (Ho i) by lia. apply st_ok; assumption.
Qed.
(* what the operator is given *)
Definition mask (x : vec Rnum) : vec Rnum := fun i => if inb 0 (n - 1) i then x i else 0%R.
Lemma mask_veq x : veq n (mask x) x.
Proof. intros i Hi. unfold mask. rewrite inb_true by lia. reflexivity. Qed.
Lemma mask_eq x y : veq n x y -> mask x = mask y.
Proof. intros H. extensionality i. unfold mask. destruct (inb 0 (n - 1) i) eqn:E; [|reflexivity]. apply inb_iff in E. apply H. lia. Qed.
Lemma apply_ok w x m : valid w -> valid x ->
  wp (apply RK n affine op w x m) (eff x (op (mask (blk m w))) m).
Proof.
  intros Hw Hx. unfold apply. apply wp_bind.
  assert (E : match w with Io => Ok tt | Buf o => if inb 0 zsize o && inb 0 zsize (o + n) then Ok tt else UB "read out of bounds" end = Ok tt).
  { destruct w as [|o]; [reflexivity|]. cbn in Hw. rewrite !inb_true by lia. reflexivity. }
  rewrite E. cbn [wp].
  match goal with |- context [op ?x] => replace x with (mask (blk m w)) end.
  - apply loop_eff. intros i m1 Hi _ _. apply st_ok; assumption.
  - extensionality i. unfold mask. cbn [nlit Rnum]. rewrite Rlit_0. destruct w; reflexivity.
Qed.
Lemma eff_mono p v w m m' : veq n v w -> eff p v m m' -> eff p w m m'.
Proof. intros H [E1 E2]. split; [|exact E2]. intros i Hi. rewrite E1, H by exact Hi. reflexivity. Qed.
End Mem.

Lemma rsum_shift1 lo hi (f : Z -> R) : rsum (lo + 1) (hi + 1) f = rsum lo hi (fun i => f (i + 1)).
Proof.
  unfold rsum. rewrite (sum_shift R 0%R Rplus lo hi 1 (fun i => f (i + 1))). apply sum_ext. intros i _. f_equal. lia.
Qed.

Section Step.
Variable RK : method Rnum.
Variable n : Z.
Variable dt : R.
Variable op : vec Rnum -> vec Rnum.
Notation s := (m_s RK).
Notation g := (diag RK).
Hypothesis Hn : 0 <= n.
Hypothesis Hs : 1 <= s.
Notation smem := (smem (K := Rnum)).
Notation Zi := (Zi n).
(* the constructor *)
Lemma doNew_ok dloc Zused : wp (doNew RK n dloc Zused) (fun x => let '(lu, dl, zu) := x in
  0 <= lu <= s /\ (forall j, 0 <= j < lu -> exists i, 0 <= i < s /\ zu j = Zi i) /\
  forall G : ptr -> R, rsum 0 (lu - 1) (fun j => dl j * G (zu j))%R = rsum 0 (s - 1) (fun i => m_D RK i * G (Zi i))%R).
Proof.
  set (P := fun (i : Z) (x : Z * (Z -> R) * (Z -> ptr)) => let '(lu, dl, zu) := x in
    0 <= lu <= i /\ (forall j, 0 <= j < lu -> exists k, 0 <= k < i /\ zu j = Zi k) /\
    forall G : ptr -> R, rsum 0 (lu - 1) (fun j => dl j * G (zu j))%R = rsum 0 (i - 1) (fun i => m_D RK i * G (Zi i))%R).
  assert (HL : wp (doNew RK n dloc Zused) (P (s - 1 + 1))).
  { unfold doNew. apply forM_ind; [lia| |]; unfold P.
    - split; [lia|]. split; [intros; lia|]. intros G. rewrite !rsum_empty by lia. reflexivity.
    - intros i [[lu dl] zu] Hi (H1 & H2 & H3). cbn [neqb Rnum nlit]. rewrite Rlit_0. unfold Reqb. destruct (Req_EM_T (m_D RK i) 0) as [E|E]; cbn [negb].
      + cbn [wp]. split; [lia|]. split; [intros j Hj; destruct (H2 j Hj) as (k & Hk & Ek); exists k; split; [lia|exact Ek]|].
        intros G. rewrite H3. replace (i + 1 - 1) with i by lia. rewrite (rsum_hi 0 i) by lia. rewrite E. ring.
      + rewrite !wr_ok by lia. cbn [bind wp]. split; [lia|]. split.
        * intros j Hj. unfold upd. destruct (Z.eqb_spec j lu); [exists i; split; [lia|reflexivity]|].
          destruct (H2 j) as (k & Hk & Ek); [lia|]. exists k. split; [lia|exact Ek].
        * intros G. replace (lu + 1 - 1) with lu by lia. replace (i + 1 - 1) with i by lia. rewrite (rsum_hi 0 lu), (rsum_hi 0 i) by lia. rewrite <- H3.
          unfold upd. rewrite Z.eqb_refl. f_equal. apply rsum_ext. intros j Hj. destruct (Z.eqb_spec j lu); [lia|reflexivity]. }
  eapply wp_mono; [exact HL|]. intros [[lu dl] zu] (H1 & H2 & H3). replace (s - 1 + 1) with s in * by lia. split; [lia|]. split; [exact H2|exact H3].
Qed.
Lemma combine_ok stage al zc : 0 <= stage < s -> wp (combine RK n stage (al, zc)) (fun x => let '(al', zc') := x in
  al' 0 = (m_S RK stage / g)%R /\ zc' 0 = zc 0 /\ forall j, 0 <= j < stage -> al' (j + 1) = (m_A RK stage j / g)%R /\ zc' (j + 1) = Zi j).
Proof.
  intros Hst. unfold combine. apply wp_wr; [lia|].
  set (P := fun (i : Z) (x : (Z -> R) * (Z -> ptr)) => let '(al', zc') := x in
    al' 0 = (m_S RK stage / g)%R /\ zc' 0 = zc 0 /\ forall j, 0 <= j < i -> al' (j + 1) = (m_A RK stage j / g)%R /\ zc' (j + 1) = Zi j).
  match goal with |- wp ?m _ => assert (HL : wp m (P (stage - 1 + 1))) end.
  { apply forM_ind; [lia| |]; unfold P.
    - unfold upd. rewrite Z.eqb_refl. split; [reflexivity|]. split; [reflexivity|]. intros; lia.
    - intros i [al1 zc1] Hi (H1 & H2 & H3). rewrite wr_ok by lia. cbn [bind]. rewrite wr_ok by lia. cbn [bind wp]. unfold upd. split; [|split].
      + destruct (Z.eqb_spec 0 (i + 1)); [lia|exact H1].
      + destruct (Z.eqb_spec 0 (i + 1)); [lia|exact H2].
      + intros j Hj. destruct (Z.eqb_spec (j + 1) (i + 1)); [assert (j = i) by lia; subst; split; reflexivity|]. apply H3. lia. }
  eapply wp_mono; [exact HL|]. intros [al1 zc1]. unfold P. replace (stage - 1 + 1) with stage by lia. auto.
Qed.
(* the blocks *)
Variable affine : bool.
Notation valid := (valid RK n affine).
Notation sep := (sep n).
Lemma Zi_valid j : 0 <= j < s -> valid (Zi j).
Proof. intros Hj. cbn. unfold zsize. destruct affine; nia. Qed.
Lemma Work_valid : valid (Work RK n).
Proof. cbn. unfold zsize. destruct affine; nia. Qed.
Lemma Zi_sep i j : 0 <= i -> 0 <= j -> i <> j -> sep (Zi i) (Zi j).
Proof. intros. cbn. nia. Qed.
Lemma Zi_Work j : 0 <= j < s -> sep (Zi j) (Work RK n).
Proof. intros. cbn. nia. Qed.
Lemma Zi_Work1 j : 0 <= j < s -> sep (Zi j) (Work1 RK n).
Proof. intros. cbn. nia. Qed.

(* what a stage computes; F: the vectors of the stages, phi: the forcing term *)
Definition comb (u : vec Rnum) (F : Z -> vec Rnum) (i : Z) : vec Rnum :=
  fun p => (m_S RK i / g * u p + rsum 0 (i - 1) (fun j => m_A RK i j / g * F j p))%R.
Definition stage_rel (phi u : vec Rnum) (F : Z -> vec Rnum) (i : Z) : Prop :=
  veq n (F i) (fun p => op (mask n (fun q => m_S RK i * dt * phi q + comb u F i q)%R) p - comb u F i p)%R.
Lemma comb_ext u u' F F' i : veq n u u' -> (forall j, 0 <= j < i -> veq n (F j) (F' j)) -> veq n (comb u F i) (comb u' F' i).
Proof.
  intros Hu HF p Hp. unfold comb. rewrite (Hu p Hp). f_equal. apply rsum_ext. intros j Hj. rewrite (HF j ltac:(lia) p Hp). reflexivity.
Qed.
Lemma stage_ext phi u F F' i : (forall j, 0 <= j <= i -> veq n (F j) (F' j)) -> 0 <= i -> stage_rel phi u F i -> stage_rel phi u F' i.
Proof.
  intros HF Hi H p Hp. rewrite <- (HF i) by (try exact Hp; lia). rewrite (H p Hp).
  assert (Hc : veq n (comb u F i) (comb u F' i)) by (apply comb_ext; [intros q _; reflexivity|intros j Hj; apply HF; lia]).
  rewrite (Hc p Hp). f_equal. f_equal. apply mask_eq. intros q Hq. rewrite (Hc q Hq). reflexivity.
Qed.
Lemma cl_comb stage al zc (m : smem) u : 0 <= stage < s -> al 0 = (m_S RK stage / g)%R -> zc 0 = Io -> veq n (io m) u ->
  (forall j, 0 <= j < stage -> al (j + 1) = (m_A RK stage j / g)%R /\ zc (j + 1) = Zi j) ->
  veq n (fun i => rsum 0 (stage + 1 - 1) (fun j => al j * blk m (zc j) i)%R) (comb u (fun j => blk m (Zi j)) stage).
Proof.
  intros Hst E0 Z0 Hu Hj p Hp. replace (stage + 1 - 1) with (stage - 1 + 1) by lia. rewrite rsum_lo by lia. rewrite rsum_shift1. unfold comb. rewrite E0, Z0. cbn [blk]. rewrite (Hu p Hp).
  f_equal. apply rsum_ext. intros j Hj2. destruct (Hj j ltac:(lia)) as [-> ->]. reflexivity.
Qed.

Definition obj_ok (o : sobj (K := Rnum)) : Prop :=
  0 <= o_lused o <= s /\ (forall j, 0 <= j < o_lused o -> exists i, 0 <= i < s /\ o_Zused o j = Zi i) /\
  forall G : ptr -> R, rsum 0 (o_lused o - 1) (fun j => o_dloc o j * G (o_Zused o j))%R = rsum 0 (s - 1) (fun i => m_D RK i * G (Zi i))%R.
Lemma construct_ok dloc Zused aloc zc0 : wp (construct RK n dloc Zused aloc zc0) obj_ok.
Proof. unfold construct. apply wp_bind. eapply wp_mono; [apply doNew_ok|]. intros [[lu dl] zu] H. exact H. Qed.

Definition stages_done (phi u : vec Rnum) (k : Z) (x : (Z -> R) * (Z -> ptr) * smem) : Prop :=
  let '(al, zc, m) := x in zc 0 = Io /\ veq n (io m) u /\ forall j, 0 <= j < k -> stage_rel phi u (fun l => blk m (Zi l)) j.
(* what remains of a stage once Work (and Work1) are computed *)
Lemma stage_finish phi u stage (m0 m3 m4 m5 : smem) (W : ptr) :
  0 <= stage < s -> (forall j, 0 <= j < s -> sep (Zi j) W) -> veq n (io m0) u -> (forall j, 0 <= j < stage -> stage_rel phi u (fun l => blk m0 (Zi l)) j) ->
  (forall j, 0 <= j < s -> veq n (blk m3 (Zi j)) (blk m0 (Zi j))) -> veq n (io m3) (io m0) -> veq n (blk m3 W) (comb u (fun j => blk m0 (Zi j)) stage) ->
  veq n (blk m3 (Work RK n)) (fun p => m_S RK stage * dt * phi p + comb u (fun j => blk m0 (Zi j)) stage p)%R ->
  eff n (Zi stage) (op (mask n (blk m3 (Work RK n)))) m3 m4 -> eff n (Zi stage) (fun i => blk m4 (Zi stage) i - blk m4 W i)%R m4 m5 ->
  veq n (io m5) u /\ forall j, 0 <= j < stage + 1 -> stage_rel phi u (fun l => blk m5 (Zi l)) j.
Proof.
  intros Hst HW Hu Hdone Hz Hio HW3 HWk [A1 A2] [B1 B2].
  assert (Hio5 : veq n (io m5) u).
  { intros p Hp. change (io m5) with (blk m5 Io). rewrite (B2 Io I p Hp), (A2 Io I p Hp). cbn [blk]. rewrite (Hio p Hp). apply Hu, Hp. }
  assert (Hz5 : forall j, 0 <= j < s -> j <> stage -> veq n (blk m5 (Zi j)) (blk m0 (Zi j))).
  { intros j Hj Hne p Hp. rewrite (B2 (Zi j)) by (try apply Zi_sep; lia). rewrite (A2 (Zi j)) by (try apply Zi_sep; lia). apply Hz; assumption. }
  split; [exact Hio5|]. intros j Hj. destruct (Z.eq_dec j stage) as [->|Hne].
  - intros p Hp. rewrite (B1 p Hp), (A1 p Hp). rewrite (A2 W (HW stage Hst) p Hp), (HW3 p Hp).
    assert (Hc : veq n (comb u (fun j => blk m0 (Zi j)) stage) (comb u (fun j => blk m5 (Zi j)) stage)).
    { apply comb_ext; [intros q _; reflexivity|]. intros l Hl q Hq. symmetry. apply Hz5; [lia|lia|exact Hq]. }
    rewrite (Hc p Hp). f_equal. f_equal. apply mask_eq. intros q Hq. rewrite (HWk q Hq), (Hc q Hq). reflexivity.
  - apply stage_ext with (fun l => blk m0 (Zi l)); [|lia|apply Hdone; lia]. intros l Hl q Hq. symmetry. apply Hz5; [lia|lia|exact Hq].
Qed.
Lemma final_ok phi u o al zc (m : smem) : obj_ok o -> stages_done phi u s (al, zc, m) ->
  wp (pluscl RK n affine (o_lused o) (o_dloc o) (o_Zused o) Io m) (fun m' =>
    exists F, (forall i, 0 <= i < s -> stage_rel phi u F i) /\ veq n (io m') (fun p => u p + rsum 0 (s - 1) (fun i => m_D RK i * F i p))%R).
Proof.
  intros (O1 & O2 & O3) (_ & Hu & Hd). eapply wp_mono.
  { apply pluscl_ok; try assumption; [exact I|]. intros j Hj. destruct (O2 j Hj) as (i & Hi & ->). split; [apply Zi_valid, Hi|exact I]. }
  intros m' [E _]. exists (fun i => blk m (Zi i)). split; [exact Hd|]. intros p Hp. cbn [blk] in E. rewrite (E p Hp), (Hu p Hp). f_equal.
  apply (O3 (fun q => blk m q p)).
Qed.
End Step.

Section Tops.
Variable RK : method Rnum.
Variable n : Z.
Variable dt : R.
Variable op : vec Rnum -> vec Rnum.
Notation s := (m_s RK).
Hypothesis Hn : 0 <= n.
Hypothesis Hs : 1 <= s.
Notation smem := (smem (K := Rnum)).
Notation sobj := (sobj (K := Rnum)).
Definition same_obj (o o' : sobj) : Prop := o_lused o' = o_lused o /\ o_dloc o' = o_dloc o /\ o_Zused o' = o_Zused o.
Definition computed (phi u : vec Rnum) (o : sobj) (x : sobj * smem * option string) : Prop :=
  let '(o', m', e) := x in e = None /\ same_obj o o' /\
  exists F, (forall i, 0 <= i < s -> stage_rel RK n dt op phi u F i) /\ veq n (io m') (fun p => u p + rsum 0 (s - 1) (fun i => m_D RK i * F i p))%R.
Lemma linear_computed o (m : smem) : obj_ok RK n o -> wp (step_linear RK n false op o m) (computed (fun _ => 0%R) (io m) o).
Proof.
  intros Ho. unfold step_linear. apply wp_wr; [lia|]. apply wp_bind.
  match goal with |- wp ?t _ => assert (HL : wp t (stages_done RK n dt op (fun _ => 0%R) (io m) (s - 1 + 1))) end.
  { apply forM_ind; [lia| |].
    - split; [unfold upd; reflexivity|]. split; [intros p _; reflexivity|]. intros; lia.
    - intros stage [[al zc] m0] Hst (Hz & Hu & Hd). apply wp_bind. eapply wp_mono; [apply combine_ok; lia|]. intros [al1 zc1] (C1 & C2 & C3). rewrite Hz in C2.
      apply wp_bind. eapply wp_mono.
      { apply cl_ok; [exact Hn|exact Hs|lia|apply Work_valid; assumption|]. intros j Hj. destruct (Z.eq_dec j 0) as [->|]; [rewrite C2; split; exact I|].
        destruct (C3 (j - 1)) as [_ Ez]; [lia|]. replace (j - 1 + 1) with j in Ez by lia. rewrite Ez. split; [apply Zi_valid; lia|apply sep_sym, Zi_Work; lia]. }
      intros m3 [E1 E2]. apply wp_bind. eapply wp_mono; [apply apply_ok; [exact Hn|apply Work_valid|apply Zi_valid]; lia|]. intros m4 A4.
      apply wp_bind. eapply wp_mono; [apply minus_ok; [exact Hn|apply Zi_valid|apply Work_valid|apply Zi_Work]; lia|]. intros m5 A5. cbn [wp].
      split; [exact C2|].
      pose proof (cl_comb RK n stage al1 zc1 m0 (io m) ltac:(lia) C1 C2 Hu C3) as Hc.
      assert (HW : veq n (blk m3 (Work RK n)) (comb RK (io m) (fun j => blk m0 (Zi n j)) stage)) by (intros p Hp; rewrite (E1 p Hp); apply Hc, Hp).
      apply (stage_finish RK n dt op (fun _ => 0%R) (io m) stage m0 m3 m4 m5 (Work RK n)); try assumption; try lia.
      + intros j Hj. apply Zi_Work; lia.
      + intros j Hj. apply E2. apply sep_sym, Zi_Work; lia.
      + apply (E2 Io I).
      + intros p Hp. rewrite (HW p Hp), Rmult_0_r, Rplus_0_l. reflexivity. }
  eapply wp_mono; [exact HL|]. intros [[al zc] m1] HP. replace (s - 1 + 1) with s in HP by lia. apply wp_bind.
  eapply wp_mono; [apply (final_ok RK n dt op Hn Hs false _ _ _ _ _ _ Ho HP)|]. intros m2 HF. cbn [wp]. split; [reflexivity|]. split; [repeat split|exact HF].
Qed.
Lemma affine_computed phi o (m : smem) : obj_ok RK n o -> wp (step_affine RK n dt true op phi o m) (computed phi (io m) o).
Proof.
  intros Ho. unfold step_affine. cbn [negb]. apply wp_wr; [lia|]. apply wp_bind.
  assert (V1 : valid RK n true (Work1 RK n)) by (cbn; unfold zsize; nia).
  assert (W01 : sep n (Work RK n) (Work1 RK n)) by (cbn; lia).
  match goal with |- wp ?t _ => assert (HL : wp t (stages_done RK n dt op phi (io m) (s - 1 + 1))) end.
  { apply forM_ind; [lia| |].
    - split; [unfold upd; reflexivity|]. split; [intros p _; reflexivity|]. intros; lia.
    - intros stage [[al zc] m0] Hst (Hz & Hu & Hd). apply wp_bind. eapply wp_mono; [apply combine_ok; lia|]. intros [al1 zc1] (C1 & C2 & C3). rewrite Hz in C2.
      apply wp_bind. eapply wp_mono.
      { apply cl_ok; [exact Hn|exact Hs|lia|exact V1|]. intros j Hj. destruct (Z.eq_dec j 0) as [->|]; [rewrite C2; split; exact I|].
        destruct (C3 (j - 1)) as [_ Ez]; [lia|]. replace (j - 1 + 1) with j in Ez by lia. rewrite Ez. split; [apply Zi_valid; lia|apply sep_sym, Zi_Work1; lia]. }
      intros m2 [D1 D2]. apply wp_bind. eapply wp_mono; [apply plusa_ok; [exact Hn|exact V1|apply Work_valid; lia|exact W01]|].
      intros m3 [E1 E2]. apply wp_bind. eapply wp_mono; [apply apply_ok; [exact Hn|apply Work_valid|apply Zi_valid]; lia|]. intros m4 A4.
      apply wp_bind. eapply wp_mono; [apply minus_ok; [exact Hn|apply Zi_valid; lia|exact V1|apply Zi_Work1; lia]|]. intros m5 A5. cbn [wp].
      split; [exact C2|].
      pose proof (cl_comb RK n stage al1 zc1 m0 (io m) ltac:(lia) C1 C2 Hu C3) as Hc.
      assert (HW : veq n (blk m2 (Work1 RK n)) (comb RK (io m) (fun j => blk m0 (Zi n j)) stage)) by (intros p Hp; rewrite (D1 p Hp); apply Hc, Hp).
      apply (stage_finish RK n dt op phi (io m) stage m0 m3 m4 m5 (Work1 RK n)); try assumption; try lia.
      + intros j Hj. apply Zi_Work1; lia.
      + intros j Hj p Hp. rewrite (E2 (Zi n j)) by (try apply sep_sym, Zi_Work; lia). apply D2; [apply sep_sym, Zi_Work1; lia|exact Hp].
      + intros p Hp. pose proof (E2 Io I p Hp) as X1. pose proof (D2 Io I p Hp) as X2. cbn [blk] in X1, X2. rewrite X1. exact X2.
      + intros p Hp. rewrite (E2 _ W01 p Hp). apply HW, Hp.
      + intros p Hp. rewrite (E1 p Hp). cbn [nmul Rnum]. rewrite (HW p Hp). reflexivity. }
  eapply wp_mono; [exact HL|]. intros [[al zc] m1] HP. replace (s - 1 + 1) with s in HP by lia. apply wp_bind.
  eapply wp_mono; [apply (final_ok RK n dt op Hn Hs true _ _ _ _ _ _ Ho HP)|]. intros m2 HF. cbn [wp]. split; [reflexivity|]. split; [repeat split|exact HF].
Qed.
End Tops.
