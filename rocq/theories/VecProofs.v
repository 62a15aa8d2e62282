(* Proofs about VecModel.v, for every arithmetic. *)
From Coq Require Import QArith.
From Verif Require Import Base HessModel VecModel.
Open Scope Z_scope.

Section VecP.
Context {K : num}.
Implicit Types m : mem K.

(* block p is live and has at least n cells *)
Definition live_buf m (n p : Z) : Prop :=
  exists b, cells m p = Some b /\ blive b = true /\ n <= blen b.
(* contents of block p *)
Definition content m (p i : Z) : K := match cells m p with Some b => bdat b i | None => n0 end.
(* the memory after: cell i of block p holds g i for 0 <= i < n, nothing else changed *)
Definition only_wrote m m' (p n : Z) (g : Z -> K) : Prop :=
  nxt m' = nxt m /\
  (forall i, 0 <= i < n -> content m' p i = g i) /\
  (forall i, ~ (0 <= i < n) -> content m' p i = content m p i) /\
  (exists b b', cells m p = Some b /\ cells m' p = Some b' /\ blive b' = blive b /\ blen b' = blen b) /\
  (forall q, q <> p -> cells m' q = cells m q).

Lemma ld_ok m n p i : live_buf m n p -> 0 <= i < n -> ld m p i = Ok (content m p i).
Proof. intros (b & E & L & H) Hi. unfold ld, content. rewrite E, L. apply rd_ok. lia. Qed.
Lemma st_ok m n p i v : live_buf m n p -> 0 <= i < n ->
  exists b, cells m p = Some b /\ st m p i v = Ok (setb m p (Blk true (blen b) (upd (bdat b) i v))).
Proof. intros (b & E & L & H) Hi. exists b. split; [exact E|]. unfold st. rewrite E, L. rewrite wr_ok by lia. reflexivity. Qed.

(* the generic elementwise loop *)
Lemma elem_loop m n p (f : Z -> mem K -> out (mem K)) (g : Z -> K) :
  0 <= n -> live_buf m n p ->
  (forall i m1, 0 <= i < n -> (forall q, live_buf m n q -> live_buf m1 n q) ->
     (forall q k, i <= k -> content m1 q k = content m q k) ->
     f i m1 = st m1 p i (g i)) ->
  wp (forM 0 (n - 1) f m) (fun m' => only_wrote m m' p n g).
Proof.
  intros Hn Hp Hf.
  refine (wp_mono _ _ _ (forM_ind (fun i m1 => only_wrote m m1 p i g) _ _ _ _ _ _ _) _).
  - lia.
  - destruct Hp as (b & E & _). repeat split; auto; try lia. exists b, b. auto.
  - intros i m1 Hi (H0 & H1 & H2 & (b0 & b1 & H3 & H3' & Hl & Hle) & H4).
    assert (Hlive : forall q, live_buf m n q -> live_buf m1 n q).
    { intros q (b & E & L & Hb). destruct (Z.eq_dec q p) as [->|Hq].
      - exists b1. rewrite H3 in E. inversion E; subst. repeat split; auto; congruence || lia.
      - exists b. rewrite H4 by exact Hq. auto. }
    rewrite Hf; [|lia|exact Hlive|].
    2:{ intros q k Hk. destruct (Z.eq_dec q p) as [->|Hq]; [apply H2; lia|].
        unfold content. rewrite H4 by exact Hq. reflexivity. }
    destruct (st_ok m1 n p i (g i) (Hlive p Hp) ltac:(lia)) as (b2 & E2 & ->). cbn [wp].
    rewrite H3' in E2. inversion E2; subst b2. clear E2.
    assert (Hc : forall k, content (setb m1 p (Blk true (blen b1) (upd (bdat b1) i (g i)))) p k = if k =? i then g i else content m1 p k).
    { intros k. unfold content, setb. cbn. rewrite Z.eqb_refl, H3'. cbn. unfold upd. destruct (k =? i); reflexivity. }
    split; [exact H0|]. split; [|split; [|split]].
    + intros k Hk. rewrite Hc. destruct (Z.eqb_spec k i) as [->|]; [reflexivity|]. apply H1. lia.
    + intros k Hk. rewrite Hc. destruct (Z.eqb_spec k i) as [->|]; [lia|]. apply H2. lia.
    + exists b0. eexists. split; [exact H3|]. split. { unfold setb. cbn. rewrite Z.eqb_refl. reflexivity. }
      cbn. split; [|exact Hle]. destruct Hp as (b & E & L & _). rewrite H3 in E. inversion E; subst. auto.
    + intros q Hq. unfold setb. cbn. destruct (Z.eqb_spec q p); [contradiction|]. apply H4; auto.
  - intros m1 H. replace (n - 1 + 1) with n in H by lia. exact H.
Qed.

(* a fortranVectorF in a usable state: x and y agree and point to n live cells *)
Definition wfF m (n : Z) (v : fvF) : Prop := bx v = fy v /\ live_buf m n (fy v).
Definition val m (v : fvF) (i : Z) : K := content m (fy v) i.

Ltac elem := intros; unfold wfF, val in *;
  repeat match goal with H : _ /\ _ |- _ => destruct H end;
  match goal with HX : bx ?t = fy ?t |- context [bx ?t] => rewrite ?HX | _ => idtac end;
  unfold F_const, F_array, F_setsum2, F_assign, F_plus, F_sum, F_sum_base, F_a_Y, F_x_lc2, F_lc2, F_lc3, F_lc4, F_lc5, F_x_lc3, F_x_lc4, F_a_x_plus_y;
  match goal with HX : bx ?t = fy ?t |- context [bx ?t] => rewrite ?HX | _ => idtac end;
  (apply elem_loop; [assumption|assumption|]);
  (intros i m1 Hi Hl Hc;
  repeat (erewrite (ld_ok m1); [cbn [bind]|apply Hl; eassumption|lia]);
  rewrite ?Hc by lia; reflexivity).

Lemma vec_ops n m (t : fvF) : 0 <= n -> wfF m n t ->
  (forall v, wp (F_const n m t v) (fun m' => only_wrote m m' (fy t) n (fun _ => v))) /\
  (forall tab, live_buf m n tab -> wp (F_array n m t tab) (fun m' => only_wrote m m' (fy t) n (content m tab))) /\
  (forall X Y, live_buf m n (fx X) -> live_buf m n (fx Y) ->
     wp (F_setsum2 n m t X Y) (fun m' => only_wrote m m' (fy t) n (fun i => content m (fx X) i + content m (fx Y) i)%num)) /\
  (forall X, wfF m n X -> wp (F_assign n m t X) (fun m' => only_wrote m m' (fy t) n (val m X))) /\
  (forall F, wfF m n F -> wp (F_plus n m t F) (fun m' => only_wrote m m' (fy t) n (fun i => val m t i + val m F i)%num)) /\
  (forall X Y, wfF m n X -> wfF m n Y ->
     wp (F_sum n m t X Y) (fun m' => only_wrote m m' (fy t) n (fun i => val m X i + val m Y i)%num)) /\
  (forall X Y, wfF m n X -> live_buf m n (fx Y) ->
     wp (F_sum_base n m t X Y) (fun m' => only_wrote m m' (fy t) n (fun i => val m X i + content m (fx Y) i)%num)) /\
  (forall a Y, wfF m n Y -> wp (F_a_Y n m t a Y) (fun m' => only_wrote m m' (fy t) n (fun i => a * val m Y i)%num)) /\
  (forall X a1 Y1 a2 Y2, wfF m n X -> wfF m n Y1 -> wfF m n Y2 ->
     wp (F_x_lc2 n m t X a1 Y1 a2 Y2)
        (fun m' => only_wrote m m' (fy t) n (fun i => val m X i + a1 * val m Y1 i + a2 * val m Y2 i)%num)) /\
  (forall a x1 b x2, wfF m n x1 -> wfF m n x2 ->
     wp (F_lc2 n m t a x1 b x2) (fun m' => only_wrote m m' (fy t) n (fun i => a * val m x1 i + b * val m x2 i)%num)) /\
  (forall a x1 b x2 c x3, wfF m n x1 -> wfF m n x2 -> wfF m n x3 ->
     wp (F_lc3 n m t a x1 b x2 c x3)
        (fun m' => only_wrote m m' (fy t) n (fun i => a * val m x1 i + b * val m x2 i + c * val m x3 i)%num)) /\
  (forall a x1 b x2 c x3 d x4, wfF m n x1 -> wfF m n x2 -> wfF m n x3 -> wfF m n x4 ->
     wp (F_lc4 n m t a x1 b x2 c x3 d x4)
        (fun m' => only_wrote m m' (fy t) n (fun i => a * val m x1 i + b * val m x2 i + c * val m x3 i + d * val m x4 i)%num)) /\
  (forall a x1 b x2 c x3 d x4 e x5, wfF m n x1 -> wfF m n x2 -> wfF m n x3 -> wfF m n x4 -> wfF m n x5 ->
     wp (F_lc5 n m t a x1 b x2 c x3 d x4 e x5)
        (fun m' => only_wrote m m' (fy t) n
           (fun i => a * val m x1 i + b * val m x2 i + c * val m x3 i + d * val m x4 i + e * val m x5 i)%num)) /\
  (forall X a1 Y1 a2 Y2 a3 Y3, wfF m n X -> wfF m n Y1 -> wfF m n Y2 -> wfF m n Y3 ->
     wp (F_x_lc3 n m t X a1 Y1 a2 Y2 a3 Y3)
        (fun m' => only_wrote m m' (fy t) n (fun i => val m X i + a1 * val m Y1 i + a2 * val m Y2 i + a3 * val m Y3 i)%num)) /\
  (forall X a1 Y1 a2 Y2 a3 Y3 a4 Y4, wfF m n X -> wfF m n Y1 -> wfF m n Y2 -> wfF m n Y3 -> wfF m n Y4 ->
     wp (F_x_lc4 n m t X a1 Y1 a2 Y2 a3 Y3 a4 Y4)
        (fun m' => only_wrote m m' (fy t) n
           (fun i => val m X i + a1 * val m Y1 i + a2 * val m Y2 i + a3 * val m Y3 i + a4 * val m Y4 i)%num)) /\
  (forall a X Y, wfF m n X -> wfF m n Y ->
     wp (F_a_x_plus_y n m t a X Y) (fun m' => only_wrote m m' (fy t) n (fun i => a * val m X i + val m Y i)%num)).
Proof. intros Hn Ht. repeat (apply conj); elem. Qed.

(* the base class: its size, any two live buffers *)
Lemma base_plus m (t F : fv) : 0 <= fsize t -> live_buf m (fsize t) (fx t) -> live_buf m (fsize t) (fx F) ->
  wp (fv_plus m t F) (fun m' => only_wrote m m' (fx t) (fsize t) (fun i => content m (fx t) i + content m (fx F) i)%num).
Proof.
  intros Hn Ht HF. unfold fv_plus. apply elem_loop; [exact Hn|exact Ht|]. intros i m1 Hi Hl Hc.
  erewrite (ld_ok m1); [cbn [bind]|apply Hl; exact Ht|lia]. erewrite (ld_ok m1); [cbn [bind]|apply Hl; exact HF|lia].
  rewrite ?Hc by lia. reflexivity.
Qed.

(* the classes' own management of storage *)
Lemma wf_F_new n m junk : 0 <= n -> (forall q, nxt m <= q -> cells m q = None) ->
  let '(m', v) := F_new junk m n in wfF m' n v /\ fdel (fbase v) = false /\ fsize (fbase v) = n /\
    (forall q, nxt m' <= q -> cells m' q = None) /\
    (forall q b, cells m q = Some b -> cells m' q = Some b /\ q <> fy v).
Proof.
  intros Hn Hf. cbn. unfold wfF, bx, live_buf; cbn. rewrite Z.eqb_refl. split; [|split; [|split; [|split]]]; auto.
  - split; [reflexivity|]. eexists; split; [reflexivity|]. cbn. split; [reflexivity|lia].
  - intros q Hq. destruct (Z.eqb_spec q (nxt m)); [lia|]. apply Hf. lia.
  - intros q b E. destruct (Z.eqb_spec q (nxt m)) as [->|]; [rewrite Hf in E by lia; discriminate|auto].
Qed.
Lemma wf_switchadr n m u v : wfF m n u -> wfF m n v ->
  let '(u', v') := F_switchadr u v in wfF m n u' /\ wfF m n v' /\
    (forall i, val m u' i = val m v i) /\ (forall i, val m v' i = val m u i).
Proof. intros [H1 H2] [H3 H4]. cbn. unfold wfF, val, bx in *. cbn. auto 10. Qed.

(* put: whatever the vector and the destination hold, the destination is not written *)
Lemma put_lemma n m t dst : 0 <= n -> wfF m n t -> dst <> fy t ->
  wp (F_put n m t dst) (fun m' => forall i, content m' dst i = content m dst i).
Proof.
  intros Hn [E Hl] Hd. unfold F_put. rewrite E.
  eapply wp_mono. { apply (elem_loop m n (fy t) _ (fun i => content m (fy t) i)); auto.
    intros i m1 Hi Hl1 Hc. rewrite (ld_ok m1 n) by (auto; lia). cbn [bind]. rewrite Hc by lia. reflexivity. }
  intros m' (_ & _ & _ & _ & H) i. unfold content. rewrite H by exact Hd. reflexivity.
Qed.

(* assignment of base-class vectors *)
Lemma assign_values m t s : 0 <= fsize t -> live_buf m (fsize t) (fx t) -> live_buf m (fsize t) (fx s) ->
  exists m', only_wrote m m' (fx t) (fsize t) (content m (fx s)) /\ fv_assign m t s = fv_dtor m' s.
Proof.
  intros Hn Ht Hs. unfold fv_assign. cbn [fx fsize fdel].
  assert (H : wp (forM 0 (fsize t - 1) (fun i m => a <- ld m (fx s) i ;; st m (fx t) i a) m)
              (fun m' => only_wrote m m' (fx t) (fsize t) (content m (fx s)))).
  { apply elem_loop; auto. intros i m1 Hi Hl Hc.
    rewrite (ld_ok m1 (fsize t)) by (auto; lia). cbn [bind]. rewrite Hc by lia. reflexivity. }
  apply wp_ok in H. destruct H as (m' & E & H). exists m'. split; [exact H|]. rewrite E. cbn [bind].
  destruct s. reflexivity.
Qed.
Lemma only_wrote_live m m' p n g q k : only_wrote m m' p n g -> live_buf m k q -> live_buf m' k q.
Proof.
  intros (_ & _ & _ & (b0 & b1 & E0 & E1 & L & Ln) & H) (b & E & Lb & Hk). destruct (Z.eq_dec q p) as [->|Hq].
  - exists b1. rewrite E0 in E. inversion E; subst. repeat split; auto; congruence || lia.
  - exists b. rewrite H by exact Hq. auto.
Qed.
(* a live block can be freed, and then no longer *)
Lemma free_once m p k : live_buf m k p -> exists m', dealloc m p = Ok m' /\
  dealloc m' p = UB "double free" /\ (forall i, ld m' p i = UB "read after free") /\
  (forall q, q <> p -> cells m' q = cells m q).
Proof.
  intros (b & E & L & _). exists (setb m p (Blk false (blen b) (bdat b))). unfold dealloc, ld, setb. rewrite E, L. cbn.
  rewrite Z.eqb_refl. cbn. split; [reflexivity|]. split; [reflexivity|]. split; [reflexivity|].
  intros q Hq. destruct (Z.eqb_spec q p); [contradiction|reflexivity].
Qed.
(* source without ownership (adopted memory, or a fortranVectorF seen as its base) *)
Lemma assign_nonowning m t s : 0 <= fsize t -> live_buf m (fsize t) (fx t) -> live_buf m (fsize t) (fx s) ->
  fdel s = false ->
  wp (fv_assign m t s) (fun m' => only_wrote m m' (fx t) (fsize t) (content m (fx s)) /\
     live_buf m' (fsize t) (fx s) /\
     (* both destructors, in either order, succeed *)
     wp (m1 <- fv_dtor m' t ;; fv_dtor m1 s) (fun _ => True) /\
     wp (m1 <- fv_dtor m' s ;; fv_dtor m1 t) (fun _ => True)).
Proof.
  intros Hn Ht Hs Hd. destruct (assign_values m t s Hn Ht Hs) as (m' & Hw & ->).
  unfold fv_dtor at 1. rewrite Hd. cbn [wp]. split; [exact Hw|].
  split; [eapply only_wrote_live; eauto|].
  unfold fv_dtor. rewrite Hd. cbn [bind wp]. destruct (fdel t).
  - destruct (free_once m' (fx t) (fsize t)) as (m2 & -> & _); [eapply only_wrote_live; eauto|]. cbn. auto.
  - cbn. auto.
Qed.
(* source with ownership: the call itself succeeds, but it has freed the source *)
Lemma assign_owning m t s : 0 <= fsize t -> live_buf m (fsize t) (fx t) -> live_buf m (fsize t) (fx s) ->
  fdel s = true -> fx s <> fx t ->
  exists m', fv_assign m t s = Ok m' /\
    (forall i, 0 <= i < fsize t -> content m' (fx t) i = content m (fx s) i) /\
    (forall i, fv_get m' s i = UB "read after free") /\
    fv_dtor m' s = UB "double free".
Proof.
  intros Hn Ht Hs Hd Hne. destruct (assign_values m t s Hn Ht Hs) as (m' & Hw & ->).
  unfold fv_dtor at 1. rewrite Hd.
  destruct (free_once m' (fx s) (fsize t)) as (m2 & E & D & L & O); [eapply only_wrote_live; eauto|].
  exists m2. split; [exact E|]. split.
  - intros i Hi. unfold content at 1. rewrite O by auto. destruct Hw as (_ & H & _). apply H; exact Hi.
  - split; [intros i; apply L|]. unfold fv_dtor. rewrite Hd. exact D.
Qed.
End VecP.

(* ---- concrete cases ------------------------------------------------------- *)
Section Cases.
Open Scope Q_scope.
Definition q (a : Z) : QNum := inject_Z a.
Definition mem0 : mem QNum := Mem 3 (fun p =>
  if (p =? 0)%Z then Some (Blk true 2 (fun i => q (i + 1)))
  else if (p =? 1)%Z then Some (Blk true 2 (fun i => q (10 * i + 5)))
  else if (p =? 2)%Z then Some (Blk true 2 (fun _ => q 7)) else None).
Definition vF (p : Z) : fvF := FvF p (Fv p 2 false).
Definition show (o : out (mem QNum)) (p : Z) : option (Q * Q) :=
  match o with Ok m => Some (content m p 0%Z, content m p 1%Z) | _ => None end.
End Cases.
