(* Properties C08-C10 (vectors) and C11 (event log). *)
From Coq Require Import QArith ZArith List String.
From Verif Require Import Base VecModel VecProofs LogModel LogProofs.
Import ListNotations.
Open Scope Z_scope.

(* C08: false for every vector and every destination that differ in some element. *)
Theorem C08_put_refuted : exists (K : num) n (m : mem K) t dst m',
  1 <= n /\ wfF m n t /\ live_buf m n dst /\ dst <> fy t /\
  F_put n m t dst = Ok m' /\
  ~ (forall i, 0 <= i < n -> content m' dst i = val m t i).
Proof.
  exists QNum, 2, mem0, (vF 0), 1. eexists. split; [lia|].
  split; [split; [reflexivity|eexists; split; [reflexivity|split; [reflexivity|cbn; lia]]]|].
  split; [eexists; split; [reflexivity|split; [reflexivity|cbn; lia]]|].
  split; [discriminate|]. split; [reflexivity|]. intros H. specialize (H 0 ltac:(lia)). vm_compute in H. discriminate.
Qed.
Print Assumptions C08_put_refuted.
(* the extent of the failure: put never changes the destination *)
Theorem C08_put_never_writes : forall (K : num) n (m : mem K) t dst, 0 <= n -> wfF m n t -> dst <> fy t ->
  wp (F_put n m t dst) (fun m' => forall i, content m' dst i = content m dst i).
Proof. intros K. exact put_lemma. Qed.
Print Assumptions C08_put_never_writes.

(* C09: operands may be any usable vectors, including the target itself. *)
Theorem C09_elementwise : forall (K : num) n (m : mem K) (t : fvF), 0 <= n -> wfF m n t ->
  (forall v, wp (F_const n m t v) (fun m' => only_wrote m m' (fy t) n (fun _ => v))) /\
  (forall tab, live_buf m n tab -> wp (F_array n m t tab) (fun m' => only_wrote m m' (fy t) n (content m tab))) /\
  (forall X Y, live_buf m n (fx X) -> live_buf m n (fx Y) ->
     wp (F_setsum2 n m t X Y) (fun m' => only_wrote m m' (fy t) n (fun i => content m (fx X) i + content m (fx Y) i)%num)) /\
  (forall X, wfF m n X -> wp (F_assign n m t X) (fun m' => only_wrote m m' (fy t) n (val m X))) /\
  (forall F, wfF m n F -> wp (F_plus n m t F) (fun m' => only_wrote m m' (fy t) n (fun i => val m t i + val m F i)%num)) /\
  (forall X Y, wfF m n X -> wfF m n Y ->
     wp (F_sum n m t X Y) (fun m' => only_wrote m m' (fy t) n (fun i => val m X i + val m Y i)%num)) /\
  (forall X Y, wfF m n X -> live_buf m n (fx Y) ->
     wp (F_sum_base n m t X Y) (fun m' => only_wrote m m' (fy t) n (fun i => val m X i + content m (fx Y) i)%num)) /\
  (forall a Y, wfF m n Y -> wp (F_a_Y n m t a Y) (fun m' => only_wrote m m' (fy t) n (fun i => a * val m Y i)%num)) /\
  (forall X a1 Y1 a2 Y2, wfF m n X -> wfF m n Y1 -> wfF m n Y2 ->
     wp (F_x_lc2 n m t X a1 Y1 a2 Y2)
        (fun m' => only_wrote m m' (fy t) n (fun i => val m X i + a1 * val m Y1 i + a2 * val m Y2 i)%num)) /\
  (forall a x1 b x2, wfF m n x1 -> wfF m n x2 ->
     wp (F_lc2 n m t a x1 b x2) (fun m' => only_wrote m m' (fy t) n (fun i => a * val m x1 i + b * val m x2 i)%num)) /\
  (forall a x1 b x2 c x3, wfF m n x1 -> wfF m n x2 -> wfF m n x3 ->
     wp (F_lc3 n m t a x1 b x2 c x3)
        (fun m' => only_wrote m m' (fy t) n (fun i => a * val m x1 i + b * val m x2 i + c * val m x3 i)%num)) /\
  (forall a x1 b x2 c x3 d x4, wfF m n x1 -> wfF m n x2 -> wfF m n x3 -> wfF m n x4 ->
     wp (F_lc4 n m t a x1 b x2 c x3 d x4)
        (fun m' => only_wrote m m' (fy t) n (fun i => a * val m x1 i + b * val m x2 i + c * val m x3 i + d * val m x4 i)%num)) /\
  (forall a x1 b x2 c x3 d x4 e x5, wfF m n x1 -> wfF m n x2 -> wfF m n x3 -> wfF m n x4 -> wfF m n x5 ->
     wp (F_lc5 n m t a x1 b x2 c x3 d x4 e x5)
        (fun m' => only_wrote m m' (fy t) n
           (fun i => a * val m x1 i + b * val m x2 i + c * val m x3 i + d * val m x4 i + e * val m x5 i)%num)) /\
  (forall X a1 Y1 a2 Y2 a3 Y3, wfF m n X -> wfF m n Y1 -> wfF m n Y2 -> wfF m n Y3 ->
     wp (F_x_lc3 n m t X a1 Y1 a2 Y2 a3 Y3)
        (fun m' => only_wrote m m' (fy t) n (fun i => val m X i + a1 * val m Y1 i + a2 * val m Y2 i + a3 * val m Y3 i)%num)) /\
  (forall X a1 Y1 a2 Y2 a3 Y3 a4 Y4, wfF m n X -> wfF m n Y1 -> wfF m n Y2 -> wfF m n Y3 -> wfF m n Y4 ->
     wp (F_x_lc4 n m t X a1 Y1 a2 Y2 a3 Y3 a4 Y4)
        (fun m' => only_wrote m m' (fy t) n
           (fun i => val m X i + a1 * val m Y1 i + a2 * val m Y2 i + a3 * val m Y3 i + a4 * val m Y4 i)%num)) /\
  (forall a X Y, wfF m n X -> wfF m n Y ->
     wp (F_a_x_plus_y n m t a X Y) (fun m' => only_wrote m m' (fy t) n (fun i => a * val m X i + val m Y i)%num)).
Proof. intros K. exact vec_ops. Qed.
Print Assumptions C09_elementwise.
(* operator+= of the base class, which has its own size *)
Theorem C09_base_plus : forall (K : num) (m : mem K) (t F : fv),
  0 <= fsize t -> live_buf m (fsize t) (fx t) -> live_buf m (fsize t) (fx F) ->
  wp (fv_plus m t F) (fun m' => only_wrote m m' (fx t) (fsize t) (fun i => content m (fx t) i + content m (fx F) i)%num).
Proof. intros K. exact base_plus. Qed.
Print Assumptions C09_base_plus.
(* (1,2) += (1,2) *)
Example C09_base_case : 0 <= fsize (Fv 0 2 false) /\ live_buf mem0 2 0 /\ show (fv_plus mem0 (Fv 0 2 false) (Fv 0 2 false)) 0 = Some (q 2, q 4).
Proof. split; [cbn; lia|]. split; [eexists; split; [reflexivity|split; [reflexivity|cbn; lia]]|reflexivity]. Qed.
(* vectors are usable after construction and after exchanging buffers *)
Theorem C09_usable : forall (K : num) n (m : mem K), 0 <= n ->
  (forall junk, (forall q, nxt m <= q -> cells m q = None) ->
     let '(m', v) := F_new junk m n in wfF m' n v /\ fdel (fbase v) = false /\ fsize (fbase v) = n /\
       (forall q, nxt m' <= q -> cells m' q = None) /\
       (forall q b, cells m q = Some b -> cells m' q = Some b /\ q <> fy v)) /\
  (forall u v, wfF m n u -> wfF m n v ->
     let '(u', v') := F_switchadr u v in wfF m n u' /\ wfF m n v' /\
       (forall i, val m u' i = val m v i) /\ (forall i, val m v' i = val m u i)).
Proof. intros K n m Hn. exact (conj (fun junk => wf_F_new n m junk Hn) (wf_switchadr n m)). Qed.
Print Assumptions C09_usable.
(* t = 2*t + 3*t + b with t aliased: (1,2),(5,15) -> (10,25) *)
Example C09_case : wfF mem0 2 (vF 0) /\
  show (F_lc3 2 mem0 (vF 0) (q 2) (vF 0) (q 3) (vF 0) (q 1) (vF 1)) 0 = Some (q 10, q 25).
Proof. split; [split; [reflexivity|eexists; split; [reflexivity|split; [reflexivity|cbn; lia]]]|reflexivity]. Qed.

(* C10: assigning from a vector that owns its memory frees the source. *)
Theorem C10_assign_refuted : exists (K : num) (m : mem K) t s m',
  fsize t = 2 /\ fsize s = 2 /\ fx s <> fx t /\ fdel t = true /\ fdel s = true /\
  live_buf m 2 (fx t) /\ live_buf m 2 (fx s) /\
  fv_assign m t s = Ok m' /\ fv_get m' s 1 = UB "read after free" /\ fv_dtor m' s = UB "double free".
Proof.
  exists QNum, mem0, (Fv 0 2 true), (Fv 1 2 true). eexists.
  repeat (apply conj); try reflexivity; try discriminate;
    eexists; split; [reflexivity|split; [reflexivity|cbn; lia]|reflexivity|split; [reflexivity|cbn; lia]].
Qed.
Print Assumptions C10_assign_refuted.
(* the extent: every assignment from an owning vector does this *)
Theorem C10_assign_owning_always : forall (K : num) (m : mem K) t s,
  0 <= fsize t -> live_buf m (fsize t) (fx t) -> live_buf m (fsize t) (fx s) ->
  fdel s = true -> fx s <> fx t ->
  exists m', fv_assign m t s = Ok m' /\
    (forall i, 0 <= i < fsize t -> content m' (fx t) i = content m (fx s) i) /\
    (forall i, fv_get m' s i = UB "read after free") /\
    fv_dtor m' s = UB "double free".
Proof. intros K. exact assign_owning. Qed.
Print Assumptions C10_assign_owning_always.
(* what holds: sources that do not own their memory *)
Theorem C10_assign_nonowning_partial : forall (K : num) (m : mem K) t s,
  0 <= fsize t -> live_buf m (fsize t) (fx t) -> live_buf m (fsize t) (fx s) -> fdel s = false ->
  wp (fv_assign m t s) (fun m' => only_wrote m m' (fx t) (fsize t) (content m (fx s)) /\
     live_buf m' (fsize t) (fx s) /\
     wp (m1 <- fv_dtor m' t ;; fv_dtor m1 s) (fun _ => True) /\
     wp (m1 <- fv_dtor m' s ;; fv_dtor m1 t) (fun _ => True)).
Proof. intros K. exact assign_nonowning. Qed.
Print Assumptions C10_assign_nonowning_partial.

Theorem C11_log_filter : forall (dbl : Type) (tos_d : dbl -> string) (tos_i : Z -> string)
    (puts : list (dbl * Z * eventType * dbl)) (E : eventType),
  let recorded := map (fun p => let '(t, s, e, v) := p in Ev t v s e) puts in
  exists Sel, selected dbl E recorded Sel /\
    tostring tos_d tos_i (record_all dbl puts) E = report dbl tos_d tos_i 1 Sel /\
    (E = all -> Sel = recorded).
Proof. exact logger_lemma. Qed.
Print Assumptions C11_log_filter.
(* the types of event can be told apart in the text *)
Theorem C11_names : forall e e', names e = names e' -> e = e'.
Proof. exact names_inj. Qed.
Print Assumptions C11_names.
Example C11_case :
  tostring (fun d : string => d) (fun z => if (z =? 1)%Z then "1" else "2")%string
    (record_all _ [("0.5", 1, success, "x"); ("0.7", 2, changedH, "0.1"); ("0.9", 2, changedH, "0.2")]%string) changedH
  = ("1 Time: 0.7 step: 2 Event: changedH new step: 0.1" ++ nl ++ "2 Time: 0.9 step: 2 Event: changedH new step: 0.2" ++ nl)%string.
Proof. reflexivity. Qed.
