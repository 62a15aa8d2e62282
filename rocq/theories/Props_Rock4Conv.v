(* Property C97 (runs of Rock4 and Rock4-L against the solution of the differential equation).
   [l] lists eigenvalues and eigenvectors of the operator; the initial value is their sum;
   [flow_of l] is the solution; [close_to l t e v]: v is the sum of the eigenvectors, each
   multiplied by exp(lambda*t) up to an error e lambda; [order4] is the error bound.
   Missing in the theorems marked _partial: steps of degree 63, 98 and above (for 63, 129 and
   148 see C64: these steps amplify). *)
From Coq Require Import Reals Lra Lia FunctionalExtensionality.
From Verif Require Import Base HessModel VecFun Spec Rock4Model Rock4Spec Rock4Proofs Rock4Drive Rock4Step Rock4LModel Rock4LSpec Rock4LDrive Rock4TabSpec Rock4TabNG Rock4TabL Rock4ConvSpec Rock4Conv Rock4Affine.
Open Scope R_scope.

(* what the results are compared with *)
Theorem C97_solution : forall A l, linear A -> Forall (eigen A) l -> flow_of l 0 = comb l (fun _ => 1) /\ solves A (flow_of l).
Proof. exact flow_solves. Qed.
Print Assumptions C97_solution.
(* with a source b: b = b0 - A ys with A b0 = 0 (every b, if A is diagonalizable) *)
Theorem C97_solution_affine : forall A b ys b0 l, linear A -> Forall (eigen A) l -> (forall i, A b0 i = 0) -> (forall i, A ys i + b i = b0 i) ->
  solves (affine_rhs A b) (fun t i => ys i + flow_of l t i + t * b0 i).
Proof. exact flow_solves_source. Qed.
Print Assumptions C97_solution_affine.

(* Rock4: every state of a run, H a bound of the accepted steps *)
Theorem C97_rock4_partial : forall RECF FPA FPB FPBE : Z -> R, as_stored RECF ng_RECF -> as_stored FPA ng_FPA -> as_stored FPB ng_FPB ->
  forall Sg userF userrho toint size (atol rtol tend : R) (e0 : est (K := Rnum) Sg) t0 h0 hl0 m1 m2 (f : vec Rnum -> vec Rnum) l H,
  (forall s v, snd (userF s v) = f v) -> NoDup (ptrs Sg e0) -> (0 <= size)%Z -> linear f -> Forall (eigen f) l ->
  e_H e0 (e_y e0) = comb l (fun _ => 1) ->
  (forall x z, 0 <= x -> toint x = Ok z -> IZR z <= x < IZR z + 1) ->
  forall st, reach (K := Rnum) toint (kernel userF RECF FPA FPB FPBE size atol rtol) k_accept (r4_rho userrho) tend (r4_start (k_init userF) e0 t0 h0 hl0 m1 m2) st ->
  (forall a, In a (u_hist st) -> t_acc a = true -> t_h a <= H /\ (t_deg a <= 92)%Z /\ t_deg a <> 63%Z /\ forall p, In p l -> - t_rho a <= fst p <= 0) ->
  t0 <= u_t st /\ close_to l (u_t st - t0) (order4 (u_t st - t0) H) (sol Sg st).
Proof. exact ng_converges. Qed.
Print Assumptions C97_rock4_partial.

(* Rock4, u' = A u + b: the part along b0 grows with time up to a relative error of 10^-13 *)
Theorem C97_rock4_affine_partial : forall RECF FPA FPB FPBE : Z -> R, as_stored RECF ng_RECF -> as_stored FPA ng_FPA -> as_stored FPB ng_FPB ->
  forall Sg userF userrho toint size (atol rtol tend : R) (e0 : est (K := Rnum) Sg) t0 h0 hl0 m1 m2 (A : vec Rnum -> vec Rnum) b ys b0 l H,
  (forall s v, snd (userF s v) = affine_rhs A b v) -> NoDup (ptrs Sg e0) -> (0 <= size)%Z -> linear A -> Forall (eigen A) l ->
  (forall i, A b0 i = 0) -> (forall i, A ys i + b i = b0 i) -> (forall i, e_H e0 (e_y e0) i = ys i + comb l (fun _ => 1) i) ->
  (forall x z, 0 <= x -> toint x = Ok z -> IZR z <= x < IZR z + 1) ->
  forall st, reach (K := Rnum) toint (kernel userF RECF FPA FPB FPBE size atol rtol) k_accept (r4_rho userrho) tend (r4_start (k_init userF) e0 t0 h0 hl0 m1 m2) st ->
  (forall a, In a (u_hist st) -> t_acc a = true -> t_h a <= H /\ (t_deg a <= 92)%Z /\ t_deg a <> 63%Z /\ forall p, In p l -> - t_rho a <= fst p <= 0) ->
  t0 <= u_t st /\ exists s, Rabs (s - (u_t st - t0)) <= (u_t st - t0) / 10 ^ 13 /\
    close_to l (u_t st - t0) (order4 (u_t st - t0) H) (fun i => sol Sg st i - ys i - s * b0 i).
Proof. exact ng_source_converges. Qed.
Print Assumptions C97_rock4_affine_partial.

(* Rock4-L, u' = A u: the whole of operator(); the second alternative is a condition on the
   requested step h0 alone, under which the driver chooses degrees up to 59 *)
Theorem C97_rock4L_partial : forall RECF FPA FPB : Z -> R, as_stored RECF l_RECF -> as_stored FPA l_FPA -> as_stored FPB l_FPB ->
  forall Sg (A : vec Rnum -> vec Rnum) l opL toint tend rho t0 h0 y k1 g0 g1 g2 mp1 mp2 (e0 : lest (K := Rnum) Sg) opLc,
  linear A -> Forall (eigen A) l -> (forall p, In p l -> - rho <= fst p <= 0) -> l_H e0 y = comb l (fun _ => 1) ->
  truncates toint -> 0 <= rho -> 1 / 10 ^ 13 <= h0 -> 101 / 100 * h0 * rho + 3 < 353 / 1000 * 152 ^ 2 -> 1 / 10 ^ 15 <= tend - t0 ->
  doc_L Sg A opL -> doc_Lc Sg A opLc -> NoDup [y; k1; g0; g1; g2] ->
  exists fuel st, rock4l (K := Rnum) toint (kernel1 opL opLc RECF FPA FPB y k1 g0 g1 g2) tend rho false fuel (l_init e0) t0 h0 mp1 mp2 = Ok st /\ v_t st = tend /\
    ((forall t h d, In (t, h, d) (v_hist st) -> (d <= 92)%Z /\ d <> 63%Z) \/ 101 / 100 * h0 * rho < 353 / 1000 * 63 ^ 2 - 3 ->
     close_to l (tend - t0) (order4 (tend - t0) (101 / 100 * h0)) (l_H (v_w st) y)).
Proof. exact l_converges. Qed.
Print Assumptions C97_rock4L_partial.
(* Rock4-L, u' = A u + b, with operators that do what the code needs (C38) *)
Theorem C97_rock4L_affine_partial : forall RECF FPA FPB : Z -> R, as_stored RECF l_RECF -> as_stored FPA l_FPA -> as_stored FPB l_FPB ->
  forall Sg (A : vec Rnum -> vec Rnum) l ys b0 opL toint tend rho t0 h0 y b k1 g0 g1 g2 mp1 mp2 (e0 : lest (K := Rnum) Sg) opA opAc,
  linear A -> Forall (eigen A) l -> (forall p, In p l -> - rho <= fst p <= 0) ->
  (forall i, A b0 i = 0) -> (forall i, A ys i + l_H e0 b i = b0 i) -> (forall i, l_H e0 y i = ys i + comb l (fun _ => 1) i) ->
  truncates toint -> 0 <= rho -> 1 / 10 ^ 13 <= h0 -> 101 / 100 * h0 * rho + 3 < 353 / 1000 * 152 ^ 2 -> 1 / 10 ^ 15 <= tend - t0 ->
  doc_L Sg A opL -> imp_A Sg A opA -> imp_Ac Sg A opAc -> NoDup [y; b; k1; g0; g1; g2] ->
  exists fuel st, rock4l (K := Rnum) toint (kernel2 opL opA opAc RECF FPA FPB y b k1 g0 g1 g2) tend rho false fuel (l_init e0) t0 h0 mp1 mp2 = Ok st /\ v_t st = tend /\
    ((forall t h d, In (t, h, d) (v_hist st) -> (d <= 92)%Z /\ d <> 63%Z) \/ 101 / 100 * h0 * rho < 353 / 1000 * 63 ^ 2 - 3 ->
     exists s, Rabs (s - (tend - t0)) <= (tend - t0) / 10 ^ 13 /\
       close_to l (tend - t0) (order4 (tend - t0) (101 / 100 * h0)) (fun i => l_H (v_w st) y i - ys i - s * b0 i)).
Proof. exact l_source_converges. Qed.
Print Assumptions C97_rock4L_affine_partial.

(* u1' = -25 u1, u2' = -u2 from (1, 1), 0 to 1 with h0 = 1/10: all the hypotheses, and what the bound says of u2 *)
Definition conv_case_A (v : vec Rnum) : vec Rnum := fun i => if (i =? 0)%Z then -25 * v i else - v i.
Definition conv_case_l : list (R * vec Rnum) := [(-25, fun i => if (i =? 0)%Z then 1 else 0); (-1, fun i => if (i =? 0)%Z then 0 else 1)].
Example C97_case : let T l := fun k => dec (nth (Z.to_nat k) l (0, 0)%Z) in exists fuel st,
  rock4l (K := Rnum) floor_R (kernel1 (cnt_L conv_case_A) (cnt_Lc conv_case_A) (T l_RECF) (T l_FPA) (T l_FPB) 0 1 2 3 4) 1 25 false fuel (l_init (mkL (fun _ _ => 1) 0%Z 0 0)) 0 (1 / 10) 0 0 = Ok st /\
  v_t st = 1 /\ Rabs (l_H (v_w st) 0%Z 1%Z - exp (-1)) <= 22 / 100000.
Proof.
  intros T.
  assert (HT : forall l, as_stored (T l) l).
  { intros l k Hk. unfold T, Rminus. rewrite Rplus_opp_r, Rabs_R0. apply Rmult_le_pos; [apply Rabs_pos|]. left. apply Rinv_0_lt_compat. apply pow_lt. lra. }
  destruct (C97_rock4L_partial (T l_RECF) (T l_FPA) (T l_FPB) (HT _) (HT _) (HT _) Z conv_case_A conv_case_l (cnt_L conv_case_A) floor_R 1 25 0 (1 / 10) 0%Z 1%Z 2%Z 3%Z 4%Z 0%Z 0%Z
    (mkL (fun _ _ => 1) 0%Z 0 0) (cnt_Lc conv_case_A)) as (fuel & st & E & Et & HC); try lra.
  - intros a b x y. apply functional_extensionality. intros i. unfold conv_case_A. destruct (i =? 0)%Z; apply Rminus_diag_uniq; ring.
  - repeat constructor; intros i; unfold conv_case_A; cbn [fst snd]; destruct (i =? 0)%Z; apply Rminus_diag_uniq; ring.
  - intros p [<-|[<-|[]]]; cbn [fst]; lra.
  - apply functional_extensionality. intros i. cbn [l_H conv_case_l comb fst snd]. destruct (i =? 0)%Z; apply Rminus_diag_uniq; ring.
  - exact floor_truncates.
  - intros ? ? ? ? ?. reflexivity.
  - intros ? ? ? ? ? ?. reflexivity.
  - repeat constructor; cbn; lia.
  - exists fuel, st. split; [exact E|]. split; [exact Et|]. destruct HC as (c & Hc & Hb); [right; lra|].
    rewrite Hc. specialize (Hb _ (or_intror (or_introl eq_refl))). cbn [fst] in Hb. unfold order4 in Hb. cbn [conv_case_l comb fst snd]. change (1 =? 0)%Z with false. cbv iota.
    replace (c (-25) * 0 + (c (-1) * 1 + 0)) with (c (-1)) by ring. replace (-1 * (1 - 0)) with (-1) in Hb by ring.
    eapply Rle_trans; [exact Hb|]. rewrite Rabs_left by lra. lra.
Qed.
(* u1' = -u1 + 1, u2' = 2 from (2, 0), 0 to 1 with h0 = 1/10: the source is not in the range of A; y is array 0, b is array 1 *)
Definition src_A (v : vec Rnum) : vec Rnum := fun i => if (i =? 0)%Z then - v i else 0.
Definition src_e : lest (K := Rnum) Z := mkL (fun a i => if (a =? 0)%Z then (if (i =? 0)%Z then 2 else 0) else if (i =? 0)%Z then 1 else 2) 0%Z 0 0.
Example C97_source_case : let T l := fun k => dec (nth (Z.to_nat k) l (0, 0)%Z) in exists fuel st,
  rock4l (K := Rnum) floor_R (kernel2 (cnt_L src_A) (fun s x u a b g => (s, fun i => a * (src_A x i + g i) + b * u i)) (fun s x u a b c g => (s, fun i => a * (src_A x i + g i) + b * x i + c * u i))
    (T l_RECF) (T l_FPA) (T l_FPB) 0 1 2 3 4 5) 1 1 false fuel (l_init src_e) 0 (1 / 10) 0 0 = Ok st /\
  v_t st = 1 /\ Rabs (l_H (v_w st) 0%Z 1%Z - 2) <= 2 / 10 ^ 13 /\ Rabs (l_H (v_w st) 0%Z 0%Z - (1 + exp (-1))) <= 22 / 100000.
Proof.
  intros T.
  assert (HT : forall l, as_stored (T l) l).
  { intros l k Hk. unfold T, Rminus. rewrite Rplus_opp_r, Rabs_R0. apply Rmult_le_pos; [apply Rabs_pos|]. left. apply Rinv_0_lt_compat. apply pow_lt. lra. }
  destruct (C97_rock4L_affine_partial (T l_RECF) (T l_FPA) (T l_FPB) (HT _) (HT _) (HT _) Z src_A [(-1, fun i => if (i =? 0)%Z then 1 else 0)] (fun i => if (i =? 0)%Z then 1 else 0) (fun i => if (i =? 0)%Z then 0 else 2)
    (cnt_L src_A) floor_R 1 1 0 (1 / 10) 0%Z 1%Z 2%Z 3%Z 4%Z 5%Z 0%Z 0%Z src_e
    (fun s x u a b g => (s, fun i => a * (src_A x i + g i) + b * u i)) (fun s x u a b c g => (s, fun i => a * (src_A x i + g i) + b * x i + c * u i))) as (fuel & st & E & Et & HC); try lra.
  - intros a b x y. apply functional_extensionality. intros i. unfold src_A. destruct (i =? 0)%Z; apply Rminus_diag_uniq; ring.
  - repeat constructor; intros i; unfold src_A; cbn [fst snd]; destruct (i =? 0)%Z; apply Rminus_diag_uniq; ring.
  - intros p [<-|[]]; cbn [fst]; lra.
  - intros i. unfold src_A. destruct (i =? 0)%Z; lra.
  - intros i. unfold src_A. cbn [src_e l_H]. change (1 =? 0)%Z with false. destruct (i =? 0)%Z; lra.
  - intros i. cbn [src_e l_H comb fst snd]. change (0 =? 0)%Z with true. cbv iota. destruct (i =? 0)%Z; lra.
  - exact floor_truncates.
  - intros ? ? ? ? ?. reflexivity.
  - intros ? ? ? ? ? ?. reflexivity.
  - intros ? ? ? ? ? ? ?. reflexivity.
  - repeat constructor; cbn; lia.
  - exists fuel, st. split; [exact E|]. split; [exact Et|]. destruct HC as (s & Hs & c & Hc & Hb); [right; lra|].
    specialize (Hb _ (or_introl eq_refl)). cbn [fst] in Hb. unfold order4 in Hb. replace (Rabs (-1)) with 1 in Hb by (rewrite Rabs_left by lra; lra). replace (-1 * (1 - 0)) with (-1) in Hb by ring.
    pose proof (f_equal (fun v => v 0%Z) Hc) as H0. pose proof (f_equal (fun v => v 1%Z) Hc) as H1. cbn [comb fst snd] in H0, H1.
    change (0 =? 0)%Z with true in H0. change (1 =? 0)%Z with false in H1. cbv iota in H0, H1.
    set (y0 := l_H (v_w st) 0%Z 0%Z) in *. set (y1 := l_H (v_w st) 0%Z 1%Z) in *. clearbody y0 y1. change (y0 - 1 - s * 0 = c (-1) * 1 + 0) in H0. change (y1 - 0 - s * 2 = c (-1) * 0 + 0) in H1.
    split.
    + replace (y1 - 2) with (2 * (s - (1 - 0))) by lra. rewrite Rabs_mult, (Rabs_right 2) by lra. lra.
    + replace (y0 - (1 + exp (-1))) with (c (-1) - exp (-1)) by lra. eapply Rle_trans; [exact Hb|]. lra.
Qed.
