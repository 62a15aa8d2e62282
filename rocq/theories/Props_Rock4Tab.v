(* Property C64 (the coefficient tables of Rock4 and Rock4-L).  [ng_…] and [l_…] are the tables
   of the two repositories of coefficients, as decimal numbers; [as_stored] admits a relative
   error of 2^-53 in each number, [exactly] none.  [l] lists eigenvalues and eigenvectors; the
   initial value is their sum; [damped l u]: u is the sum of the same eigenvectors, each with a
   factor of modulus at most 1. *)
From Coq Require Import Reals Lra Lia FunctionalExtensionality.
From Verif Require Import Base HessModel VecFun Spec Rock4Model Rock4Spec Rock4Proofs Rock4Drive Rock4Step Rock4LModel Rock4LSpec Rock4LDrive Rock4TabSpec Rock4TabNG Rock4TabL Rock4StabThm Rock4StabRef.
Open Scope R_scope.

(* the property for the degree d: a step of length h of the code does not amplify when h*lambda
   is in the interval for all the eigenvalues.  Missing: the degrees 98, 105, 112, 120, 138 (not
   proved) and 63, 129, 148 (false, see below) *)
Theorem C64_step_partial : forall RECF FPA FPB FPBE : Z -> R, as_stored RECF ng_RECF -> as_stored FPA ng_FPA -> as_stored FPB ng_FPB ->
  forall Sg userF size atol rtol (f : vec Rnum -> vec Rnum) l d i r (e : est (K := Rnum) Sg) h,
  (forall s v, snd (userF s v) = f v) -> (0 <= size)%Z -> right_block d i r -> (d <= 92)%Z -> d <> 63%Z ->
  NoDup (ptrs Sg e) -> e_H e (e_fn e) = f (e_H e (e_y e)) ->
  linear f -> Forall (eigen f) l -> e_H e (e_y e) = comb l (fun _ => 1) -> (forall p, In p l -> interval d (h * fst p)) ->
  wp (kernel (K := Rnum) userF RECF FPA FPB FPBE size atol rtol d i r e h) (fun x => damped l (e_H (fst x) (e_temp (fst x)))).
Proof. exact ng_kernel. Qed.
Print Assumptions C64_step_partial.
(* along the runs, when the spectral radius used is not below the moduli of the eigenvalues *)
Theorem C64_run_partial : forall RECF FPA FPB FPBE : Z -> R, as_stored RECF ng_RECF -> as_stored FPA ng_FPA -> as_stored FPB ng_FPB ->
  forall Sg userF userrho toint size (atol rtol tend : R) (e0 : est (K := Rnum) Sg) t0 h0 hl0 m1 m2 (f : vec Rnum -> vec Rnum) l,
  (forall s v, snd (userF s v) = f v) -> NoDup (ptrs Sg e0) -> (0 <= size)%Z -> linear f -> Forall (eigen f) l ->
  e_H e0 (e_y e0) = comb l (fun _ => 1) ->
  (forall x z, 0 <= x -> toint x = Ok z -> IZR z <= x < IZR z + 1) ->
  forall st, reach (K := Rnum) toint (kernel userF RECF FPA FPB FPBE size atol rtol) k_accept (r4_rho userrho) tend (r4_start (k_init userF) e0 t0 h0 hl0 m1 m2) st ->
  (forall a, In a (u_hist st) -> t_acc a = true -> (t_deg a <= 92)%Z /\ t_deg a <> 63%Z /\ forall p, In p l -> - t_rho a <= fst p <= 0) ->
  damped l (sol Sg st).
Proof. exact ng_run. Qed.
Print Assumptions C64_run_partial.
(* operator() of Rock4-L: the whole run; the last conjunct is about requested steps for which the
   driver only chooses degrees up to 59 *)
Theorem C64_L_run_partial : forall RECF FPA FPB : Z -> R, as_stored RECF l_RECF -> as_stored FPA l_FPA -> as_stored FPB l_FPB ->
  forall Sg (A : vec Rnum -> vec Rnum) l opL toint tend rho t0 h0 y k1 g0 g1 g2 mp1 mp2 (e0 : lest (K := Rnum) Sg) opLc,
  linear A -> Forall (eigen A) l -> (forall p, In p l -> - rho <= fst p <= 0) -> l_H e0 y = comb l (fun _ => 1) ->
  truncates toint -> 0 <= rho -> 1 / 10 ^ 13 <= h0 -> 101 / 100 * h0 * rho + 3 < 353 / 1000 * 152 ^ 2 -> 1 / 10 ^ 15 <= tend - t0 ->
  doc_L Sg A opL -> doc_Lc Sg A opLc -> NoDup [y; k1; g0; g1; g2] ->
  exists fuel st, rock4l (K := Rnum) toint (kernel1 opL opLc RECF FPA FPB y k1 g0 g1 g2) tend rho false fuel (l_init e0) t0 h0 mp1 mp2 = Ok st /\ v_t st = tend /\
    ((forall t h d, In (t, h, d) (v_hist st) -> (d <= 92)%Z /\ d <> 63%Z) -> damped l (l_H (v_w st) y)) /\
    (101 / 100 * h0 * rho < 353 / 1000 * 63 ^ 2 - 3 -> damped l (l_H (v_w st) y)).
Proof. exact l_run. Qed.
Print Assumptions C64_L_run_partial.

(* the property is false for the degrees 63, 129 and 148 *)
Theorem C64_step_refuted : forall RECF FPA FPB FPBE : Z -> R, exactly RECF ng_RECF -> exactly FPA ng_FPA -> exactly FPB ng_FPB ->
  forall d, In d [63; 129; 148]%Z -> exists (f : vec Rnum -> vec Rnum) l i r (e : est (K := Rnum) unit) h x,
  linear f /\ Forall (eigen f) l /\ right_block d i r /\ NoDup (ptrs unit e) /\ e_H e (e_fn e) = f (e_H e (e_y e)) /\ e_H e (e_y e) = comb l (fun _ => 1) /\
  (forall p, In p l -> interval d (h * fst p)) /\
  kernel (K := Rnum) (fun s v => (s, f v)) RECF FPA FPB FPBE 1 1 1 d i r e h = Ok x /\ ~ damped l (e_H (fst x) (e_temp (fst x))).
Proof. exact ng_unstable. Qed.
Print Assumptions C64_step_refuted.
(* Rock4-L: the driver itself chooses these degrees *)
Theorem C64_L_run_refuted : forall RECF FPA FPB : Z -> R, exactly RECF l_RECF -> exactly FPA l_FPA -> exactly FPB l_FPB ->
  forall toint d, truncates toint -> In d [63; 129; 148]%Z -> exists (A : vec Rnum -> vec Rnum) l rho (e0 : lest (K := Rnum) Z) fuel st,
  linear A /\ Forall (eigen A) l /\ (forall p, In p l -> - rho <= fst p <= 0) /\ l_H e0 0%Z = comb l (fun _ => 1) /\
  101 / 100 * 1 * rho + 3 < 353 / 1000 * 152 ^ 2 /\
  rock4l (K := Rnum) toint (kernel1 (cnt_L A) (cnt_Lc A) RECF FPA FPB 0 1 2 3 4) 1 rho false fuel (l_init e0) 0 1 0 0 = Ok st /\
  v_t st = 1 /\ v_hist st = [(0, 1, d)] /\ ~ damped l (l_H (v_w st) 0%Z).
Proof. exact l_unstable. Qed.
Print Assumptions C64_L_run_refuted.

(* tables as required exist; two eigenvectors, for a step of degree 5 with h=1 *)
Example C64_case_tables : forall l, exactly (fun k => dec (nth (Z.to_nat k) l (0, 0)%Z)) l /\ as_stored (fun k => dec (nth (Z.to_nat k) l (0, 0)%Z)) l.
Proof.
  intros l. split; intros k Hk; [reflexivity|]. unfold Rminus. rewrite Rplus_opp_r, Rabs_R0. apply Rmult_le_pos; [apply Rabs_pos|].
  left. apply Rinv_0_lt_compat. apply pow_lt. lra.
Qed.
Definition tab_case_f (v : vec Rnum) : vec Rnum := fun i => if (i =? 0)%Z then -25 * v i else - v i.
Definition tab_case_l : list (R * vec Rnum) := [(-25, fun i => if (i =? 0)%Z then 1 else 0); (-1, fun i => if (i =? 0)%Z then 0 else 1)].
Example C64_case : linear tab_case_f /\ Forall (eigen tab_case_f) tab_case_l /\ (forall p, In p tab_case_l -> interval 5 (1 * fst p)) /\ right_block 5 5 17.
Proof.
  split; [|split; [|split; [|repeat split; discriminate]]].
  - intros a b x y. apply functional_extensionality. intros i. unfold tab_case_f. destruct (i =? 0)%Z; apply Rminus_diag_uniq; ring.
  - repeat constructor; intros i; unfold tab_case_f; cbn [fst snd]; destruct (i =? 0)%Z; apply Rminus_diag_uniq; ring.
  - intros p [<-|[<-|[]]]; unfold interval; cbn [fst Z.add Pos.add Pos.succ]; lra.
Qed.
