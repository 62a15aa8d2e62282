(* Properties C37 to C39 (Rock4-L).  The arrays are numbered; y is that of the solution, b that
   of the constant part, the others are work arrays.  [Rel n s]: the user's object in state s has
   applied the operator n times. *)
From Coq Require Import Reals Lra FunctionalExtensionality.
From Verif Require Import Base HessModel Rock4Model Rock4Spec Rock4LModel Rock4LSpec Rock4LProofs Rock4LDrive.
Open Scope R_scope.

(* also: d+4 applications of the operator, no array is at the same time input and output *)
Theorem C37_linear_step : forall Sg (A : vec Rnum -> vec Rnum), linear A -> forall opL, doc_L Sg A opL -> forall (RECF FPA FPB : Z -> R) (Rel : Z -> Sg -> Prop),
  (forall n s x u a b, Rel n s -> Rel (n + 1)%Z (fst (opL s x u a b))) -> forall opLc, doc_Lc Sg A opLc ->
  (forall n s x u a b c, Rel n s -> Rel (n + 1)%Z (fst (opLc s x u a b c))) ->
  forall y k1 g0 g1 g2 d i r (e : lest (K := Rnum) Sg) h n, right_block d i r -> NoDup [y; k1; g0; g1; g2] -> Rel n (l_f e) ->
  wp (kernel1 (K := Rnum) opL opLc RECF FPA FPB y k1 g0 g1 g2 d i r e h) (fun e' =>
    l_H e' y = rock4_step RECF FPA FPB A d i r h (l_H e y) /\
    Rel (n + (d + 4))%Z (l_f e') /\ l_funccal e' = (l_funccal e + (d + 4) + 1)%Z /\ l_nsteps e' = (l_nsteps e + 1)%Z).
Proof. exact kernel1_spec. Qed.
Print Assumptions C37_linear_step.
Example C37_case : linear (fun x i => 2 * x i - x (i + 1)%Z) /\ right_block 5 5 17 /\ NoDup [0; 1; 2; 3; 4]%Z.
Proof.
  split; [intros a b x y; extensionality i; ring|]. split; [repeat split; discriminate|].
  repeat constructor; cbn; intuition discriminate.
Qed.
Example C37_case_alias : exists s, kernel1 (K := Rnum) (cnt_L zeroA) (cnt_Lc zeroA) (fun _ => 1) (fun _ => 1) (fun _ => 1) 0 1 2 0 3 1 1 1 (mkL (fun _ _ => 1) 0%Z 0 0) 1 = UB s.
Proof. eexists. reflexivity. Qed.

(* the documentation: operator()(in,s,a,b,g,out) computes a*A*in+b*s+g.  With such an object
   the step is wrong, whatever the tables *)
Theorem C38_documented_contract_refuted : forall (RECF FPA FPB : Z -> R) h, h * RECF 0%Z <> 1 ->
  exists (A : vec Rnum -> vec Rnum) opL opA opAc (e e' : lest (K := Rnum) unit),
    linear A /\ doc_L unit A opL /\ doc_A unit A opA /\ doc_Ac unit A opAc /\
    kernel2 (K := Rnum) opL opA opAc RECF FPA FPB 0 1 2 3 4 5 1 1 1 e h = Ok e' /\
    l_H e' 0%Z 0%Z <> rock4_step RECF FPA FPB (affine_rhs A (l_H e 1%Z)) 1 1 1 h (l_H e 0%Z) 0%Z.
Proof. exact documented_contract_fails. Qed.
Print Assumptions C38_documented_contract_refuted.
(* missing: the documented contract.  Here the affine operators multiply g by a, as those of
   Rock4-L/test/F.hpp do *)
Theorem C38_affine_step_partial : forall Sg (A : vec Rnum -> vec Rnum), linear A -> forall opL, doc_L Sg A opL -> forall (RECF FPA FPB : Z -> R) (Rel : Z -> Sg -> Prop),
  (forall n s x u a b, Rel n s -> Rel (n + 1)%Z (fst (opL s x u a b))) -> forall opA opAc, imp_A Sg A opA -> imp_Ac Sg A opAc ->
  (forall n s x u a b g, Rel n s -> Rel (n + 1)%Z (fst (opA s x u a b g))) ->
  (forall n s x u a b c g, Rel n s -> Rel (n + 1)%Z (fst (opAc s x u a b c g))) ->
  forall y b k1 g0 g1 g2 d i r (e : lest (K := Rnum) Sg) h n, right_block d i r -> NoDup [y; b; k1; g0; g1; g2] -> Rel n (l_f e) ->
  wp (kernel2 (K := Rnum) opL opA opAc RECF FPA FPB y b k1 g0 g1 g2 d i r e h) (fun e' =>
    l_H e' y = rock4_step RECF FPA FPB (affine_rhs A (l_H e b)) d i r h (l_H e y) /\ l_H e' b = l_H e b /\
    Rel (n + (d + 4))%Z (l_f e') /\ l_funccal e' = (l_funccal e + (d + 4) + 1)%Z /\ l_nsteps e' = (l_nsteps e + 1)%Z).
Proof. exact kernel2_spec. Qed.
Print Assumptions C38_affine_step_partial.
Example C38_case : right_block 1 1 1 /\ (1 / 2) * (fun _ => 1) 0%Z <> 1.
Proof. split; [repeat split; discriminate|lra]. Qed.

(* the runs; [good_run] and [truncates] are in Rock4LSpec; [reported] says what the counters are:
   number of steps, largest number of stages, and, for funccal, the applications plus the number
   of steps *)
Theorem C39_linear_run_partial : forall Sg (A : vec Rnum -> vec Rnum), linear A -> forall opL (RECF FPA FPB : Z -> R) (Rel : Z -> Sg -> Prop) toint tend rho t0 h0 y k1 g0 g1 g2 mp1 mp2 (e0 : lest (K := Rnum) Sg),
  truncates toint -> 0 <= rho -> 1 / 10 ^ 13 <= h0 -> 101 / 100 * h0 * rho + 3 < 353 / 1000 * 152 ^ 2 -> 1 / 10 ^ 15 <= tend - t0 -> Rel 0%Z (l_f e0) ->
  doc_L Sg A opL -> (forall n s x u a b, Rel n s -> Rel (n + 1)%Z (fst (opL s x u a b))) ->
  forall opLc, doc_Lc Sg A opLc -> (forall n s x u a b c, Rel n s -> Rel (n + 1)%Z (fst (opLc s x u a b c))) -> NoDup [y; k1; g0; g1; g2] ->
  exists fuel st, rock4l (K := Rnum) toint (kernel1 opL opLc RECF FPA FPB y k1 g0 g1 g2) tend rho false fuel (l_init e0) t0 h0 mp1 mp2 = Ok st /\ v_t st = tend /\
    good_run rho t0 h0 tend (v_hist st) /\
    rock4_steps RECF FPA FPB A (rev (v_hist st)) (l_H e0 y) (l_H (v_w st) y) /\ reported Sg Rel st.
Proof. exact linear_run. Qed.
Print Assumptions C39_linear_run_partial.
Theorem C39_affine_run_partial : forall Sg (A : vec Rnum -> vec Rnum), linear A -> forall opL (RECF FPA FPB : Z -> R) (Rel : Z -> Sg -> Prop) toint tend rho t0 h0 y b k1 g0 g1 g2 mp1 mp2 (e0 : lest (K := Rnum) Sg),
  truncates toint -> 0 <= rho -> 1 / 10 ^ 13 <= h0 -> 101 / 100 * h0 * rho + 3 < 353 / 1000 * 152 ^ 2 -> 1 / 10 ^ 15 <= tend - t0 -> Rel 0%Z (l_f e0) ->
  doc_L Sg A opL -> (forall n s x u a b, Rel n s -> Rel (n + 1)%Z (fst (opL s x u a b))) ->
  forall opA opAc, imp_A Sg A opA -> imp_Ac Sg A opAc -> (forall n s x u a b g, Rel n s -> Rel (n + 1)%Z (fst (opA s x u a b g))) ->
  (forall n s x u a b c g, Rel n s -> Rel (n + 1)%Z (fst (opAc s x u a b c g))) -> NoDup [y; b; k1; g0; g1; g2] ->
  exists fuel st, rock4l (K := Rnum) toint (kernel2 opL opA opAc RECF FPA FPB y b k1 g0 g1 g2) tend rho false fuel (l_init e0) t0 h0 mp1 mp2 = Ok st /\ v_t st = tend /\
    good_run rho t0 h0 tend (v_hist st) /\
    rock4_steps RECF FPA FPB (affine_rhs A (l_H e0 b)) (rev (v_hist st)) (l_H e0 y) (l_H (v_w st) y) /\ reported Sg Rel st.
Proof. exact affine_run. Qed.
Print Assumptions C39_affine_run_partial.
(* for every linear operator and every admissible call, funccal is not the number of applications:
   here the object counts them itself (l_f) *)
Theorem C39_funccal_refuted : forall A, linear A -> forall (RECF FPA FPB : Z -> R) (toint : R -> out Z) tend rho t0 h0 y k1 g0 g1 g2 mp1 mp2 (e0 : lest (K := Rnum) Z),
  truncates toint -> 0 <= rho -> 1 / 10 ^ 13 <= h0 -> 101 / 100 * h0 * rho + 3 < 353 / 1000 * 152 ^ 2 -> 1 / 10 ^ 15 <= tend - t0 -> NoDup [y; k1; g0; g1; g2] -> l_f e0 = 0%Z ->
  exists fuel st, rock4l (K := Rnum) toint (kernel1 (cnt_L A) (cnt_Lc A) RECF FPA FPB y k1 g0 g1 g2) tend rho false fuel (l_init e0) t0 h0 mp1 mp2 = Ok st /\
    l_funccal (v_w st) = (l_f (v_w st) + l_nsteps (v_w st))%Z /\ (1 <= l_nsteps (v_w st))%Z.
Proof. exact counting_overcount. Qed.
Print Assumptions C39_funccal_refuted.
(* the operator that does not fit the template argument throws before anything is evaluated:
   neither the kernel nor toint runs, whatever they would do *)
Theorem C39_wrong_operator : forall (K : num) W toint kern tend rho fuel (w : W) (t0 h0 : K) mp1 mp2,
  rock4l toint kern tend rho true fuel w t0 h0 mp1 mp2 = Throw "Rock4::operator() called as".
Proof. reflexivity. Qed.
Print Assumptions C39_wrong_operator.
Example C39_case : truncates floor_R /\ 101 / 100 * (1 / 100) * 8000 + 3 < 353 / 1000 * 152 ^ 2 /\ 1 / 10 ^ 15 <= 1 - 0 /\ 1 / 10 ^ 13 <= 1 / 100.
Proof. split; [exact floor_truncates|lra]. Qed.
