(* The linear algebra of Matrices.hpp (full and band storage) meets RadauRun.calgebra. *)
From Coq Require Import ZArith Reals Lra Lia List.
From Verif Require Import Base Spec JacModel CMacros VecFun HessModel FieldLU HessPathProofs LayoutModel LayoutProofs LayoutCases RodasProofs RodasLinear RadauModel RadauRun.
Open Scope R_scope.

(* Matrices.hpp: decomr, decomc, solvereal and solvecomplex of the two layouts with LAPACK as
   arguments (lines 47-113 full, 147-205 band), in the form RadauModel.v expects.  The state:
   the members E1, ipivr; the members E2R, ipivc; the buffer Z2N.  Z2N is overwritten before it is
   read, so its contents after a solve are not tracked *)
Definition cfact : Type := (lfact * lfact * (Z -> R))%type.
Notation ftrf := ((Z -> R) -> (Z -> R) * (Z -> Z) * Z).
Notation ftrs := ((Z -> R) -> (Z -> Z) -> (Z -> R) -> (Z -> R) * Z).
Definition full_dr (trf : ftrf) (n : Z) (la : cfact) (fac : R) (jac : Z -> R) : out (cfact * (Z -> R)) :=
  '(f, jac) <- full_decomr trf n (fst (fst la)) fac jac ;; Ok (f, snd (fst la), snd la, jac).
Definition band_dr (trf : ftrf) (n kl ku : Z) (la : cfact) (fac : R) (jac : Z -> R) : out (cfact * (Z -> R)) :=
  '(f, jac) <- band_decomr trf n kl ku (fst (fst la)) fac jac ;; Ok (f, snd (fst la), snd la, jac).
Definition full_dc (trf : ftrf) (n : Z) (la : cfact) (al be : R) (jac : Z -> R) : out cfact :=
  f <- @decomc_full Rnum trf n (fst (snd (fst la))) jac al be ;; Ok (fst (fst la), f, snd la).
Definition band_dc (trf : ftrf) (n kl ku : Z) (la : cfact) (al be : R) (jac : Z -> R) : out cfact :=
  f <- @decomc_band Rnum trf n kl ku (fst (snd (fst la))) jac al be ;; Ok (fst (fst la), f, snd la).
Definition c_sr (trs : ftrs) (la : cfact) (b jac : Z -> R) : out (Z -> R) := lsolve trs (fst (fst la)) b jac.
Definition c_sc (trs : ftrs) (n : Z) (la : cfact) (b1 b2 jac : Z -> R) : out ((Z -> R) * (Z -> R)) :=
  @solvecomplex Rnum trs n (snd (fst la)) (snd la) b1 b2.

Lemma csolution_diag n A be u v b1 b2 : csolution n A (diag_matrix be) u v b1 b2 -> csolution n A (newton_matrix be (fun _ _ => 0)) u v b1 b2.
Proof.
  intros H i Hi. destruct (H i Hi) as [H1 H2].
  split; [rewrite <- H1|rewrite <- H2]; apply rsum_ext; intros j Hj; unfold newton_matrix, diag_matrix; ring.
Qed.
Lemma calgebra_full n trf trs ctrf ctrs : (1 <= n)%Z -> lapack_real n (mat_ge n) trf trs -> lapack_complex n (mat_ge n) ctrf ctrs ->
  calgebra cfact (full_dr trf n) (full_dc ctrf n) (c_sr trs) (c_sc ctrs n) (fun la => la) n Full (fun _ jac M => M = mat_ge n jac).
Proof.
  intros Hn HL HC. split; [reflexivity|]. intros la jac M a al be la1 jac1 la2 -> E1 E2.
  unfold full_dr in E1. pose proof (algebra_full n trf trs Hn HL) as [_ HA]. 
  destruct (full_decomr trf n (fst (fst la)) a jac) as [[g j1]| | |] eqn:ED; try discriminate E1. injection E1 as <- <-.
  destruct (HA _ _ _ _ _ _ eq_refl ED) as [HM HS]. unfold full_dc in E2. cbn [fst snd] in E2.
  pose proof (decomc_full_lemma n ctrf ctrs (fst (snd (fst la))) j1 al be Hn HC) as H.
  destruct (@decomc_full Rnum ctrf n (fst (snd (fst la))) j1 al be) as [gc| | |]; try discriminate E2. injection E2 as <-.
  split; [exact HM|]. split.
  - intros b u Eu. apply HS. exact Eu.
  - intros b1 b2 u v Eu. destruct (proj2 H (snd la) b1 b2) as (Xr & Xi & EX & HX). unfold c_sc in Eu. cbn [fst snd] in Eu.
    assert (E : Ok (u, v) = Ok (Xr, Xi)) by (rewrite <- Eu, <- EX; reflexivity). injection E as -> ->. rewrite HM. apply csolution_diag. exact HX.
Qed.
Lemma calgebra_band n kl ku trf trs ctrf ctrs : (1 <= n)%Z -> (0 <= kl)%Z -> (0 <= ku)%Z -> lapack_real n (mat_gb kl ku) trf trs -> lapack_complex n (mat_gb kl ku) ctrf ctrs ->
  calgebra cfact (band_dr trf n kl ku) (band_dc ctrf n kl ku) (c_sr trs) (c_sc ctrs n) (fun la => la) n (Band kl ku) (fun _ jac M => M = mat_gb kl ku jac).
Proof.
  intros Hn Hkl Hku HL HC. split; [reflexivity|]. intros la jac M a al be la1 jac1 la2 -> E1 E2.
  unfold band_dr in E1. pose proof (algebra_band n kl ku trf trs Hn Hkl Hku HL) as [_ HA]. 
  destruct (band_decomr trf n kl ku (fst (fst la)) a jac) as [[g j1]| | |] eqn:ED; try discriminate E1. injection E1 as <- <-.
  destruct (HA _ _ _ _ _ _ eq_refl ED) as [HM HS]. unfold band_dc in E2. cbn [fst snd] in E2.
  pose proof (decomc_band_lemma n kl ku ctrf ctrs (fst (snd (fst la))) j1 al be Hn Hkl Hku HC) as H.
  destruct (@decomc_band Rnum ctrf n kl ku (fst (snd (fst la))) j1 al be) as [gc| | |]; try discriminate E2. injection E2 as <-.
  split; [exact HM|]. split.
  - intros b u Eu. apply HS. exact Eu.
  - intros b1 b2 u v Eu. destruct (proj2 H (snd la) b1 b2) as (Xr & Xi & EX & HX). unfold c_sc in Eu. cbn [fst snd] in Eu.
    assert (E : Ok (u, v) = Ok (Xr, Xi)) by (rewrite <- Eu, <- EX; reflexivity). injection E as -> ->. rewrite HM. apply csolution_diag. exact HX.
Qed.
