(* C40 to C43: the steps of Sdirkl, and the supplied methods. *)
From Coq Require Import Reals Lra Lia FunctionalExtensionality.
From Verif Require Import Base FieldLU HessModel Spec HessPathProofs CMacros SdirkModel SdirkSpec SdirkProofs SdirkAlg.
Open Scope Z_scope.
Local Arguments Z.mul : simpl never.
Local Arguments Z.add : simpl never.
Local Arguments Z.sub : simpl never.

(* constructor, then k steps *)
Fixpoint run_linear {K : num} (RK : method K) n affine op (k : nat) (x : sobj (K := K) * smem (K := K)) : out (sobj (K := K) * smem (K := K)) :=
  match k with
  | O => Ok x
  | S k => '(o, m, e) <- step_linear RK n affine op (fst x) (snd x) ;; match e with Some s => Throw s | None => run_linear RK n affine op k (o, m) end
  end.
Fixpoint run_affine {K : num} (RK : method K) n dt affine op phi (k : nat) (x : sobj (K := K) * smem (K := K)) : out (sobj (K := K) * smem (K := K)) :=
  match k with
  | O => Ok x
  | S k => '(o, m, e) <- step_affine RK n dt affine op phi (fst x) (snd x) ;; match e with Some s => Throw s | None => run_affine RK n dt affine op phi k (o, m) end
  end.

Section Runs.
Variable RK : method Rnum.
Variable n : Z.
Variable dt : R.
Variables op A : vec Rnum -> vec Rnum.
Variable b : Z -> R.
Hypothesis Hn : 0 <= n.
Hypothesis HA : linear_op n A.
Hypothesis Hfit : fits (m_s RK) (m_A RK) (m_S RK) (m_D RK) b.
Hypothesis Hinv : inverts n (dt * m_A RK 0 0)%R A op.
Lemma same_ok o o' : same_obj o o' -> obj_ok RK n o -> obj_ok RK n o'.
Proof. intros (E1 & E2 & E3). unfold obj_ok. rewrite E1, E2, E3. auto. Qed.
Lemma rk_steps_ext f k u u' u'' : rk_steps n (m_s RK) (m_A RK) b dt f k u u' -> veq n u'' u' -> rk_steps n (m_s RK) (m_A RK) b dt f k u u''.
Proof.
  intros H. induction H as [u u' H|k u u' u1 H1 H2 IH]; intros E.
  - constructor. intros p Hp. rewrite (E p Hp). apply H, Hp.
  - econstructor; [exact H1|]. apply IH, E.
Qed.
Lemma linear_runs k dloc Zused aloc zc0 (m : smem (K := Rnum)) :
  wp (o <- construct RK n dloc Zused aloc zc0 ;; run_linear RK n false op k (o, m))
     (fun x => rk_steps n (m_s RK) (m_A RK) b dt A k (io m) (io (snd x))).
Proof.
  pose proof Hfit as (Hs & _). apply wp_bind. eapply wp_mono; [apply construct_ok; assumption|]. intros o Ho.
  revert o m Ho. induction k as [|k IH]; intros o m Ho; cbn [run_linear].
  - cbn [wp snd]. constructor. intros p _. reflexivity.
  - cbn [fst snd]. apply wp_bind. eapply wp_mono; [apply (linear_computed RK n dt op Hn Hs o m Ho)|].
    intros [[o' m'] e] (-> & Hsame & F & HF & Hu). eapply wp_mono; [apply IH; eapply same_ok; eassumption|].
    intros x Hx. econstructor; [|exact Hx].
    replace A with (fun x p => A x p + (fun _ => 0) p)%R by (extensionality x0; extensionality p; cbn [car Rnum]; apply Rplus_0_r).
    apply (is_rk_step RK n dt op A b HA Hfit Hinv (fun _ => 0%R) (io m) (io m') F HF Hu).
Qed.
Lemma affine_runs phi k dloc Zused aloc zc0 (m : smem (K := Rnum)) :
  wp (o <- construct RK n dloc Zused aloc zc0 ;; run_affine RK n dt true op phi k (o, m))
     (fun x => rk_steps n (m_s RK) (m_A RK) b dt (fun u p => A u p + phi p)%R k (io m) (io (snd x))).
Proof.
  pose proof Hfit as (Hs & _). apply wp_bind. eapply wp_mono; [apply construct_ok; assumption|]. intros o Ho.
  revert o m Ho. induction k as [|k IH]; intros o m Ho; cbn [run_affine].
  - cbn [wp snd]. constructor. intros p _. reflexivity.
  - cbn [fst snd]. apply wp_bind. eapply wp_mono; [apply (affine_computed RK n dt op Hn Hs phi o m Ho)|].
    intros [[o' m'] e] (-> & Hsame & F & HF & Hu). eapply wp_mono; [apply IH; eapply same_ok; eassumption|].
    intros x Hx. econstructor; [|exact Hx].
    apply (is_rk_step RK n dt op A b HA Hfit Hinv phi (io m) (io m') F HF Hu).
Qed.
Lemma equilibria phi k u u' : veq n (fun p => A u p + phi p)%R (fun _ => 0%R) -> rk_steps n (m_s RK) (m_A RK) b dt (fun u p => A u p + phi p)%R k u u' -> veq n u' u.
Proof.
  intros He H. destruct HA as [HL _].
  assert (G : forall x y, veq n x y -> veq n (fun p => A x p + phi p)%R (fun p => A y p + phi p)%R) by (intros x y Hxy p Hp; rewrite (HL _ _ Hxy p Hp); reflexivity).
  induction H as [u u' H|k u u' u'' H1 H2 IH]; [exact H|].
  assert (E : veq n u' u) by (apply (rk_equilibrium n _ _ _ _ (fun u p => A u p + phi p)%R u u' G He H1)).
  intros p Hp. rewrite IH; [apply E, Hp| |exact Hp]. intros q Hq. rewrite (G _ _ E q Hq). apply He, Hq.
Qed.
Lemma keeps_equilibria phi k dloc Zused aloc zc0 (m : smem (K := Rnum)) : veq n (fun p => A (io m) p + phi p)%R (fun _ => 0%R) ->
  wp (o <- construct RK n dloc Zused aloc zc0 ;; run_affine RK n dt true op phi k (o, m)) (fun x => veq n (io (snd x)) (io m)).
Proof. intros He. eapply wp_mono; [apply affine_runs|]. intros x Hx. exact (equilibria phi k _ _ He Hx). Qed.
End Runs.

(* C43 *)
Lemma wrong_variant (K : num) (RK : method K) n dt op phi o (m : smem (K := K)) :
  (exists s, step_linear RK n true op o m = Ok (o, m, Some s)) /\ (exists s, step_affine RK n dt false op phi o m = Ok (o, m, Some s)).
Proof. split; eexists; reflexivity. Qed.

(* C42: the supplied methods *)
Definition tiny : R := (1 / 10000000000000)%R.
Definition method_ok (RK : method Rnum) (p : nat) : Prop :=
  nearly_fits tiny (m_s RK) (m_A RK) (m_S RK) /\ has_order (m_s RK) (m_A RK) (weights (m_s RK) (m_A RK) (m_D RK)) tiny p.
Ltac red1 := cbv -[Rlit Rplus Rmult IZR Rabs Rminus Rdiv Rle Rinv Ropp not Rlt]; rewrite ?Rlit_0, ?Rlit_neg;
  repeat match goal with
  | |- context [IZR (10 ^ Zpos ?p)] => let v := eval vm_compute in (10 ^ Zpos p) in change (10 ^ Zpos p) with v
  end.
Lemma Rabs_small x e : (- e <= x <= e -> Rabs x <= e)%R.
Proof. intros H. apply Rabs_le. lra. Qed.
Lemma Rabs_small_inv x e : (Rabs x <= e -> - e <= x <= e)%R.
Proof. intros H. unfold Rabs in H. destruct (Rcase_abs x); lra. Qed.
Ltac small := red1; apply Rabs_small; split; lra.
Ltac fitsall Hs := split; [cbn; lia|split; [apply Rgt_not_eq; red1; lra|split; intros i Hi; cbn in Hi; Hs; try lia; subst i; [first [reflexivity | red1; lra | small] ..]]].
Ltac order4 := intros q Hq; destruct q as [|[|[|[|[|q]]]]]; try lia; unfold conditions; repeat apply List.Forall_cons; try apply List.Forall_nil; cbn [fst snd]; small.
Lemma euler_ok u : method_ok (EulerImp u) 1.
Proof. split. fitsall ltac:(destruct (Z.eq_dec i 0)). order4. Qed.
Lemma rk1_ok u : method_ok (RKMethod1 u) 4.
Proof. split. fitsall ltac:(destruct (Z.eq_dec i 0); [|destruct (Z.eq_dec i 1); [|destruct (Z.eq_dec i 2); [|destruct (Z.eq_dec i 3); [|destruct (Z.eq_dec i 4)]]]]). order4. Qed.
Lemma rk2_ok u : method_ok (RKMethod2 u) 4.
Proof. split. fitsall ltac:(destruct (Z.eq_dec i 0); [|destruct (Z.eq_dec i 1); [|destruct (Z.eq_dec i 2)]]). order4. Qed.
Lemma rkrs_ok u : method_ok (RKRS u) 2.
Proof. split. fitsall ltac:(destruct (Z.eq_dec i 0); [|destruct (Z.eq_dec i 1)]). order4. Qed.
(* ... no more than that *)
Lemma euler_not2 u : ~ method_ok (EulerImp u) 2.
Proof. intros [_ H]. specialize (H 2%nat ltac:(lia)). inversion H as [|x l H1 _]; subst. cbn [fst snd] in H1. apply Rabs_small_inv in H1. revert H1. red1. lra. Qed.
Lemma rkrs_not3 u : ~ method_ok (RKRS u) 3.
Proof. intros [_ H]. specialize (H 3%nat ltac:(lia)). inversion H as [|x l H1 _]; subst. cbn [fst snd] in H1. apply Rabs_small_inv in H1. revert H1. red1. lra. Qed.
(* Crank-Nicolson: D is 1 where B.A^{-1} is 2, so the weight is 1/2 *)
Lemma crn_fits u : fits (m_s (CrN u)) (m_A (CrN u)) (m_S (CrN u)) (m_D (CrN u)) (fun _ => 1 / 2)%R.
Proof.
  split; [cbn; lia|split; [apply Rgt_not_eq; red1; lra|]].
  split; [|split]; intros i Hi; cbn in Hi; destruct (Z.eq_dec i 0); try lia; subst i; try reflexivity; red1; lra.
Qed.
Lemma crn_not_consistent u : ~ method_ok (CrN u) 1.
Proof. intros [_ H]. specialize (H 1%nat ltac:(lia)). inversion H as [|x l H1 _]; subst. cbn [fst snd] in H1. apply Rabs_small_inv in H1. revert H1. red1. lra. Qed.
Lemma zero_linear n : linear_op n (fun _ _ => 0%R).
Proof. split; [intros x y _ p _; reflexivity|]. intros a b x y p _. cbn. ring. Qed.
Lemma id_inverts n c : inverts n c (fun _ _ => 0%R) (fun w => w).
Proof. split; [intros w p _; cbn; ring|]. intros w x H p Hp. rewrite (H p Hp). cbn. ring. Qed.
Lemma steps1 n s a b dt f u u' : (forall x y, veq n x y -> veq n (f x) (f y)) -> rk_steps n s a b dt f 1 u u' -> exists u1, rk_step n s a b dt f u u1 /\ veq n u' u1.
Proof. intros Hf H. inversion H as [|k x y z H1 H2]; subst. inversion H2; subst. eauto. Qed.
Lemma crn_alg (x d f : R) : (x + d * (1 / 2 * f + 0) = x + d / 2 * f)%R.
Proof. lra. Qed.
Lemma crn_constant w n dt phi dloc Zused aloc zc0 (m : smem (K := Rnum)) : 0 <= n ->
  wp (o <- construct (CrN w) n dloc Zused aloc zc0 ;; run_affine (CrN w) n dt true (fun x => x) phi 1 (o, m))
     (fun x => veq n (io (snd x)) (fun p => io m p + dt / 2 * phi p)%R).
Proof.
  intros Hn. eapply wp_mono; [apply (affine_runs _ n dt _ _ _ Hn (zero_linear n) (crn_fits w) (id_inverts n _) phi 1)|].
  intros x Hx. apply steps1 in Hx; [|intros x1 y1 _ p _; reflexivity]. destruct Hx as (u1 & [_ H] & E).
  intros p Hp. rewrite (E p Hp).
  rewrite (H (fun _ => phi)); [|intros i Hi q Hq; cbn; symmetry; apply Rplus_0_l|exact Hp]. unfold rk_result. unfold rsum. cbv -[Rplus Rmult Rdiv IZR io]. apply crn_alg.
Qed.
