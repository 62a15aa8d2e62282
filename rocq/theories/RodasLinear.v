(* The linear algebra of Matrices.hpp (full and band storage) meets RodasStep.algebra, and
   runs on linear problems do not amplify. *)
From Coq Require Import Reals Lra Psatz.
From Verif Require Import Base Spec FieldLU HessModel CMacros VecFun HessPathProofs LayoutModel LayoutProofs LayoutCases JacModel JacProofs
  RodasModel RodasProofs RodasReal RodasTop RodasTerm RodasFinal RodasSpec RodasStep RodasStab RodasStab2 RodasOrder.
Open Scope R_scope.

(* Matrices.hpp: decomr and solvereal of the two layouts with LAPACK as arguments (lines
   47-60 and 82-89 full, 147-155 and 175-183 band), in the form RodasModel.v expects.  The state is the pair of
   members E1, ipivr; the Jacobian is left unchanged; these two classes do not read the flag calhes *)
Definition lfact := @fact Rnum.
Definition full_decomr (trf : (Z -> R) -> (Z -> R) * (Z -> Z) * Z) (n : Z) (la : lfact) (fac : R) (jac : Z -> R) : out (lfact * (Z -> R)) :=
  f <- @decomr_full Rnum trf n (fst la) jac fac ;; Ok (f, jac).
Definition band_decomr (trf : (Z -> R) -> (Z -> R) * (Z -> Z) * Z) (n kl ku : Z) (la : lfact) (fac : R) (jac : Z -> R) : out (lfact * (Z -> R)) :=
  f <- @decomr_band Rnum trf n kl ku (fst la) jac fac ;; Ok (f, jac).
Definition lsolve (trs : (Z -> R) -> (Z -> Z) -> (Z -> R) -> (Z -> R) * Z) (la : lfact) (b jac : Z -> R) : out (Z -> R) :=
  @solvereal Rnum trs la b.

Lemma algebra_full n trf trs : (1 <= n)%Z -> lapack_real n (mat_ge n) trf trs ->
  algebra lfact (full_decomr trf n) (lsolve trs) (fun la => la) n Full (fun _ jac M => M = mat_ge n jac).
Proof.
  intros Hn HL. split; [reflexivity|]. intros la jac M fac la' jac' -> E. unfold full_decomr in E.
  pose proof (decomr_full_lemma n trf trs (fst la) jac fac Hn HL) as H.
  destruct (@decomr_full Rnum trf n (fst la) jac fac) as [g| | |]; try discriminate E. injection E as <- <-. split; [reflexivity|].
  intros b u Eu. destruct (proj2 H b) as (X & EX & HX). unfold lsolve in Eu. assert (E : Ok u = Ok X) by (rewrite <- Eu, <- EX; reflexivity).
  injection E as ->. exact HX.
Qed.
Lemma algebra_band n kl ku trf trs : (1 <= n)%Z -> (0 <= kl)%Z -> (0 <= ku)%Z -> lapack_real n (mat_gb kl ku) trf trs ->
  algebra lfact (band_decomr trf n kl ku) (lsolve trs) (fun la => la) n (Band kl ku) (fun _ jac M => M = mat_gb kl ku jac).
Proof.
  intros Hn Hl Hu HL. split; [reflexivity|]. intros la jac M fac la' jac' -> E. unfold band_decomr in E.
  pose proof (decomr_band_lemma n kl ku trf trs (fst la) jac fac Hn Hl Hu HL) as H.
  destruct (@decomr_band Rnum trf n kl ku (fst la) jac fac) as [g| | |]; try discriminate E. injection E as <- <-. split; [reflexivity|].
  intros b u Eu. destruct (proj2 H b) as (X & EX & HX). unfold lsolve in Eu. assert (E : Ok u = Ok X) by (rewrite <- Eu, <- EX; reflexivity).
  injection E as ->. exact HX.
Qed.

Lemma chain_mono (step : R -> R -> (Z -> R) -> (Z -> R) -> R -> Prop) (P : R -> Prop) (F : (Z -> R) -> R) x0 y0 l x y :
  (forall x h y y' e, P h -> step x h y y' e -> F y' <= F y) ->
  chain step x0 y0 l x y -> (forall t h b, In (t, h, b) l -> P h) -> F y <= F y0.
Proof.
  intros HS HC. induction HC as [|l x y h y' err HC IH HT He|l x y h y' err HC IH HT He]; intros HP; [lra| |].
  - eapply Rle_trans; [eapply HS; [|exact HT]|].
    + apply (HP x h true). left. reflexivity.
    + apply IH. intros t h0 b Hin. apply (HP t h0 b). right. exact Hin.
  - apply IH. intros t h0 b Hin. apply (HP t h0 b). right. exact Hin.
Qed.

Lemma quotient_linear n f J x y i j : (forall t y k, (1 <= k <= n)%Z -> f t y k = linear_rhs n J t y k) ->
  in_full n i j -> quotient_y f x y i j = J i j.
Proof.
  intros Hl [Hi Hj]. unfold quotient_y. rewrite !Hl by exact Hi. unfold linear_rhs. pose proof (increment_pos (y j)) as Hp. set (d := increment (y j)) in *.
  rewrite <- rsum_sub. rewrite (rsum_ext 1 n _ (fun l => if (j =? l)%Z then J i l * d else 0)).
  - rewrite rsum_single by exact Hj. field. lra.
  - intros l Hl'. unfold put. rewrite Z.eqb_sym. destruct (Z.eqb_spec j l) as [->|]; ring.
Qed.

Section Lin.
Variables Sg La : Type.
Variable userF : Sg -> R -> (Z -> R) -> Sg * (Z -> R).
Variable userJ : Sg -> R -> (Z -> R) -> (Z -> R) -> (Z -> R) -> Sg * (Z -> R).
Variable userDt : Sg -> R -> (Z -> R) -> Sg * (Z -> R).
Variable decomr : La -> R -> (Z -> R) -> out (La * (Z -> R)).
Variable solvereal : La -> (Z -> R) -> (Z -> R) -> out (Z -> R).
Variable set_calhes : La -> La.
Variables (n : Z) (sh : shape) (numjac autonms use_DF_t : bool).
Variables atol rtol junk : Z -> R.
Variable f : R -> (Z -> R) -> Z -> R.
Variable J : Z -> Z -> R.
Variable holds : La -> (Z -> R) -> (Z -> Z -> R) -> Prop.
Lemma linear_step C x h y y' err :
  (forall t y k, (1 <= k <= n)%Z -> f t y k = linear_rhs n J t y k) ->
  (forall i k, in_full n i k -> ~ in_shape n sh i k -> J i k = 0) ->
  rodas_step n sh numjac autonms use_DF_t C atol rtol f (fun _ _ => J) (fun _ _ _ => 0) x h y y' err ->
  exists u, ros_step 6 n (rodas_tab C) (linear_rhs n J) J (fun _ => 0) x h y u y'.
Proof.
  intros Hlin Hout (J' & fx & u & HJ & Hfx & [HS HE] & _). exists u. split; [|exact HE].
  assert (EJ : forall i k, in_full n i k -> J' i k = J i k).
  { intros i k Hik. unfold jac_used in HJ. destruct numjac; [|apply HJ; exact Hik].
    destruct (HJ i k Hik) as [H1 H2]. assert (D : in_shape n sh i k \/ ~ in_shape n sh i k).
    { destruct sh; [left; exact Hik|]. unfold in_shape, in_band, in_full in *. lia. }
    destruct D as [D|D]; [rewrite (H1 D); apply (quotient_linear n); assumption|rewrite (H2 D), (Hout i k Hik D); reflexivity]. }
  assert (EX : forall k, (1 <= k <= n)%Z -> fx k = 0).
  { intros k Hk. rewrite (Hfx k Hk). destruct autonms; [reflexivity|]. destruct use_DF_t; [reflexivity|].
    unfold quotient_x. rewrite !Hlin by exact Hk. unfold linear_rhs, Rdiv. rewrite Rminus_diag_eq by reflexivity. ring. }
  intros i Hi. destruct (HS i Hi) as (g & H1 & H2). exists g. split; [exact H1|]. intros k Hk.
  rewrite <- (EX k Hk), <- Hlin by exact Hk. rewrite <- (H2 k Hk). f_equal. apply rsum_ext. intros l Hl. rewrite EJ; [reflexivity|]. unfold in_full. lia.
Qed.
Lemma linear_run meth C (o : ropts Rnum) x0 xend h0 fuel ifuel s0 la0 jac0 y0 a b c lr li ea eb :
  (forall s t y k, snd (userF s t y) k = f t y k) ->
  (forall t y k, (1 <= k <= n)%Z -> f t y k = linear_rhs n J t y k) ->
  (forall s t y fy j i k, in_full n i k -> sh_mat n sh (snd (userJ s t y fy j)) i k = J i k) ->
  (forall s t y k, snd (userDt s t y) k = 0) ->
  (forall i k, in_full n i k -> ~ in_shape n sh i k -> J i k = 0) ->
  algebra La decomr solvereal set_calhes n sh holds ->
  (1 <= n)%Z -> shape_ok sh ->
  @rocoe Rnum meth = Ok C -> 0 < (o_safe o : R) <= 1 -> x0 < xend ->
  left_eigen n J lr li ea eb -> ea <= 0 ->
  pc (rodas (@r_prep Rnum Sg La userF userJ userDt set_calhes n sh numjac autonms use_DF_t r_uround junk)
            (@r_attempt Rnum Sg La userF decomr solvereal n autonms C atol rtol)
            o fuel ifuel (mkW (s0, nil) la0 jac0) h0 x0 xend y0 a b c)
    (fun r => component n lr li (s_Y (fst r)) <= component n lr li y0).
Proof.
  intros Hf Hlin HJ Hft Hout Halg Hn Hsh HC Ho Hx He Ha.
  pose proof (forward_lemma Sg La userF userJ userDt decomr solvereal set_calhes n sh numjac autonms use_DF_t meth C atol rtol junk
    o x0 xend h0 fuel ifuel s0 la0 jac0 y0 a b c HC Ho Hx) as HF.
  pose proof (run_linked Sg La userF userJ userDt decomr solvereal set_calhes n sh numjac autonms use_DF_t C atol rtol junk
    f (fun _ _ => J) (fun _ _ _ => 0) Hf HJ Hft holds Halg Hn Hsh o x0 y0 fuel ifuel (mkW (s0, nil) la0 jac0) h0 xend a b c) as HL.
  destruct (rodas _ _ _ _ _ _ _ _ _ _ _ _ _) as [r| | |]; try exact Logic.I. cbn [pc] in *.
  destruct HF as (_ & _ & _ & HP & _ & _). unfold linked in HL.
  eapply (chain_mono _ (fun h => 0 < h) (component n lr li)); [|exact HL|].
  - intros x h y y' e Hh HS. destruct (linear_step _ _ _ _ _ _ Hlin Hout HS) as (u & Hu).
    apply (proj1 (methods_stable meth C HC) n J lr li ea eb x h y u y'); try assumption; [lra|nra].
  - intros t h bb Hin. apply in_map_iff in Hin. destruct Hin as (at_ & Ht & Hin). specialize (HP at_ Hin). unfold tri in Ht. injection Ht as <- <- <-. lra.
Qed.
End Lin.
