(* Properties C01-C03, C51, C62 and C63 (matrix storage, assembly, linear solves). *)
From Coq Require Import Reals Lra List.
Import ListNotations.
From Verif Require Import Base Spec HessModel LayoutModel LayoutProofs LayoutCases ConfigModel LayoutReport.
Open Scope Z_scope.

Theorem C01_band_layout : forall n kl ku, 1 <= n -> 0 <= kl -> 0 <= ku ->
  forall i j, in_band n kl ku i j ->
  fb_off kl ku i j = lapack_gb kl ku i j /\ 0 <= fb_off kl ku i j < fb_size n kl ku /\
  (forall i' j', in_band n kl ku i' j' -> fb_off kl ku i' j' = fb_off kl ku i j -> i' = i /\ j' = j).
Proof. exact fb_layout. Qed.
Print Assumptions C01_band_layout.

Theorem C01_complex_band_layout : forall n kl ku, 1 <= n -> 0 <= kl -> 0 <= ku ->
  forall i j, in_band n kl ku i j ->
  fbc_re kl ku i j = 2 * lapack_gb kl ku i j /\ fbc_im kl ku i j = 2 * lapack_gb kl ku i j + 1 /\
  0 <= fbc_re kl ku i j < fbc_size n kl ku /\ 0 <= fbc_im kl ku i j < fbc_size n kl ku /\
  (forall i' j', in_band n kl ku i' j' ->
     (fbc_re kl ku i' j' = fbc_re kl ku i j -> i' = i /\ j' = j) /\
     (fbc_im kl ku i' j' = fbc_im kl ku i j -> i' = i /\ j' = j) /\
     fbc_re kl ku i' j' <> fbc_im kl ku i j).
Proof. exact fbc_layout. Qed.
Print Assumptions C01_complex_band_layout.
Theorem C01_band_access : forall (K : num) n kl ku (x : Z -> K) v re im i j,
  1 <= n -> 0 <= kl -> 0 <= ku -> in_band n kl ku i j ->
  (fb_get n kl ku x i j = Ok (x (lapack_gb kl ku i j)) /\
   fb_set n kl ku x i j v = Ok (upd x (lapack_gb kl ku i j) v)) /\
  fbc_set n kl ku x i j re im = Ok (upd (upd x (2 * lapack_gb kl ku i j) re) (2 * lapack_gb kl ku i j + 1) im).
Proof.
  intros K n kl ku x v re im i j Hn Hl Hu Hij.
  exact (conj (fb_access K n kl ku x v i j Hn Hl Hu Hij) (fbc_access K n kl ku x re im i j Hn Hl Hu Hij)).
Qed.
Print Assumptions C01_band_access.
Example C01_case : in_band 5 2 1 4 3 /\ fb_off 2 1 4 3 = 16 /\ fbc_im 2 1 4 3 = 33.
Proof. unfold in_band. repeat split; reflexivity || lia. Qed.

Theorem C02_full_layout : forall n, 1 <= n -> forall i j, in_full n i j ->
  fa_off n i j = lapack_ge n i j /\ 0 <= fa_off n i j < fa_size n /\
  (forall i' j', in_full n i' j' -> fa_off n i' j' = fa_off n i j -> i' = i /\ j' = j).
Proof. exact fa_layout. Qed.
Print Assumptions C02_full_layout.

Theorem C02_complex_full_layout : forall n, 1 <= n -> forall i j, in_full n i j ->
  fc_re n i j = 2 * lapack_ge n i j /\ fc_im n i j = 2 * lapack_ge n i j + 1 /\
  0 <= fc_re n i j < fc_size n /\ 0 <= fc_im n i j < fc_size n /\
  (forall i' j', in_full n i' j' ->
     (fc_re n i' j' = fc_re n i j -> i' = i /\ j' = j) /\
     (fc_im n i' j' = fc_im n i j -> i' = i /\ j' = j) /\ fc_re n i' j' <> fc_im n i j).
Proof. exact fc_layout. Qed.
Print Assumptions C02_complex_full_layout.
Theorem C02_full_access : forall (K : num) n (x : Z -> K) v re im i j, 1 <= n -> in_full n i j ->
  (fa_get n x i j = Ok (x (lapack_ge n i j)) /\ fa_set n x i j v = Ok (upd x (lapack_ge n i j) v)) /\
  fc_set n x i j re im = Ok (upd (upd x (2 * lapack_ge n i j) re) (2 * lapack_ge n i j + 1) im).
Proof.
  intros K n x v re im i j Hn Hij.
  exact (conj (fa_access K n x v i j Hn Hij) (fc_access K n x re im i j Hn Hij)).
Qed.
Print Assumptions C02_full_access.
Example C02_case : in_full 3 2 3 /\ fa_off 3 2 3 = 7 /\ fc_im 3 2 3 = 15.
Proof. unfold in_full. repeat split; reflexivity || lia. Qed.

(* C03 holds for every arithmetic: the element is literally -J(i,j), plus fac on the
   diagonal.  J is an argument of the assembly that is only read. *)
Theorem C03_assembly_real : forall (K : num) (E J : Z -> K) (fac : K) n, 1 <= n ->
  wp (asm_real_full n E J fac) (fun E' => forall i j, in_full n i j ->
    E' (lapack_ge n i j) =
      if i =? j then (- J (lapack_ge n i j) + fac)%num else (- J (lapack_ge n i j))%num) /\
  forall kl ku, 0 <= kl -> 0 <= ku ->
  wp (asm_real_band n kl ku E J fac) (fun E' => forall i j, in_band n kl ku i j ->
    E' (lapack_gb kl ku i j) =
      if i =? j then (- J (lapack_gb kl ku i j) + fac)%num else (- J (lapack_gb kl ku i j))%num).
Proof. intros K E J fac n Hn. exact (conj (asm_real_full_spec n E J fac Hn) (fun kl ku Hl Hu => asm_real_band_spec n kl ku E J fac Hn Hl Hu)). Qed.
Print Assumptions C03_assembly_real.

Theorem C03_assembly_complex : forall (K : num) (E J : Z -> K) (alpha beta : K) n, 1 <= n ->
  wp (asm_complex_full n E J alpha beta) (fun E' => forall i j, in_full n i j ->
    E' (2 * lapack_ge n i j) =
      (if i =? j then (- J (lapack_ge n i j) + alpha)%num else (- J (lapack_ge n i j))%num) /\
    E' (2 * lapack_ge n i j + 1) = (if i =? j then beta else n0)) /\
  forall kl ku, 0 <= kl -> 0 <= ku ->
  wp (asm_complex_band n kl ku E J alpha beta) (fun E' => forall i j, in_band n kl ku i j ->
    E' (2 * lapack_gb kl ku i j) =
      (if i =? j then (- J (lapack_gb kl ku i j) + alpha)%num else (- J (lapack_gb kl ku i j))%num) /\
    E' (2 * lapack_gb kl ku i j + 1) = (if i =? j then beta else n0)).
Proof. intros K E J al be n Hn. exact (conj (asm_complex_full_spec n E J al be Hn) (fun kl ku Hl Hu => asm_complex_band_spec n kl ku E J al be Hn Hl Hu)). Qed.
Print Assumptions C03_assembly_complex.
Example C03_case :
  match @asm_real_band QNum 3 1 1 (fun _ => nlit 9 0) (fun k => nlit k 0) (nlit 100 0) with
  | Ok E => List.map E (zrange 0 11) =
      List.map (fun k => nlit k 0) [0; -1; 98; -3; -4; -5; 94; -7; -8; -9; 90; -11]
  | _ => False end.
Proof. vm_compute. reflexivity. Qed.

(* C51: decomr throws exactly when fac*I-J is singular; otherwise every solvereal returns
   the solution of (fac*I-J) X = Z.  LAPACK enters through its contract. *)
Theorem C51_solve_real_full : forall n trf trs (E J : Z -> R) (fac : R), 1 <= n ->
  lapack_real n (mat_ge n) trf trs ->
  match @decomr_full Rnum trf n E J fac with
  | Ok f => nonsingular n (newton_matrix fac (mat_ge n J)) /\
      forall Zv : Z -> R, exists X, @solvereal Rnum trs f Zv = Ok X /\
        solution n (newton_matrix fac (mat_ge n J)) X Zv
  | Throw _ => ~ nonsingular n (newton_matrix fac (mat_ge n J))
  | UB _ => False | Diverge => False end.
Proof. exact decomr_full_lemma. Qed.
Print Assumptions C51_solve_real_full.

Theorem C51_solve_real_band : forall n kl ku trf trs (E J : Z -> R) (fac : R), 1 <= n -> 0 <= kl -> 0 <= ku ->
  lapack_real n (mat_gb kl ku) trf trs ->
  match @decomr_band Rnum trf n kl ku E J fac with
  | Ok f => nonsingular n (newton_matrix fac (mat_gb kl ku J)) /\
      forall Zv : Z -> R, exists X, @solvereal Rnum trs f Zv = Ok X /\
        solution n (newton_matrix fac (mat_gb kl ku J)) X Zv
  | Throw _ => ~ nonsingular n (newton_matrix fac (mat_gb kl ku J))
  | UB _ => False | Diverge => False end.
Proof. exact decomr_band_lemma. Qed.
Print Assumptions C51_solve_real_band.

Theorem C51_solve_complex_full : forall n trf trs (E J : Z -> R) (alpha beta : R), 1 <= n ->
  lapack_complex n (mat_ge n) trf trs ->
  match @decomc_full Rnum trf n E J alpha beta with
  | Ok f => cnonsingular n (newton_matrix alpha (mat_ge n J)) (diag_matrix beta) /\
      forall Z2 Zr Zi : Z -> R, exists Xr Xi, @solvecomplex Rnum trs n f Z2 Zr Zi = Ok (Xr, Xi) /\
        csolution n (newton_matrix alpha (mat_ge n J)) (diag_matrix beta) Xr Xi Zr Zi
  | Throw _ => ~ cnonsingular n (newton_matrix alpha (mat_ge n J)) (diag_matrix beta)
  | UB _ => False | Diverge => False end.
Proof. exact decomc_full_lemma. Qed.
Print Assumptions C51_solve_complex_full.

Theorem C51_solve_complex_band : forall n kl ku trf trs (E J : Z -> R) (alpha beta : R),
  1 <= n -> 0 <= kl -> 0 <= ku ->
  lapack_complex n (mat_gb kl ku) trf trs ->
  match @decomc_band Rnum trf n kl ku E J alpha beta with
  | Ok f => cnonsingular n (newton_matrix alpha (mat_gb kl ku J)) (diag_matrix beta) /\
      forall Z2 Zr Zi : Z -> R, exists Xr Xi, @solvecomplex Rnum trs n f Z2 Zr Zi = Ok (Xr, Xi) /\
        csolution n (newton_matrix alpha (mat_gb kl ku J)) (diag_matrix beta) Xr Xi Zr Zi
  | Throw _ => ~ cnonsingular n (newton_matrix alpha (mat_gb kl ku J)) (diag_matrix beta)
  | UB _ => False | Diverge => False end.
Proof. exact decomc_band_lemma. Qed.
Print Assumptions C51_solve_complex_band.

(* the contracts are satisfiable: Cramer's rule for n = 2, division for n = 1 *)
Example C51_case_real : lapack_real 2 (mat_ge 2) trf2 trs2.
Proof. exact lapack2. Qed.
Example C51_case_complex : lapack_complex 1 (mat_ge 1) ctrf1 ctrs1.
Proof. exact clapack1. Qed.

(* trf and trs are arbitrary: nothing is assumed about what LAPACK returns *)
Theorem C62_decom_reports : forall (K : num) (trf : vec K -> vec K * ivec * Z) n nsub nsup E J (fac al be : K),
  1 <= n -> 0 <= nsub -> 0 <= nsup ->
  decom_reports trf (decomr_full trf n E J fac) /\ decom_reports trf (decomc_full trf n E J al be) /\
  decom_reports trf (decomr_band trf n nsub nsup E J fac) /\ decom_reports trf (decomc_band trf n nsub nsup E J al be).
Proof. exact (@decom_reports_lemma). Qed.
Print Assumptions C62_decom_reports.
Theorem C62_solve_reports : forall (K : num) (trs : vec K -> ivec -> vec K -> vec K * Z) n LU ip (Z2 Zr Zi : vec K),
  1 <= n ->
  (let a := trs LU ip (fun k => Zr (k + 1)) in
   reports (snd a) (solvereal trs (LU, ip) Zr) /\
   forall X, solvereal trs (LU, ip) Zr = Ok X -> forall i, 1 <= i <= n -> X i = fst a (i - 1)) /\
  exists b, (forall i, 1 <= i <= n -> b (2 * i - 2) = Zr i /\ b (2 * i - 1) = Zi i) /\
  (let a := trs LU ip b in
   reports (snd a) (solvecomplex trs n (LU, ip) Z2 Zr Zi) /\
   forall Y, solvecomplex trs n (LU, ip) Z2 Zr Zi = Ok Y -> forall i, 1 <= i <= n ->
     fst Y i = fst a (2 * i - 2) /\ snd Y i = fst a (2 * i - 1)).
Proof. exact (@solve_reports_lemma). Qed.
Print Assumptions C62_solve_reports.
(* a LAPACK that fails and one that does not *)
Example C62_case :
  let bad : vec QNum -> vec QNum * ivec * Z := fun E => (E, fun i => i, 2) in
  let good : vec QNum -> vec QNum * ivec * Z := fun E => (E, fun i => i, 0) in
  let z : vec QNum := fun _ => n0 in
  (exists m, decomr_full bad 2 z z (@n1 QNum) = Throw m) /\ (exists f, decomr_full good 2 z z (@n1 QNum) = Ok f).
Proof. cbv zeta. split; eexists; reflexivity. Qed.

Theorem C63_bandwidth_refuted : exists n nsub nsup, 1 <= n /\ n <= nsub /\ 0 <= nsup /\
  forall asserts, ~ refused (configure asserts n nsub nsup false).
Proof. exists 3, 3, 0. repeat split; try lia. intros a. exact (proj1 (band_check_refuted_lemma a 3 ltac:(lia))). Qed.
Print Assumptions C63_bandwidth_refuted.
(* every n is affected, on either side *)
Theorem C63_bandwidth_all : forall asserts n, 1 <= n ->
  ~ refused (configure asserts n n 0 false) /\ ~ refused (configure asserts n 0 n false).
Proof. exact band_check_refuted_lemma. Qed.
Print Assumptions C63_bandwidth_all.
(* what is refused: the Hessenberg option without a full matrix, and two bandwidths >= n *)
Theorem C63_refused_partial : forall asserts n nsub nsup hess,
  refused (configure asserts n nsub nsup hess) <->
  (hess = true /\ ~ (nsub = n - 1 /\ nsup = n - 1)) \/ (hess = false /\ n <= nsub /\ n <= nsup).
Proof. exact configure_refused. Qed.
Print Assumptions C63_refused_partial.
(* only Radau5cc refuses at compile time *)
Theorem C63_compile_time : forall asserts n nsub nsup hess,
  configure asserts n nsub nsup hess = None <-> asserts = true /\ hess = true /\ ~ (nsub = n - 1 /\ nsup = n - 1).
Proof. exact configure_compile. Qed.
Print Assumptions C63_compile_time.
(* a configuration that is not refused gets the storage asked for *)
Theorem C63_storage : forall asserts n nsub nsup hess k r,
  configure asserts n nsub nsup hess = Some (k, r) -> ~ refused (Some (k, r)) ->
  r = Ok tt /\ (k = KHess <-> hess = true) /\ (k = KFull \/ k = KHess <-> nsub = n - 1 /\ nsup = n - 1).
Proof. exact configure_kind. Qed.
Print Assumptions C63_storage.
(* ... in which every element inside the declared band has its place *)
Theorem C63_stores : forall k n nsub nsup (K : num) (x : vec K) v i j,
  1 <= n -> 0 <= nsub -> 0 <= nsup -> in_band n nsub nsup i j ->
  exists y, store_set k n nsub nsup x i j v = Ok y /\ store_get k n nsub nsup y i j = Ok v.
Proof. exact configure_stores. Qed.
Print Assumptions C63_stores.
Example C63_case : configure true 5 4 4 true = Some (KHess, Ok tt) /\ configure false 5 2 1 false = Some (KBand, Ok tt) /\
  configure true 5 2 1 true = None.
Proof. repeat split; reflexivity. Qed.
