(* The main program of SDIRKL/test/main.cpp: the errors it writes, one for each number of steps.
   Real numbers, Lapl1d's apply as the operator lapl_op (SuperLU's two functions are arguments).
   pow(2,l) is the power of the integers.  What the memory contains before it is written is an
   argument.  Not modelled: the files and the texts written. *)
From Coq Require Import Reals List.
From Verif Require Import Base HessModel SdirkModel SdirkTop LaplModel LaplTop TestModel.
Import ListNotations.
Open Scope Z_scope.

(* SDIRKL/test/main.cpp:48-54 *)
Definition st_normdiff {K : num} (n : Z) (x y : vec K) : out K :=
  forM 0 (n - 1) (fun i ret => xi <- rd 0 (n - 1) x i ;; yi <- rd 0 (n - 1) y i ;; Ok (ret + std_abs (xi - yi))%num) (nlit 0 0).
(* what new double[] and the members of S contain before they are written *)
Record junk := mkJ { j_dloc : Z -> R; j_Zused : Z -> ptr; j_aloc : Z -> R; j_zc0 : ptr; j_zb : Z -> R; j_a : Z -> R; j_ri : Z -> Z; j_cp : Z -> Z }.

Section Main.
Context {Fa : Type}.
Variables (RK : method Rnum) (dgssv : slu Rnum -> option Fa) (dgstrs : Fa -> vec Rnum -> option (vec Rnum)).
Variables (n : Z) (Tinteg beta : R) (J : Z -> junk).
(* lines 83-97: the pass l of the loop; the result: what is written and the arrays x, force *)
Definition st_level (sol : vec Rnum) (l : Z) (x force : vec Rnum) : out ((R * R) * (vec Rnum * vec Rnum)) :=
  x <- ex_cinit (K := Rnum) cos atan n x ;;
  force <- ex_cinit (K := Rnum) cos atan n force ;;
  force <- forM 0 (n - 1) (fun i f => v <- rd 0 (n - 1) f i ;; wr 0 (n - 1) f i (v * beta)%R) force ;;
  let np := 2 ^ l in
  let dt := (Tinteg / IZR np)%R in
  oP <- lapl_init (K := Rnum) dgssv n (IZR n) (dt * m_A RK 0 0)%R pm_new (j_a (J l)) (j_ri (J l)) (j_cp (J l)) ;;
  o <- construct RK n (j_dloc (J l)) (j_Zused (J l)) (j_aloc (J l)) (j_zc0 (J l)) ;;
  om <- run_affine RK n dt true (lapl_op dgstrs (fst oP) n) force (Z.to_nat np) (o, mkMem x (j_zb (J l))) ;;
  diff <- st_normdiff (K := Rnum) n (io (snd om)) sol ;;
  Ok ((dt, diff), (io (snd om), force)).
Fixpoint st_levels (sol : vec Rnum) (k : nat) (l : Z) (x force : vec Rnum) : out (list (R * R)) :=
  match k with
  | O => Ok []
  | S k => '(row, (x, force)) <- st_level sol l x force ;; rows <- st_levels sol k (l + 1) x force ;; Ok (row :: rows)
  end.
(* lines 67-98; k is 8 there, line 83 *)
Definition st_main (k : nat) (sol x force : vec Rnum) : out (list (R * R)) :=
  sol <- ex_sol (K := Rnum) cos exp atan n Tinteg beta sol ;;
  st_levels sol k 0 x force.
End Main.
