(* Transcription of common/include/Hessenberg.hpp (all of it).
   Matrices are 1-based n x n arrays (class fortranArray, whose flat layout is the
   subject of LayoutModel.v); vectors are 1-based; ip and tau are 0-based C arrays of
   length n (Matrices.hpp:222).  Any access outside these bounds is [UB]. *)
From Verif Require Import Base.
Open Scope Z_scope.
Set Implicit Arguments.

Section Hess.
Context {K : num}.
Definition mat := Z -> Z -> K.
Definition vec := Z -> K.
Definition ivec := Z -> Z.

(* Hessenberg.hpp:7, macro ABS, applied there only to simple operands (an array
   element or a variable), for which the unparenthesised "-a" is harmless. *)
Definition nabs (a : K) : K := if (n0 <=? a)%num then a else (- a)%num.

(* ---- dech: Hessenberg.hpp:25-67 --------------------------------------- *)
(* lines 35-36: pivot search, for(i=kp1;i<=na;i++) if(ABS(A(i,k))>ABS(A(m,k))) m=i *)
Definition dech_pivot (n k na : Z) (A : mat) : out Z :=
  forM (k + 1) na (fun i m =>
    a <- rd2 n A i k ;; b <- rd2 n A m k ;;
    Ok (if (nabs b <? nabs a)%num then i else m)) k.
(* lines 53-63: the update of one column j *)
Definition dech_col (n k na m j : Z) (A : mat) : out mat :=
  t <- rd2 n A m j ;;
  akj <- rd2 n A k j ;;
  A <- wr2 n A m j akj ;;
  A <- wr2 n A k j t ;;
  if negb (t =? n0)%num then
    forM (k + 1) na (fun i A =>
      aij <- rd2 n A i j ;; aik <- rd2 n A i k ;;
      wr2 n A i j (aij + aik * t)%num) A
  else Ok A.
(* lines 33-63: one value of k; the boolean says that the loop was left by "break" *)
Definition dech_step (n k : Z) (A : mat) (ip : ivec) : out (mat * ivec * Z * bool) :=
  let na := Z.min n (1 + k) in
  m <- dech_pivot n k na A ;;
  ip <- wr 0 (n - 1) ip (k - 1) m ;;
  t <- rd2 n A m k ;;
  '(A, ip) <-
    (if negb (m =? k) then
       s <- rd 0 (n - 1) ip (n - 1) ;;
       ip <- wr 0 (n - 1) ip (n - 1) (- s) ;;
       akk <- rd2 n A k k ;;
       A <- wr2 n A m k akk ;;
       A <- wr2 n A k k t ;;
       Ok (A, ip)
     else Ok (A, ip)) ;;
  if (t =? n0)%num then Ok (A, ip, k, true)
  else
    let t := (nopp n1 / t)%num in
    A <- forM (k + 1) na (fun i A =>
           aik <- rd2 n A i k ;; wr2 n A i k (aik * t)%num) A ;;
    A <- forM (k + 1) n (fun j A => dech_col n k na m j A) A ;;
    Ok (A, ip, 0, false).
(* the whole function; the loop state is (A, ip, ret, left-by-break) *)
Definition dech (n : Z) (A : mat) (ip : ivec) : out (mat * ivec * Z) :=
  ip <- wr 0 (n - 1) ip (n - 1) 1 ;;
  '(A, ip, ret, _) <-
    (if negb (n =? 1) then
       forM 1 (n - 1) (fun k st =>
         let '(A, ip, ret, brk) := st in
         if brk : bool then Ok st else dech_step n k A ip) (A, ip, 0, false)
     else Ok (A, ip, 0, false)) ;;
  ann <- rd2 n A n n ;;
  Ok (A, ip, if (ann =? n0)%num then n else ret).

(* ---- solh: Hessenberg.hpp:77-104 --------------------------------------- *)
(* lines 84-91 *)
Definition solh_fwd (n k : Z) (A : mat) (ip : ivec) (B : vec) : out vec :=
  M <- rd 0 (n - 1) ip (k - 1) ;;
  t <- rd 1 n B M ;;
  bk <- rd 1 n B k ;;
  B <- wr 1 n B M bk ;;
  B <- wr 1 n B k t ;;
  forM (k + 1) (Z.min n (k + 1)) (fun i B =>
    bi <- rd 1 n B i ;; aik <- rd2 n A i k ;;
    wr 1 n B i (bi + aik * t)%num) B.
(* lines 95-100 *)
Definition solh_bwd (n kb : Z) (A : mat) (B : vec) : out vec :=
  let km1 := n - kb in
  let k := km1 + 1 in
  bk <- rd 1 n B k ;; akk <- rd2 n A k k ;;
  B <- wr 1 n B k (bk / akk)%num ;;
  bk <- rd 1 n B k ;;
  let t := (- bk)%num in
  forM 1 km1 (fun i B =>
    bi <- rd 1 n B i ;; aik <- rd2 n A i k ;;
    wr 1 n B i (bi + aik * t)%num) B.
Definition solh (n : Z) (A : mat) (ip : ivec) (B : vec) : out vec :=
  B <- (if negb (n =? 1) then
          B <- forM 1 (n - 1) (fun k B => solh_fwd n k A ip B) B ;;
          forM 1 (n - 1) (fun kb B => solh_bwd n kb A B) B
        else Ok B) ;;
  b1 <- rd 1 n B 1 ;; a11 <- rd2 n A 1 1 ;;
  wr 1 n B 1 (b1 / a11)%num.

(* ---- dechc: Hessenberg.hpp:121-185 ------------------------------------- *)
(* lines 131-132 *)
Definition dechc_pivot (n k na : Z) (Ar Ai : mat) : out Z :=
  forM (k + 1) na (fun i m =>
    ar <- rd2 n Ar i k ;; ai <- rd2 n Ai i k ;;
    br <- rd2 n Ar m k ;; bi <- rd2 n Ai m k ;;
    Ok (if (nabs br + nabs bi <? nabs ar + nabs ai)%num then i else m)) k.
(* lines 156-180.  The three branches on (tr,ti) are kept apart: the one for tr==0.0
   computes prodi = Ar(i,k)*tr (line 170). *)
Definition dechc_col (n k na m j : Z) (Ar Ai : mat) : out (mat * mat) :=
  tr <- rd2 n Ar m j ;; ti <- rd2 n Ai m j ;;
  akr <- rd2 n Ar k j ;; Ar <- wr2 n Ar m j akr ;;
  aki <- rd2 n Ai k j ;; Ai <- wr2 n Ai m j aki ;;
  Ar <- wr2 n Ar k j tr ;; Ai <- wr2 n Ai k j ti ;;
  if negb (nabs tr + nabs ti =? n0)%num then
    forM (k + 1) na (fun i st =>
      let '(Ar, Ai) := st in
      lr <- rd2 n Ar i k ;; li <- rd2 n Ai i k ;;
      let '(prodr, prodi) :=
        if (ti =? n0)%num then (lr * tr, li * tr)%num
        else if (tr =? n0)%num then (nopp li * ti, lr * tr)%num
        else (lr * tr - li * ti, li * tr + lr * ti)%num in
      aijr <- rd2 n Ar i j ;; Ar <- wr2 n Ar i j (aijr + prodr)%num ;;
      aiji <- rd2 n Ai i j ;; Ai <- wr2 n Ai i j (aiji + prodi)%num ;;
      Ok (Ar, Ai)) (Ar, Ai)
  else Ok (Ar, Ai).
(* lines 129-181 *)
Definition dechc_step (n k : Z) (Ar Ai : mat) (ip : ivec)
  : out (mat * mat * ivec * Z * bool) :=
  let na := Z.min n (1 + k) in
  m <- dechc_pivot n k na Ar Ai ;;
  ip <- wr 0 (n - 1) ip (k - 1) m ;;
  tr <- rd2 n Ar m k ;; ti <- rd2 n Ai m k ;;
  '(Ar, Ai, ip) <-
    (if negb (m =? k) then
       s <- rd 0 (n - 1) ip (n - 1) ;;
       ip <- wr 0 (n - 1) ip (n - 1) (- s) ;;
       akkr <- rd2 n Ar k k ;; Ar <- wr2 n Ar m k akkr ;;
       akki <- rd2 n Ai k k ;; Ai <- wr2 n Ai m k akki ;;
       Ar <- wr2 n Ar k k tr ;; Ai <- wr2 n Ai k k ti ;;
       Ok (Ar, Ai, ip)
     else Ok (Ar, Ai, ip)) ;;
  if (nabs tr + nabs ti =? n0)%num then Ok (Ar, Ai, ip, k, true)
  else
    let den := (tr * tr + ti * ti)%num in
    let tr := (tr / den)%num in
    let ti := (ti / nopp den)%num in
    '(Ar, Ai) <- forM (k + 1) na (fun i st =>
        let '(Ar, Ai) := st in
        ar <- rd2 n Ar i k ;; ai <- rd2 n Ai i k ;;
        let prodr := (ar * tr - ai * ti)%num in
        let prodi := (ai * tr + ar * ti)%num in
        Ar <- wr2 n Ar i k (- prodr)%num ;;
        Ai <- wr2 n Ai i k (- prodi)%num ;;
        Ok (Ar, Ai)) (Ar, Ai) ;;
    '(Ar, Ai) <- forM (k + 1) n (fun j st =>
        let '(Ar, Ai) := st in dechc_col n k na m j Ar Ai) (Ar, Ai) ;;
    Ok (Ar, Ai, ip, 0, false).
Definition dechc (n : Z) (Ar Ai : mat) (ip : ivec) : out (mat * mat * ivec * Z) :=
  ip <- wr 0 (n - 1) ip (n - 1) 1 ;;
  '(Ar, Ai, ip, ret, _) <-
    (if negb (n =? 1) then
       forM 1 (n - 1) (fun k st =>
         let '(Ar, Ai, ip, ret, brk) := st in
         if brk : bool then Ok st else dechc_step n k Ar Ai ip) (Ar, Ai, ip, 0, false)
     else Ok (Ar, Ai, ip, 0, false)) ;;
  ar <- rd2 n Ar n n ;; ai <- rd2 n Ai n n ;;
  Ok (Ar, Ai, ip, if (nabs ar + nabs ai =? n0)%num then n else ret).

(* ---- solhc: Hessenberg.hpp:197-238 ------------------------------------- *)
Definition solhc_fwd (n k : Z) (Ar Ai : mat) (ip : ivec) (B : vec * vec) : out (vec * vec) :=
  let '(Br, Bi) := B in
  M <- rd 0 (n - 1) ip (k - 1) ;;
  tr <- rd 1 n Br M ;; ti <- rd 1 n Bi M ;;
  bkr <- rd 1 n Br k ;; Br <- wr 1 n Br M bkr ;;
  bki <- rd 1 n Bi k ;; Bi <- wr 1 n Bi M bki ;;
  Br <- wr 1 n Br k tr ;; Bi <- wr 1 n Bi k ti ;;
  forM (k + 1) (Z.min n (k + 1)) (fun i B =>
    let '(Br, Bi) := B in
    ar <- rd2 n Ar i k ;; ai <- rd2 n Ai i k ;;
    let prodr := (ar * tr - ai * ti)%num in
    let prodi := (ai * tr + ar * ti)%num in
    br <- rd 1 n Br i ;; Br <- wr 1 n Br i (br + prodr)%num ;;
    bi <- rd 1 n Bi i ;; Bi <- wr 1 n Bi i (bi + prodi)%num ;;
    Ok (Br, Bi)) (Br, Bi).
(* lines 221-224 and 234-237: divide element k by the diagonal *)
Definition solhc_div (n k : Z) (Ar Ai : mat) (B : vec * vec) : out (vec * vec) :=
  let '(Br, Bi) := B in
  ar <- rd2 n Ar k k ;; ai <- rd2 n Ai k k ;;
  br <- rd 1 n Br k ;; bi <- rd 1 n Bi k ;;
  let den := (ar * ar + ai * ai)%num in
  let prodr := (br * ar + bi * ai)%num in
  let prodi := (bi * ar - br * ai)%num in
  Br <- wr 1 n Br k (prodr / den)%num ;;
  Bi <- wr 1 n Bi k (prodi / den)%num ;;
  Ok (Br, Bi).
Definition solhc_bwd (n kb : Z) (Ar Ai : mat) (B : vec * vec) : out (vec * vec) :=
  let km1 := n - kb in
  let k := km1 + 1 in
  '(Br, Bi) <- solhc_div n k Ar Ai B ;;
  br <- rd 1 n Br k ;; bi <- rd 1 n Bi k ;;
  let tr := (- br)%num in
  let ti := (- bi)%num in
  forM 1 km1 (fun i B =>
    let '(Br, Bi) := B in
    ar <- rd2 n Ar i k ;; ai <- rd2 n Ai i k ;;
    let prodr := (ar * tr - ai * ti)%num in
    let prodi := (ai * tr + ar * ti)%num in
    br <- rd 1 n Br i ;; Br <- wr 1 n Br i (br + prodr)%num ;;
    bi <- rd 1 n Bi i ;; Bi <- wr 1 n Bi i (bi + prodi)%num ;;
    Ok (Br, Bi)) (Br, Bi).
Definition solhc (n : Z) (Ar Ai : mat) (ip : ivec) (B : vec * vec) : out (vec * vec) :=
  B <- (if negb (n =? 1) then
          B <- forM 1 (n - 1) (fun k B => solhc_fwd n k Ar Ai ip B) B ;;
          forM 1 (n - 1) (fun kb B => solhc_bwd n kb Ar Ai B) B
        else Ok B) ;;
  solhc_div n 1 Ar Ai B.

(* ---- householder: Hessenberg.hpp:253-278 ------------------------------- *)
(* lines 269-276: one reflection *)
Definition hh_body (n : Z) (A : mat) (tau : vec) (j : Z) (Y : vec) : out vec :=
  s <- rd 1 n Y (j + 1) ;;
  s <- forM (j + 2) n (fun i s =>
         yi <- rd 1 n Y i ;; aij <- rd2 n A i j ;; Ok (s + yi * aij)%num) s ;;
  tj <- rd 0 (n - 1) tau (j - 1) ;;
  let s := (s * tj)%num in
  yj <- rd 1 n Y (j + 1) ;;
  Y <- wr 1 n Y (j + 1) (yj - s)%num ;;
  forM (j + 2) n (fun i Y =>
    yi <- rd 1 n Y i ;; aij <- rd2 n A i j ;;
    wr 1 n Y i (yi - s * aij)%num) Y.
(* line 267: for(int j=jbeg;j!=jend;j+=jinc), on fuel *)
Fixpoint hh_loop (fuel : nat) (n : Z) (A : mat) (tau : vec) (j jend jinc : Z) (Y : vec)
  : out vec :=
  match fuel with
  | O => Diverge
  | S f =>
      if j =? jend then Ok Y
      else Y <- hh_body n A tau j Y ;; hh_loop f n A tau (j + jinc) jend jinc Y
  end.
(* line 257 (Y=X) is the copy of X, so the old contents of Y do not matter *)
Definition householder (fuel : nat) (n : Z) (A : mat) (tau : vec) (X : vec) (direct : bool)
  : out vec :=
  if direct then hh_loop fuel n A tau 1 (n - 1) 1 X
  else hh_loop fuel n A tau (n - 2) 0 (-1) X.

End Hess.
Arguments mat : clear implicits.
Arguments vec : clear implicits.
