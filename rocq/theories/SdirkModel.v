(* Model of SDIRKL/include/Sdirkl.hpp and of the methods CrN, EulerImp, RKMethod1, RKMethod2,
   RKRS of SDIRKL/include.

   Simplifications: the buffer z and the caller's array are functions from indices to values with
   checked bounds; a pointer designates the caller's array or a position in z.  The array phi is
   only read: it is a function, whose n elements are read.  The user's operator Op is given the
   n elements of its argument and fills n elements. *)
From Verif Require Import Base HessModel.
Open Scope Z_scope.

(* the public members of the methods: nstage, A, S, D *)
Record method {K : num} := mkM { m_s : Z; m_A : Z -> Z -> K; m_S : Z -> K; m_D : Z -> K }.
Arguments method : clear implicits.
Arguments mkM {K}.

Section Sdirk.
Context {K : num}.
Variable RK : method K.
Variable n : Z.
Variable dt : K.
Variable affine : bool.
(* Op.apply, after Op.init(n,dt*diag) *)
Variable op : vec K -> vec K.
Notation s := (m_s RK).

Inductive ptr := Io | Buf (off : Z).
Record smem := mkMem { io : vec K; zb : vec K }.
(* size of z, lines 110-113 *)
Definition zsize : Z := if affine then n * (s + 2) else n * (s + 1).
Definition ld (p : ptr) (i : Z) (m : smem) : out K :=
  match p with Io => rd 0 (n - 1) (io m) i | Buf o => rd 0 (zsize - 1) (zb m) (o + i) end.
Definition st (p : ptr) (i : Z) (x : K) (m : smem) : out smem :=
  match p with
  | Io => v <- wr 0 (n - 1) (io m) i x ;; Ok (mkMem v (zb m))
  | Buf o => v <- wr 0 (zsize - 1) (zb m) (o + i) x ;; Ok (mkMem (io m) v)
  end.
(* the pointers and coefficients set by the constructor, lines 114-126 *)
Definition Zi (i : Z) : ptr := Buf (i * n).
Definition Work : ptr := Buf (n * s).
Definition Work1 : ptr := Buf (n * s + n).
Definition diag : K := m_A RK 0 0.
Definition AD (i j : Z) : K := (m_A RK i j / diag)%num.
(* doNew, lines 92-102: (ret, dloc, Zused) *)
Definition doNew (dloc : Z -> K) (Zused : Z -> ptr) : out (Z * (Z -> K) * (Z -> ptr)) :=
  forM 0 (s - 1) (fun i st => let '(ret, dl, zu) := st in
    if negb (m_D RK i =? nlit 0 0)%num then
      dl <- wr 0 (s - 1) dl ret (m_D RK i) ;; zu <- wr 0 (s - 1) zu ret (Zi i) ;; Ok (ret + 1, dl, zu)
    else Ok st) (0, dloc, Zused).

(* cl, lines 43-53; c is aloc, of nstage elements, v is Zcomb, of nstage+1 elements *)
Definition cl (nv : Z) (c : Z -> K) (v : Z -> ptr) (o : ptr) (m : smem) : out smem :=
  v0 <- rd 0 s v 0 ;;
  forM 0 (n - 1) (fun i m =>
    c0 <- rd 0 (s - 1) c 0 ;; x <- ld v0 i m ;; m <- st o i (c0 * x)%num m ;;
    forM 1 (nv - 1) (fun j m =>
      oi <- ld o i m ;; vj <- rd 0 s v j ;; x <- ld vj i m ;; cj <- rd 0 (s - 1) c j ;;
      st o i (oi + x * cj)%num m) m) m.
(* pluscl, lines 59-65; c is dloc, v is Zused, of nstage elements *)
Definition pluscl (nv : Z) (c : Z -> K) (v : Z -> ptr) (o : ptr) (m : smem) : out smem :=
  forM 0 (n - 1) (fun i m =>
    forM 0 (nv - 1) (fun j m =>
      oi <- ld o i m ;; cj <- rd 0 (s - 1) c j ;; vj <- rd 0 (s - 1) v j ;; x <- ld vj i m ;;
      st o i (oi + cj * x)%num m) m) m.
(* plusa, lines 71-76, with b = phi *)
Definition plusa (a : K) (phi : vec K) (c o : ptr) (m : smem) : out smem :=
  forM 0 (n - 1) (fun i m => b <- rd 0 (n - 1) phi i ;; x <- ld c i m ;; st o i (a * b + x)%num m) m.
(* minus, lines 80-85 *)
Definition minus (z b : ptr) (m : smem) : out smem :=
  forM 0 (n - 1) (fun i m => x <- ld z i m ;; y <- ld b i m ;; st z i (x - y)%num m) m.
(* the call Op.apply(w,x) *)
Definition apply (w x : ptr) (m : smem) : out smem :=
  let seen := fun i => if inb 0 (n - 1) i then match w with Io => io m i | Buf o => zb m (o + i) end else nlit 0 0 in
  _ <- match w with Buf o => if inb 0 zsize o && inb 0 zsize (o + n) then Ok tt else UB "read out of bounds" | Io => Ok tt end ;;
  let r := op seen in
  forM 0 (n - 1) (fun i m => st x i (r i) m) m.

(* lines 144-151, 170-177: the coefficients and pointers of a stage; aloc and Zcomb are members *)
Definition combine (stage : Z) (st : (Z -> K) * (Z -> ptr)) : out ((Z -> K) * (Z -> ptr)) :=
  let '(al, zc) := st in
  al <- wr 0 (s - 1) al 0 (m_S RK stage / diag)%num ;;
  forM 0 (stage - 1) (fun j st => let '(al, zc) := st in
    al <- wr 0 (s - 1) al (j + 1) (AD stage j) ;; zc <- wr 0 s zc (j + 1) (Zi j) ;; Ok (al, zc)) (al, zc).
(* the members dloc, Zused (lused of them are set), aloc, Zcomb *)
Record sobj := mkO { o_lused : Z; o_dloc : Z -> K; o_Zused : Z -> ptr; o_aloc : Z -> K; o_Zcomb : Z -> ptr }.
(* constructor, lines 108-128; dloc, Zused, aloc: the members before initialisation *)
Definition construct (dloc : Z -> K) (Zused : Z -> ptr) (aloc : Z -> K) (zc0 : ptr) : out sobj :=
  '(lu, dl, zu) <- doNew dloc Zused ;;
  Ok (mkO lu dl zu aloc (fun i => if i =? 0 then zc0 else Zi (i - 1))).

(* step(inout), lines 136-158; an exception is returned with the memory at that moment *)
Definition step_linear (o : sobj) (m : smem) : out (sobj * smem * option string) :=
  if affine then Ok (o, m, Some "Sdirkl step(inout) called in the affine case"%string) else
  zc <- wr 0 s (o_Zcomb o) 0 Io ;;
  '(al, zc, m) <- forM 0 (s - 1) (fun stage st => let '(al, zc, m) := st in
    '(al, zc) <- combine stage (al, zc) ;;
    m <- cl (stage + 1) al zc Work m ;;
    m <- apply Work (Zi stage) m ;;
    m <- minus (Zi stage) Work m ;;
    Ok (al, zc, m)) (o_aloc o, zc, m) ;;
  m <- pluscl (o_lused o) (o_dloc o) (o_Zused o) Io m ;;
  Ok (mkO (o_lused o) (o_dloc o) (o_Zused o) al zc, m, None).
(* step(inout,phi), lines 162-185 *)
Definition step_affine (phi : vec K) (o : sobj) (m : smem) : out (sobj * smem * option string) :=
  if negb affine then Ok (o, m, Some "Sdirkl step(inout,phi) called in the linear case"%string) else
  zc <- wr 0 s (o_Zcomb o) 0 Io ;;
  '(al, zc, m) <- forM 0 (s - 1) (fun stage st => let '(al, zc, m) := st in
    '(al, zc) <- combine stage (al, zc) ;;
    m <- cl (stage + 1) al zc Work1 m ;;
    m <- plusa (m_S RK stage * dt)%num phi Work1 Work m ;;
    m <- apply Work (Zi stage) m ;;
    m <- minus (Zi stage) Work1 m ;;
    Ok (al, zc, m)) (o_aloc o, zc, m) ;;
  m <- pluscl (o_lused o) (o_dloc o) (o_Zused o) Io m ;;
  Ok (mkO (o_lused o) (o_dloc o) (o_Zused o) al zc, m, None).
End Sdirk.

(* the methods; the elements above the diagonal are not initialised: they are left to [u] *)
Section Methods.
Context {K : num}.
Variable u : K.
Definition tab2 (l : list (list K)) (i j : Z) : K := nth (Z.to_nat j) (nth (Z.to_nat i) l nil) u.
Definition tab1 (l : list K) (i : Z) : K := nth (Z.to_nat i) l u.
(* CrN.hpp:10-21 *)
Definition CrN : method K := mkM 1 (tab2 [[nlit 5 (-1)]]) (tab1 [nlit 5 (-1)]) (tab1 [nlit 1 0]).
(* EulerImp.hpp:10-21 *)
Definition EulerImp : method K := mkM 1 (tab2 [[nlit 1 0]]) (tab1 [nlit 1 0]) (tab1 [nlit 1 0]).
(* RKMethod1.hpp:10-46 *)
Definition RKMethod1 : method K := mkM 5
  (tab2 [[nlit 250000000000000 (-15)];
         [nlit 500000000000000 (-15); nlit 250000000000000 (-15)];
         [nlit 340000000000000 (-15); nlit (-400000000000000) (-16); nlit 250000000000000 (-15)];
         [nlit 272794117647059 (-15); nlit (-503676470588235) (-16); nlit 275735294117647 (-16); nlit 250000000000000 (-15)];
         [nlit 104166666666667 (-14); nlit (-102083333333333) (-14); nlit 781250000000000 (-14); nlit (-708333333333333) (-14); nlit 250000000000000 (-15)]])
  (tab1 [nlit 250000000000000 (-15); nlit 750000000000000 (-15); nlit 550000000000000 (-15); nlit 500000000000000 (-15); nlit 100000000000000 (-14)])
  (tab1 [nlit 0 0; nlit 0 0; nlit 0 0; nlit 0 0; nlit 1 0]).
(* RKMethod2.hpp:10-32 *)
Definition RKMethod2 : method K := mkM 3
  (tab2 [[nlit 106857902130163 (-14)];
         [nlit (-568579021301629) (-15); nlit 106857902130163 (-14)];
         [nlit 213715804260326 (-14); nlit (-327431608520651) (-14); nlit 106857902130163 (-14)]])
  (tab1 [nlit 106857902130163 (-14); nlit 500000000000000 (-15); nlit (-685790213016287) (-16)])
  (tab1 [nlit 445622407287714 (-15); nlit 106417777247591 (-14); nlit 120614758428183 (-15)]).
(* RKRS.hpp:10-28 *)
Definition RKRS : method K := mkM 2
  (tab2 [[nlit 170710678118655 (-14)];
         [nlit (-241421356237309) (-14); nlit 170710678118655 (-14)]])
  (tab1 [nlit 170710678118655 (-14); nlit (-707106781186548) (-15)])
  (tab1 [nlit 707106781186547 (-15); nlit 292893218813452 (-15)]).
End Methods.
Arguments mkMem {K}.
Arguments io {K}.
Arguments zb {K}.
Arguments mkO {K}.
Arguments o_lused {K}.
Arguments o_dloc {K}.
Arguments o_Zused {K}.
Arguments o_aloc {K}.
Arguments o_Zcomb {K}.
