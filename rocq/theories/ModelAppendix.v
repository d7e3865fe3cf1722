(** Model of the algorithms of the appendix.  /repo/src/algorithms/appendix_algorithms.hpp.
    Levels and parents are natural numbers, [int32_t] is unbounded and the real numbers are
    rationals here.  [n] bounds the iterations of a loop; [Ok None] means that it has not ended. *)
From Coq Require Import QArith Qcanon.
From Verif Require Import Base ModelLil ModelVec ModelHelpers ModelViews ModelMul ModelElem
  ModelIndex ModelUtils ModelAlgoBase ModelBfs ModelMis ModelTriangle ModelRank ModelBc.
Local Open Scope nat_scope.

(** [do body while (cond)] with at most [n] tests of the condition. *)
Definition mdo {S : Type} (n : nat) (cond : S -> bool) (body : S -> res S) (s : S) : res (option S) :=
  s' <- body s ;; mwhile n cond body s'.

Section Levels.
(** [tb]: the conversion of the graph's values to [bool]. *)
Context {T : Type} (tb : T -> bool).

(** The test at the end of both loops, 74 and 113; state: [q], [v] and the depth. *)
Definition lv_more (s : bvec bool * bvec nat * nat) : bool := has_vals (vnvals (fst (fst s))).
(** [q<!v> = q ||.&& A], 71-72 and 109-111. *)
Definition lv_next (A : lil T) (v : bvec nat) (q : bvec bool) : res (bvec bool) :=
  vxm orb (fun (b : bool) (a : T) => b && tb a) ntrue idc (NoAcc idc) (MComp v) REPLACE q q (Mat A).

(** The body of [bfs_level_appendixB1], 67-74. *)
Definition b1_body (A : lil T) (s : bvec bool * bvec nat * nat) : res (bvec bool * bvec nat * nat) :=
  let '(q, v, d) := s in
  let d := S d in
  v <- assign_const_v idc btrue idc (NoAcc idc) (MVal q) MERGE v d AllIdx ;;
  q <- lv_next A v q ;;
  Ok (q, v, d).
(** The body of [bfs_level_appendixB2], 105-113. *)
Definition b2_body (A : lil T) (s : bvec bool * bvec nat * nat) : res (bvec bool * bvec nat * nat) :=
  let '(q, v, d) := s in
  let d := S d in
  v <- apply_v (fun b : bool => (if b then 1 else 0) * d) btrue idc (Acc Nat.add idc idc) vnomask REPLACE v q ;;
  q <- lv_next A v q ;;
  Ok (q, v, d).

(** 51-75 and 91-114. *)
Definition lv_search (body : lil T -> bvec bool * bvec nat * nat -> res (bvec bool * bvec nat * nat))
    (n : nat) (v : bvec nat) (A : lil T) (src : nat) : res (option (bvec nat)) :=
  q <- vec_new false (nrows A) ;;
  q <- vec_setElement q src true ;;
  r <- mdo n lv_more (body A) (q, v, 0) ;;
  Ok (option_map (fun s => snd (fst s)) r).
Definition bfs_level_appendixB1 := lv_search b1_body.
Definition bfs_level_appendixB2 := lv_search b2_body.

(** [bfs_parent_appendixB3], 131-163: the loop is that of [bfs], bfs.hpp:82-104. *)
Definition bfs_parent_appendixB3 (n : nat) (parents : bvec nat) (A : lil T) (src : nat)
  : res (option (bvec nat)) :=
  ramp <- index_ramp (nrows A) ;;
  parents <- vec_setElement (vec_clear parents) src src ;;
  q <- vec_new 0 (nrows A) ;;
  q <- vec_setElement q src 1 ;;
  r <- mwhile n (fun s => has_vals (vnvals (fst s))) (bfs_body ramp A) (q, parents) ;;
  Ok (option_map snd r).
End Levels.

Section Bc.
(** [ti], [tq]: the conversions of the graph's values to [int32_t] and to [float]. *)
Context {T : Type} (ti : T -> Z) (tq : T -> Qc).

(** ** [BC_appendixB4], 177-229 *)

(** State of the search: [q], [p], [sigma], [d]. *)
Definition b4s : Type := bvec Z * bvec Z * lil Z * nat.
(** [q<!p> = q +.* A], 190-191 and 201-202. *)
Definition b4_next (A : lil T) (p q : bvec Z) : res (bvec Z) :=
  vxm Z.add (mul_ia ti) ztrue idc (NoAcc idc) (MComp p) REPLACE q q (Mat A).
(** 196-206 *)
Definition b4_body (A : lil T) (s : b4s) : res b4s :=
  let '(q, p, sigma, d) := s in
  sigma <- assign_row 0%Z idc btrue idc (NoAcc idc) vnomask MERGE sigma q d AllIdx ;;
  p <- eWiseAdd_v Z.add idc idc btrue idc (NoAcc idc) vnomask MERGE p p q ;;
  q <- b4_next A p q ;;
  Ok (q, p, sigma, S d).
(** 211-228; state: [t1], [t2], [t3], [t4], [delta]. *)
Definition b4_back (A : lil T) (sigma : lil Z) (i : nat)
    (s : bvec Qc * bvec Qc * bvec Qc * bvec Qc * bvec Qc) : res (bvec Qc * bvec Qc * bvec Qc * bvec Qc * bvec Qc) :=
  let '(t1, t2, t3, t4, delta) := s in
  t1 <- assign_const_v idc btrue idc (NoAcc idc) vnomask MERGE t1 1%Qc AllIdx ;;
  t1 <- eWiseAdd_v Qcplus idc idc btrue idc (NoAcc idc) vnomask MERGE t1 t1 delta ;;
  t2 <- extract_col btrue idc (NoAcc zq) vnomask MERGE t2 (Trn sigma) AllIdx i ;;
  t2 <- eWiseMult_v Qcdiv btrue idc (NoAcc idc) vnomask MERGE t2 t1 t2 ;;
  t3 <- mxv Qcplus (mul_aq tq) (mul_qa tq) btrue idc (NoAcc idc) vnomask MERGE t3 (Mat A) t2 ;;
  t4 <- extract_col btrue idc (NoAcc zq) vnomask MERGE t4 (Trn sigma) AllIdx (i - 1) ;;
  t4 <- eWiseMult_v Qcmult btrue idc (NoAcc idc) vnomask MERGE t4 t4 t3 ;;
  delta <- eWiseAdd_v Qcplus idc idc btrue idc (NoAcc idc) vnomask MERGE delta delta t4 ;;
  Ok (t1, t2, t3, t4, delta).
Definition BC_appendixB4 (n : nat) (delta : bvec Qc) (A : lil T) (src : nat) : res (option (bvec Qc)) :=
  let N := nrows A in
  q <- vec_new 0%Z N ;;
  q <- vec_setElement q src 1%Z ;;
  let p := q in
  q <- b4_next A p q ;;
  r <- mdo n (fun s => has_vals (vnvals (fst (fst (fst s))))) (b4_body A) (q, p, lil_new N N, 0) ;;
  match r with
  | None => Ok None
  | Some (_, _, sigma, d) =>
      t <- vec_new 0%Qc N ;;
      s <- mdown (d - 1) (b4_back A sigma) (t, t, t, t, delta) ;;
      Ok (Some (snd s))
  end.

(** ** [BC_update_appendixB5], 244-324.  The masks [Sigmas] are constructed with the numbers of
    rows and columns exchanged. *)

(** 284-295 *)
Definition b5_body (A : lil T) (src : list nat) (s : bcs bool) : res (bcs bool) :=
  let '(F, P, Sigmas) := s in
  Sg <- apply ztrue btrue idc (NoAcc idc) mnomask MERGE (lil_new (length src) (nrows A)) (Mat F) ;;
  P <- bc_count P F ;;
  F <- bc_next_c ti A P F ;;
  Ok (F, P, Sigmas ++ [Sg]).
(** 309-317; state [W] and [BCu]. *)
Definition b5_back (A : lil T) (P : lil Z) (NspInv : lil Qc) (Sigmas : list (lil bool)) (i : nat)
    (s : lil Qc * lil Qc) : res (lil Qc * lil Qc) :=
  let '(W, BCu) := s in
  Si <- sigma_at Sigmas i ;;
  W <- eWiseMult Qcmult Qcmult idc btrue idc (NoAcc idc) (MVal Si) REPLACE W (Mat BCu) (Mat NspInv) ;;
  Sp <- sigma_at Sigmas (i - 1) ;;
  W <- mxm Qcplus (mul_aq tq) (mul_qa tq) idc idc btrue idc (NoAcc idc) (MVal Sp) REPLACE W (Mat A) (Mat W) ;;
  BCu <- eWiseMult (fun x y => (x * zq y)%Qc) Qcmult zq btrue idc (Acc Qcplus idc idc) mnomask MERGE
           BCu (Mat W) (Mat P) ;;
  Ok (W, BCu).
Definition BC_update_appendixB5 (n : nat) (delta : bvec Qc) (A : lil T) (src : list nat)
  : res (option (bvec Qc)) :=
  let p := length src in
  let N := nrows A in
  P <- build_or_throw (lil_new N p) (src_cols src) ;;
  F <- extract_m ztrue idc (NoAcc ti) (MComp P) REPLACE (lil_new N p) (Trn A) AllIdx (IdxArr src) ;;
  r <- mwhile n bc_more (b5_body A src) (F, P, []) ;;
  match r with
  | None => Ok None
  | Some (F, P, Sigmas) =>
      NspInv <- apply (fun x => Qcinv (zq x)) btrue idc (NoAcc idc) mnomask MERGE (lil_new N p) (Mat P) ;;
      BCu <- bc_ones N p ;;
      s <- mdown (length Sigmas - 1) (b5_back A P NspInv Sigmas) (lil_new N p, BCu) ;;
      delta <- assign_const_v idc btrue idc (NoAcc idc) vnomask MERGE delta (- qn p)%Qc AllIdx ;;
      delta <- reduce idc Qcplus Qcplus btrue idc (Acc Qcplus idc idc) vnomask MERGE delta (Mat (snd s)) ;;
      Ok (Some delta)
  end.
End Bc.

(** ** [mis_appendixB6], 353-414.  The body of the loop is that of [mis], mis.hpp:136-214.  The
    degrees are [double] and the random numbers [float], which the comparison converts to [double]:
    [R] stands for both (every [float] is a [double]). *)
Definition mis_appendixB6 {T R : Type} (tb : T -> bool) (tr : T -> R) (r0 : R) (rplus : R -> R -> R)
    (rlt : R -> R -> bool) (rb : R -> bool) (draw : nat -> nat -> R -> R) (n : nat) (iset : bvec bool) (A : lil T)
  : res (option (bvec bool)) :=
  let N := nrows A in
  prob <- vec_new r0 N ;;
  neighbor_max <- vec_new r0 N ;;
  new_members <- vec_new false N ;;
  new_neighbors <- vec_new false N ;;
  candidates <- vec_new false N ;;
  degrees <- vec_new r0 N ;;
  degrees <- reduce tr (fun x y => rplus (tr x) (tr y)) (fun s x => rplus s (tr x)) btrue idc
               (NoAcc idc) vnomask MERGE degrees (Mat A) ;;
  candidates <- assign_const_v idc rb idc (NoAcc idc) (MVal degrees) MERGE candidates true AllIdx ;;
  iset <- assign_const_v idc rb idc (NoAcc idc) (MComp degrees) REPLACE iset true AllIdx ;;
  s <- mwhile n (fun s => has_vals (vnvals (mcand s))) (mis_body tb rlt rb draw A degrees)
         (mkMis candidates iset prob neighbor_max new_members new_neighbors 0) ;;
  match s with
  | Some s => Ok (Some (mset s))
  | None => Ok None
  end.

(** ** [triangle_count_appendixB7], 424-437. *)
Definition triangle_count_appendixB7 (L : lil Z) : res Z :=
  let n := nrows L in
  C <- mxm Z.add Z.mul Z.mul idc idc ztrue idc (NoAcc idc) (MVal L) MERGE (lil_new n n) (Mat L) (Trn L) ;;
  sum_all C.
