(** Model of the level breadth first searches over the scalar types in which the caller keeps
    wavefronts and levels.  /repo/src/algorithms/bfs.hpp.  ModelBfs keeps them as unbounded
    numbers; here every conversion between [IndexType] (64 bits), [unsigned int] (32 bits) and
    the scalar types of the containers is explicit.
    [T] is the scalar type of the graph, [tb] its conversion to [bool].  [n] bounds the
    iterations of the loop. *)
From Coq Require Import ZArith Floats.SpecFloat.
From Verif Require Import Base ModelLil ModelVec ModelHelpers ModelViews ModelMul ModelElem
  ModelIndex ModelAlgoBase ModelAlgebra ModelFloat ModelFsssp.

(** A scalar type: its values, the conversion of an integer to it, the conversion of its values
    to an integer, and its conversion to [bool]. *)
Record scalar : Type := mkScalar
  { sty : Type; s_of : Z -> sty; s_to : sty -> Z; s_true : sty -> bool }.

(** [bool] and the integer types. *)
Definition int_scalar (t : ctype) : scalar := mkScalar Z (convert t) (fun z => z) istrue.
(** [float] and [double]: to an integer by truncation (C++ [conv.fpint]).  Simplification: the
    conversions of infinities and NaN, which are undefined, are 0 here; the searches only convert
    levels they stored and the wavefront values. *)
Definition ftrunc (x : fval) : Z :=
  match x with
  | S754_finite s m e => Z.mul (if s then -1 else 1) (Z.shiftl (Zpos m) e)
  | _ => 0
  end%Z.
Definition float_scalar (t : ftype) : scalar := mkScalar fval (of_int t) ftrunc ftrue.

(** [IndexType] and [unsigned int]. *)
Definition u64 (z : Z) : Z := convert (CInt false W64) z.
Definition u32 (z : Z) : Z := convert (CInt false W32) z.

Section Levels.
Context {T : Type} (tb : T -> bool) (LT WT : scalar).
Notation L := (sty LT).
Notation W := (sty WT).

(** The accumulation with [Plus<IndexType>] and with [Plus<unsigned int>] of a value of type
    [IndexType]: both arguments are converted to the type of the operator, and so are the values
    that meet no other (the intermediate vector holds the operator's result type). *)
Definition acc64 : accum L Z Z := Acc (fun l z => u64 (u64 (s_to LT l) + u64 z)) (fun l => u64 (s_to LT l)) u64.
Definition acc32 : accum L Z Z := Acc (fun l z => u32 (u32 (s_to LT l) + u32 z)) (fun l => u32 (s_to LT l)) u32.

(** [LogicalSemiring<IndexType>] and [LogicalSemiring<unsigned int>] ([conv] is [u64] or [u32]): the
    wavefront value is converted, the graph value too ([tb]). *)
Definition land_l (conv : Z -> Z) (a : W) (b : T) : Z := ofbool (istrue (conv (s_to WT a)) && tb b).
Definition lor_l (a b : Z) : Z := ofbool (istrue a || istrue b).

(** ** [bfs_level(graph, source, levels)], bfs.hpp:271-302; the body, 283-301. *)
Definition lbfs_level_body (graph : lil T) (s : bvec bool * bvec L * Z)
  : res (bvec bool * bvec L * Z) :=
  let '(wavefront, levels, depth) := s in
  let depth := u64 (depth + 1) in
  levels <- apply_v (fun b : bool => u64 (depth * ofbool b)) btrue (s_of LT) acc64 vnomask MERGE
              levels wavefront ;;
  wavefront <- mxv orb (fun (a : T) (b : bool) => tb a && b) (fun (b : bool) (a : T) => b && tb a)
                 (s_true LT) idc (NoAcc idc) (MComp levels) REPLACE
                 wavefront (Trn graph) wavefront ;;
  Ok (wavefront, levels, depth).

Definition lbfs_level (n : nat) (graph : lil T) (source : nat) (levels : bvec L)
  : res (option (bvec L)) :=
  wavefront <- vec_new false (nrows graph) ;;
  wavefront <- vec_setElement wavefront source true ;;
  r <- mwhile n (fun s => has_vals (vnvals (fst (fst s)))) (lbfs_level_body graph)
         (wavefront, levels, 0%Z) ;;
  Ok (option_map (fun s => snd (fst s)) r).

(** ** [bfs_level_masked(graph, wavefront, levels)], bfs.hpp:382-427; the body, 405-426. *)
Definition lbfs_masked_body (graph : lil T) (s : bvec W * bvec L * Z)
  : res (bvec W * bvec L * Z) :=
  let '(wavefront, levels, depth) := s in
  let depth := u64 (depth + 1) in
  levels <- apply_v (fun x : W => u64 (depth * u64 (s_to WT x))) btrue (s_of LT) acc32 vnomask
              REPLACE levels wavefront ;;
  wavefront <- vxm lor_l (land_l u64) (s_true LT) (s_of WT) (NoAcc idc) (MComp levels) REPLACE
                 wavefront wavefront (Mat graph) ;;
  Ok (wavefront, levels, depth).

Definition lbfs_level_masked (n : nat) (graph : lil T) (wavefront : bvec W) (levels : bvec L)
  : res (option (bvec L)) :=
  if negb (nrows graph =? ncols graph) || negb (vsize wavefront =? nrows graph)
  then Throw DimensionException
  else
    r <- mwhile n (fun s => has_vals (vnvals (fst (fst s)))) (lbfs_masked_body graph)
           (wavefront, levels, 0%Z) ;;
    Ok (option_map (fun s => snd (fst s)) r).

(** ** [bfs_level_masked_v2(graph, wavefront, levels)], bfs.hpp:503-538 *)
Definition lbfs_masked2_body (graph : lil T) (s : bvec W * bvec L * Z)
  : res (bvec W * bvec L * Z) :=
  let '(wavefront, levels, depth) := s in
  let depth := u64 (depth + 1) in
  levels <- assign_const_v idc (s_true WT) idc (NoAcc (s_of LT)) (MVal wavefront) MERGE levels depth AllIdx ;;
  wavefront <- vxm lor_l (land_l u64) (s_true LT) (s_of WT) (NoAcc idc) (MComp levels) REPLACE
                 wavefront wavefront (Mat graph) ;;
  Ok (wavefront, levels, depth).

Definition lbfs_level_masked_v2 (n : nat) (graph : lil T) (wavefront : bvec W) (levels : bvec L)
  : res (option (bvec L)) :=
  if negb (nrows graph =? ncols graph) || negb (vsize wavefront =? nrows graph)
  then Throw DimensionException
  else
    r <- mwhile n (fun s => has_vals (vnvals (fst (fst s)))) (lbfs_masked2_body graph)
           (wavefront, levels, 0%Z) ;;
    Ok (option_map (fun s => snd (fst s)) r).

(** ** [batch_bfs_level_masked(graph, wavefronts, levels)], bfs.hpp:442-481 *)
Definition lbfs_batch_body (graph : lil T) (s : lil W * lil L * Z) : res (lil W * lil L * Z) :=
  let '(wavefronts, levels, depth) := s in
  let depth := u64 (depth + 1) in
  levels <- apply (fun x : W => u64 (depth * u64 (s_to WT x))) btrue (s_of LT) acc32 mnomask
              REPLACE levels (Mat wavefronts) ;;
  wavefronts <- mxm lor_l (land_l u64) (fun (b : T) (a : W) => land_l u64 a b) (s_of WT) (s_to WT) (s_true LT)
                  (s_of WT) (NoAcc idc) (MComp levels) REPLACE
                  wavefronts (Mat wavefronts) (Mat graph) ;;
  Ok (wavefronts, levels, depth).

Definition lbatch_bfs_level_masked (n : nat) (graph : lil T) (wavefronts : lil W) (levels : lil L)
  : res (option (lil L)) :=
  if negb (nrows graph =? ncols graph) || negb (ncols wavefronts =? nrows graph)
  then Throw DimensionException
  else
    r <- mwhile n (fun s => has_vals (nvals (fst (fst s)))) (lbfs_batch_body graph)
           (wavefronts, levels, 0%Z) ;;
    Ok (option_map (fun s => snd (fst s)) r).

(** ** [bfs_level(graph, wavefront, levels)] on matrices (deprecated), bfs.hpp:321-361: [depth] is an
    [unsigned int]. *)
Definition lbfs_level_m_body (graph : lil T) (s : lil W * lil L * Z) : res (lil W * lil L * Z) :=
  let '(wavefront, levels, depth) := s in
  let depth := u32 (depth + 1) in
  levels <- apply (fun x : W => u32 (depth * u32 (s_to WT x))) btrue (s_of LT) acc32 mnomask
              REPLACE levels (Mat wavefront) ;;
  wavefront <- mxm lor_l (land_l u32) (fun (b : T) (a : W) => land_l u32 a b) (s_of WT) (s_to WT) btrue
                 (s_of WT) (NoAcc idc) mnomask REPLACE wavefront (Mat wavefront) (Mat graph) ;;
  wavefront <- apply idc (s_true LT) idc (NoAcc idc) (MComp levels) REPLACE
                 wavefront (Mat wavefront) ;;
  Ok (wavefront, levels, depth).

Definition lbfs_level_m (n : nat) (graph : lil T) (wavefront : lil W) (levels : lil L)
  : res (option (lil L)) :=
  r <- mwhile n (fun s => has_vals (nvals (fst (fst s)))) (lbfs_level_m_body graph)
         (wavefront, levels, 0%Z) ;;
  Ok (option_map (fun s => snd (fst s)) r).
End Levels.

(** The scalar types of the containers: [bool] and the integer types, [float] and [double]. *)
Inductive ltype : Type := LInt (t : ctype) | LFloat (t : ftype).
Definition scalar_of (lt : ltype) : scalar :=
  match lt with LInt t => int_scalar t | LFloat t => float_scalar t end.
