(** Model of the breadth first searches.  /repo/src/algorithms/bfs.hpp.
    Indices, parents and levels are natural numbers (the arithmetic of [IndexType] does not
    wrap here: levels are at most the number of vertices plus one, and [Plus] only meets
    absent values).  [T] is the scalar type of the graph, [tb] its conversion to [bool].
    [n] bounds the iterations of the loop. *)
From Verif Require Import Base ModelLil ModelVec ModelHelpers ModelViews ModelMul ModelElem
  ModelIndex ModelAlgoBase.

Section Bfs.
Context {T : Type} (tb : T -> bool).

(** ** [bfs(graph, source, parent_list)], bfs.hpp:53-105 *)

(** The body of the loop, 82-104; state: wavefront and parent list. *)
Definition bfs_body (ramp : bvec nat) (graph : lil T) (s : bvec nat * bvec nat)
  : res (bvec nat * bvec nat) :=
  let '(wavefront, parent_list) := s in
  wavefront <- eWiseMult_v (fun a _ : nat => a) btrue idc (NoAcc idc) vnomask MERGE
                 wavefront ramp wavefront ;;
  wavefront <- vxm nmin (fun (a : nat) (_ : T) => a) ntrue idc (NoAcc idc)
                 (MSComp parent_list) REPLACE wavefront wavefront (Mat graph) ;;
  parent_list <- apply_v idc btrue idc (Acc Nat.add idc idc) vnomask MERGE
                   parent_list wavefront ;;
  Ok (wavefront, parent_list).

Definition bfs (n : nat) (graph : lil T) (source : nat) (parent_list : bvec nat)
  : res (option (bvec nat)) :=
  let N := nrows graph in
  ramp <- index_ramp N ;;
  wavefront <- vec_new 0 N ;;
  wavefront <- vec_setElement wavefront source 1 ;;
  parent_list <- vec_setElement (vec_clear parent_list) source source ;;
  r <- mwhile n (fun s => has_vals (vnvals (fst s))) (bfs_body ramp graph)
         (wavefront, parent_list) ;;
  Ok (option_map snd r).

(** ** [bfs_level(graph, source, levels)], bfs.hpp:271-302 *)

(** The body, 283-301; state: wavefront, levels and depth.  The first argument of
    [mxv]'s multiplication is the graph element; the product with a transposed view calls
    it with swapped arguments. *)
Definition bfs_level_body (graph : lil T) (s : bvec bool * bvec nat * nat)
  : res (bvec bool * bvec nat * nat) :=
  let '(wavefront, levels, depth) := s in
  let depth := S depth in
  levels <- apply_v (fun b : bool => depth * (if b then 1 else 0)) btrue idc
              (Acc Nat.add idc idc) vnomask MERGE levels wavefront ;;
  wavefront <- mxv orb (fun (a : T) (b : bool) => tb a && b) (fun (b : bool) (a : T) => b && tb a)
                 ntrue idc (NoAcc idc) (MComp levels) REPLACE
                 wavefront (Trn graph) wavefront ;;
  Ok (wavefront, levels, depth).

Definition bfs_level (n : nat) (graph : lil T) (source : nat) (levels : bvec nat)
  : res (option (bvec nat)) :=
  wavefront <- vec_new false (nrows graph) ;;
  wavefront <- vec_setElement wavefront source true ;;
  r <- mwhile n (fun s => has_vals (vnvals (fst (fst s)))) (bfs_level_body graph)
         (wavefront, levels, 0) ;;
  Ok (option_map (fun s => snd (fst s)) r).

(** ** [bfs_level_masked(graph, wavefront, levels)], bfs.hpp:382-427.  The wavefront holds
    [IndexType] values. *)

(** [LogicalAnd<IndexType>] on a wavefront value and a graph value converted to
    [IndexType]; [LogicalOr<IndexType>]. *)
Definition land_n (a : nat) (b : T) : nat := if ntrue a && tb b then 1 else 0.
Definition lor_n (a b : nat) : nat := if ntrue a || ntrue b then 1 else 0.

(** The body, 405-426. *)
Definition bfs_masked_body (graph : lil T) (s : bvec nat * bvec nat * nat)
  : res (bvec nat * bvec nat * nat) :=
  let '(wavefront, levels, depth) := s in
  let depth := S depth in
  levels <- apply_v (fun x : nat => depth * x) btrue idc (Acc Nat.add idc idc) vnomask
              REPLACE levels wavefront ;;
  wavefront <- vxm lor_n land_n ntrue idc (NoAcc idc) (MComp levels) REPLACE
                 wavefront wavefront (Mat graph) ;;
  Ok (wavefront, levels, depth).

Definition bfs_level_masked (n : nat) (graph : lil T) (wavefront levels : bvec nat)
  : res (option (bvec nat)) :=
  if negb (nrows graph =? ncols graph) || negb (vsize wavefront =? nrows graph)
  then Throw DimensionException
  else
    r <- mwhile n (fun s => has_vals (vnvals (fst (fst s)))) (bfs_masked_body graph)
           (wavefront, levels, 0) ;;
    Ok (option_map (fun s => snd (fst s)) r).

(** ** [batch_bfs_level_masked(graph, wavefronts, levels)], bfs.hpp:442-481: one search per
    row. *)
Definition bfs_batch_body (graph : lil T) (s : lil nat * lil nat * nat)
  : res (lil nat * lil nat * nat) :=
  let '(wavefronts, levels, depth) := s in
  let depth := S depth in
  levels <- apply (fun x : nat => depth * x) btrue idc (Acc Nat.add idc idc) mnomask
              REPLACE levels (Mat wavefronts) ;;
  wavefronts <- mxm lor_n land_n (fun (b : T) (a : nat) => land_n a b) idc idc ntrue idc
                  (NoAcc idc) (MComp levels) REPLACE
                  wavefronts (Mat wavefronts) (Mat graph) ;;
  Ok (wavefronts, levels, depth).

Definition batch_bfs_level_masked (n : nat) (graph : lil T) (wavefronts levels : lil nat)
  : res (option (lil nat)) :=
  if negb (nrows graph =? ncols graph) || negb (ncols wavefronts =? nrows graph)
  then Throw DimensionException
  else
    r <- mwhile n (fun s => has_vals (nvals (fst (fst s)))) (bfs_batch_body graph)
           (wavefronts, levels, 0) ;;
    Ok (option_map (fun s => snd (fst s)) r).

(** ** [bfs_level(graph, wavefront, levels)] on matrices (deprecated), bfs.hpp:321-361 *)
Definition bfs_level_m_body (graph : lil T) (s : lil nat * lil nat * nat)
  : res (lil nat * lil nat * nat) :=
  let '(wavefront, levels, depth) := s in
  let depth := S depth in
  levels <- apply (fun x : nat => depth * x) btrue idc (Acc Nat.add idc idc) mnomask
              REPLACE levels (Mat wavefront) ;;
  wavefront <- mxm lor_n land_n (fun (b : T) (a : nat) => land_n a b) idc idc btrue idc
                 (NoAcc idc) mnomask REPLACE wavefront (Mat wavefront) (Mat graph) ;;
  wavefront <- apply idc ntrue idc (NoAcc idc) (MComp levels) REPLACE
                 wavefront (Mat wavefront) ;;
  Ok (wavefront, levels, depth).

Definition bfs_level_m (n : nat) (graph : lil T) (wavefront levels : lil nat)
  : res (option (lil nat)) :=
  r <- mwhile n (fun s => has_vals (nvals (fst (fst s)))) (bfs_level_m_body graph)
         (wavefront, levels, 0) ;;
  Ok (option_map (fun s => snd (fst s)) r).


(** ** [bfs_level_masked_v2(graph, wavefront, levels)], bfs.hpp:503-538 *)
Definition bfs_masked2_body (graph : lil T) (s : bvec nat * bvec nat * nat)
  : res (bvec nat * bvec nat * nat) :=
  let '(wavefront, levels, depth) := s in
  let depth := S depth in
  levels <- assign_const_v idc ntrue idc (NoAcc idc) (MVal wavefront) MERGE levels depth AllIdx ;;
  wavefront <- vxm lor_n land_n ntrue idc (NoAcc idc) (MComp levels) REPLACE
                 wavefront wavefront (Mat graph) ;;
  Ok (wavefront, levels, depth).

Definition bfs_level_masked_v2 (n : nat) (graph : lil T) (wavefront levels : bvec nat)
  : res (option (bvec nat)) :=
  if negb (nrows graph =? ncols graph) || negb (vsize wavefront =? nrows graph)
  then Throw DimensionException
  else
    r <- mwhile n (fun s => has_vals (vnvals (fst (fst s)))) (bfs_masked2_body graph)
           (wavefront, levels, 0) ;;
    Ok (option_map (fun s => snd (fst s)) r).
End Bfs.

(** ** The searches that compute in the scalar type of the graph.  Wavefronts and parents are
    [IndexType]; [it] and [ti] are the conversions from [IndexType] to [T] and back, [tmin]
    and [tplus] are [Min<T>] and [Plus<T>]. *)
Section BfsT.
Context {T : Type} (it : nat -> T) (ti : T -> nat) (tmin tplus : T -> T -> T).

(** [bfs(graph, wavefront, parent_list)], bfs.hpp:125-182; the body of the loop, 158-181. *)
Definition bfs_w_body (ramp : bvec nat) (graph : lil T) (s : bvec nat * bvec nat)
  : res (bvec nat * bvec nat) :=
  let '(wavefront, parent_list) := s in
  wavefront <- eWiseMult_v (fun a _ : nat => a) btrue idc (NoAcc idc) vnomask MERGE
                 wavefront ramp wavefront ;;
  wavefront <- vxm tmin (fun (a : nat) (_ : T) => it a) ntrue ti (NoAcc idc)
                 (MSComp parent_list) REPLACE wavefront wavefront (Mat graph) ;;
  parent_list <- apply_v it btrue ti (Acc (fun p x => tplus (it p) x) it idc) vnomask MERGE
                   parent_list wavefront ;;
  Ok (wavefront, parent_list).

Definition bfs_w (n : nat) (graph : lil T) (wavefront parent_list : bvec nat)
  : res (option (bvec nat)) :=
  ramp <- index_ramp (nrows graph) ;;
  parent_list <- eWiseMult_v (fun a _ : nat => a) btrue idc (NoAcc idc) vnomask MERGE
                   parent_list ramp wavefront ;;
  parent_list <- eWiseMult_v (fun a _ : nat => a) btrue idc (NoAcc idc) vnomask MERGE
                   parent_list ramp parent_list ;;
  r <- mwhile n (fun s => has_vals (vnvals (fst s))) (bfs_w_body ramp graph)
         (wavefront, parent_list) ;;
  Ok (option_map snd r).

(** [bfs_batch(graph, wavefronts, parent_list)], bfs.hpp:203-254.  The index ramp is a
    diagonal matrix, 217-221. *)
Definition index_ramp_m (n : nat) : res (lil nat) :=
  mfor (seq 0 n) (fun i M => lil_setElement M i i i) (lil_new n n).

(** Replace the stored values by their column index: [mxm] with [MinSecondSemiring<T>] and
    the ramp, 224-227 and 232-235.  The multiplication takes (T, T). *)
Definition to_index (C wavefronts ramp : lil nat) : res (lil nat) :=
  mxm tmin (fun _ b : nat => it b) (fun b _ : nat => it b) ti it btrue ti (NoAcc idc) mnomask MERGE
    C (Mat wavefronts) (Mat ramp).

Definition bfs_batch_p_body (ramp : lil nat) (graph : lil T) (s : lil nat * lil nat)
  : res (lil nat * lil nat) :=
  let '(wavefronts, parent_list) := s in
  wavefronts <- to_index wavefronts wavefronts ramp ;;
  wavefronts <- mxm tmin (fun (a : nat) (_ : T) => it a) (fun (_ : T) (a : nat) => it a) ti it
                  ntrue ti (NoAcc idc) (MSComp parent_list) REPLACE
                  wavefronts (Mat wavefronts) (Mat graph) ;;
  parent_list <- apply it btrue ti (Acc (fun p x => tplus (it p) x) it idc) mnomask MERGE
                   parent_list (Mat wavefronts) ;;
  Ok (wavefronts, parent_list).

Definition bfs_batch (n : nat) (graph : lil T) (wavefronts parent_list : lil nat)
  : res (option (lil nat)) :=
  ramp <- index_ramp_m (nrows graph) ;;
  parent_list <- to_index parent_list wavefronts ramp ;;
  r <- mwhile n (fun s => has_vals (nvals (fst s))) (bfs_batch_p_body ramp graph)
         (wavefronts, parent_list) ;;
  Ok (option_map snd r).
End BfsT.
