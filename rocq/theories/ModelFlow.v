(** Model of the Ford-Fulkerson maximum flow algorithm.  /repo/src/algorithms/maxflow.hpp:251-406.
    Capacities are unbounded integers; the search only looks at which edges are stored. *)
From Verif Require Import Base ModelLil ModelVec ModelHelpers ModelViews ModelMul ModelElem
  ModelIndex ModelAlgoBase.

(** As [mwhile], for a condition that can throw. *)
Fixpoint mwhileM {S : Type} (n : nat) (cond : S -> res bool) (body : S -> res S) (s : S)
  : res (option S) :=
  match n with
  | O => Ok None
  | S n' => c <- cond s ;;
            if c then s' <- body s ;; mwhileM n' cond body s' else Ok (Some s)
  end.

(** The body of the search loop, maxflow.hpp:267-288: the state is [parent_list], [wavefront]. *)
Definition mf_bfs_body {T : Type} (graph : lil T) (ramp : bvec nat) (s : bvec nat * bvec nat)
  : res (bvec nat * bvec nat) :=
  let '(parents, w) := s in
  w <- eWiseMult_v (fun a _ : nat => a) btrue idc (NoAcc idc) vnomask MERGE w ramp w ;;
  w <- vxm nmin (fun (a : nat) (_ : T) => a) ntrue idc (NoAcc idc) (MSComp parents) REPLACE w w (Mat graph) ;;
  parents <- apply_v idc btrue idc (Acc Nat.add idc idc) vnomask MERGE parents w ;;
  Ok (parents, w).

(** The loop that marks the path, maxflow.hpp:298-304: the state is [M], [curr_vertex]. *)
Definition mf_path (n : nat) (parents : bvec nat) (source : nat) (s : lil bool * nat)
  : res (option (lil bool * nat)) :=
  mwhile n (fun '(_, c) => negb (c =? source))
    (fun '(M, c) =>
       p <- vec_extractElement parents c ;;
       M <- lil_setElement M p c true ;;
       Ok (M, p)) s.

(** [maxflow_bfs], maxflow.hpp:250-307: the value returned and [M], or [None] when one of the two
    loops has not ended after [n] tests of its condition. *)
Definition maxflow_bfs {T : Type} (n : nat) (graph : lil T) (source sink : nat) (ramp : bvec nat) (M : lil bool)
  : res (option (bool * lil bool)) :=
  parents <- vec_new 0 (nrows graph) ;;
  parents <- vec_setElement parents source source ;;
  w <- vec_new 0 (ncols graph) ;;
  w <- vec_setElement w source 1 ;;
  o <- mwhileM n
         (fun '(parents, w) =>
            h <- vec_hasElement parents sink ;; Ok (negb h && has_vals (vnvals w)))
         (mf_bfs_body graph ramp) (parents, w) ;;
  match o with
  | None => Ok None
  | Some (parents, _) =>
      h <- vec_hasElement parents sink ;;
      if negb h then Ok (Some (false, M))
      else
        o <- mf_path n parents source (lil_clear M, sink) ;;
        Ok (match o with None => None | Some (M, _) => Some (true, M) end)
  end.

(** A [bool] operand converted to the type of the capacities. *)
Definition zb (b : bool) : Z := if b then 1%Z else 0%Z.

(** The body of the loop of [maxflow_ford_fulk], maxflow.hpp:349-393: the state is [F], [R];
    [inf] is the identity of [MinMonoid<T>]. *)
Definition mf_augment (inf : Z) (num_nodes : nat) (graph : lil Z) (M : lil bool) (F R : lil Z)
  : res (lil Z * lil Z) :=
  G <- eWiseMult (fun b r => zb b * r)%Z (fun a b => zb a * zb b)%Z ztrue btrue idc (NoAcc idc) mnomask MERGE
         (lil_new num_nodes num_nodes) (Mat M) (Mat R) ;;
  gamma <- reduce_ms inf idc zmin zmin zmin idc (NoAcc idc) 0%Z G ;;
  GM <- apply (fun b => zb b * gamma)%Z btrue idc (NoAcc idc) mnomask MERGE
          (lil_new num_nodes num_nodes) (Mat M) ;;
  GM <- apply Z.opp btrue idc (Acc Z.add idc idc) mnomask MERGE GM (Trn GM) ;;
  F <- eWiseAdd Z.add idc idc Z.add idc idc btrue idc (NoAcc idc) mnomask REPLACE F (Mat F) (Mat GM) ;;
  mF <- apply Z.opp btrue idc (NoAcc idc) mnomask MERGE (lil_new num_nodes num_nodes) (Mat F) ;;
  R <- eWiseAdd Z.add idc idc Z.add idc idc btrue idc (NoAcc idc) mnomask REPLACE R (Mat graph) (Mat mF) ;;
  R <- apply idc ztrue idc (NoAcc idc) (MVal R) REPLACE R (Mat R) ;;
  Ok (F, R).

(** The loop, maxflow.hpp:342-395.  [count++] is compared before it is incremented; a search
    that succeeds after [graph.nvals()] iterations is not used. *)
Fixpoint mf_loop (n : nat) (inf : Z) (fuel : nat) (graph : lil Z) (source sink : nat) (ramp : bvec nat)
    (M : lil bool) (F R : lil Z) (count : Z) : res (option (lil Z)) :=
  match n with
  | O => Ok None
  | S n' =>
      b <- maxflow_bfs fuel R source sink ramp M ;;
      match b with
      | None => Ok None
      | Some (found, M) =>
          if found && (count <? nvals graph)%Z then
            FR <- mf_augment inf (nrows graph) graph M F R ;;
            mf_loop n' inf fuel graph source sink ramp M (fst FR) (snd FR) (count + 1)
          else Ok (Some F)
      end
  end.

(** [maxflow_ford_fulk], maxflow.hpp:309-406: the flow, or [None] when some loop has not ended
    after [n] tests of its condition.  The variable [parent_list] of this function is not used. *)
Definition maxflow_ford_fulk (inf : Z) (n : nat) (graph : lil Z) (source sink : nat) : res (option Z) :=
  let num_nodes := nrows graph in
  ramp <- vec_new 0 num_nodes ;;
  ramp <- vec_build 0 (fun _ b => b) ramp (map (fun i => (i, i)) (seq 0 num_nodes)) ;;
  o <- mf_loop n inf n graph source sink ramp (lil_new num_nodes num_nodes)
         (lil_new num_nodes num_nodes) graph 0 ;;
  match o with
  | None => Ok None
  | Some F =>
      sink_edges <- vec_new 0%Z num_nodes ;;
      sink_edges <- extract_col btrue idc (NoAcc idc) vnomask MERGE sink_edges (Mat F) AllIdx sink ;;
      max_flow <- reduce_vs 0%Z idc Z.add Z.add idc (NoAcc idc) 0%Z sink_edges ;;
      Ok (Some max_flow)
  end.
