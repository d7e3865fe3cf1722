(** Model of the demonstration programs that compute on a graph given by the user: what
    triangle_count_demo, louvain_demo and k_truss_demo make of their input.  /repo/src/demo.
    A file is the list of its lines, each with the numbers that [operator>>] reads; text that is
    not a number is not modelled, nor are the printing and the timers. *)
From Verif Require Import Base ModelLil ModelVec ModelHelpers ModelViews ModelMul ModelElem
  ModelIndex ModelUtils ModelAlgoBase ModelTriangle ModelTruss.

(** The loop [while (infile) { infile >> src >> dst; ... }], triangle_count_demo.cpp:62-88 and
    107-115, louvain_demo.cpp:56-71.  [body] is the rest of the loop, which may change the
    variables.  The stream fails only when a read finds nothing left; that read leaves the
    variables as they were (their values in the previous iteration, nothing before the first one),
    and the body is executed once more with them. *)
Fixpoint read_loop {A : Type} (body : A -> A) (vars : option A) (lines : list A) : res (list A) :=
  match lines with
  | [] => match vars with
          | None => UB
          | Some x => Ok [body x]
          end
  | x :: rest => l <- read_loop body (Some (body x)) rest ;; Ok (body x :: l)
  end.

(** ** triangle_count_demo.cpp *)

(** [max_id], triangle_count_demo.cpp:56, 66-67.  Vertex numbers are [uint64_t] there. *)
Definition max_id (ps : list (nat * nat)) : nat :=
  fold_left (fun m '(src, dst) => Nat.max (Nat.max m src) dst) ps 0.

(** The vector [degrees] before it is sorted, triangle_count_demo.cpp:99-115: pairs of a vertex's
    number of edges in the file (loops not counted) and the vertex.  Here the edges of each vertex
    are counted at once. *)
Definition degrees (n : nat) (ps : list (nat * nat)) : list (nat * nat) :=
  map (fun u => (length (filter (fun '(src, dst) => (src =? u) && negb (src =? dst)) ps), u)) (seq 0 n).

(** The program, triangle_count_demo.cpp:51-197: the five counts it prints.  [sort] is
    [std::sort] with the comparison of line 118, which may put vertices of the same degree in
    any order.  The relabelling of lines 121-126 replaces every vertex by the one that stands at its
    position of the sorted vector.  The scalar type [int32_t] is replaced by the integers. *)
Definition triangle_count_demo (sort : list (nat * nat) -> list (nat * nat)) (lines : list (nat * nat))
  : res (list Z) :=
  ps <- read_loop idc None lines ;;
  let n := S (max_id ps) in
  let sorted := sort (degrees n ps) in
  let label u := snd (nth u sorted (0, 0)) in
  let matrix (keep : nat * nat -> bool) :=
    build_or_throw (lil_new n n) (map (fun '(i, j) => (label i, label j, 1%Z)) (filter keep ps)) in
  A <- matrix (fun '(src, dst) => (src <? dst) || (dst <? src)) ;;
  L <- matrix (fun '(src, dst) => dst <? src) ;;
  U <- matrix (fun '(src, dst) => src <? dst) ;;
  c1 <- triangle_count A ;;
  c2 <- triangle_count_masked_LU L U ;;
  c3 <- triangle_count_masked L ;;
  c4 <- triangle_count_masked_noT L ;;
  c5 <- triangle_count_newGBTL (Mat L) U ;;
  Ok [c1; c2; c3; c4; c5].

(** ** louvain_demo.cpp *)

(** The variables [src], [dst], [weight] of type [uint64_t]; the body subtracts 1 from the
    vertices, louvain_demo.cpp:59-60. *)
Definition louvain_line : Type := Z * Z * Z.
Definition decrement (v : louvain_line) : louvain_line :=
  let '(src, dst, weight) := v in (((src - 1) mod 2 ^ 64)%Z, ((dst - 1) mod 2 ^ 64)%Z, weight).

(** The matrix [A] that is clustered, louvain_demo.cpp:48-80.  The weights, which are converted to
    [double], are kept as integers. *)
Definition louvain_demo_graph (lines : list louvain_line) : res (lil Z) :=
  ps <- read_loop decrement None lines ;;
  let max_id := fold_left (fun m '(src, dst, _) => Z.max (Z.max m src) dst) ps 0%Z in
  let n := Z.to_nat ((max_id + 1) mod 2 ^ 64) in
  build_or_throw (lil_new n n) (map (fun '(src, dst, w) => (Z.to_nat src, Z.to_nat dst, w)) ps).

(** ** k_truss_demo.cpp *)

(** The incidence matrix of the pairs [(i[ix], j[ix])] with [i[ix] < j[ix]], one row for each,
    k_truss_demo.cpp:119-142. *)
Definition demo_incidence (ps : list (nat * nat)) : res (lil Z) :=
  let es := filter (fun '(a, b) => a <? b) ps in
  let n := S (max_id es) in
  build_or_throw (lil_new (length es) n)
    (concat (map (fun '(e, (a, b)) => [(e, a, 1%Z); (e, b, 1%Z)]) (combine (seq 0 (length es)) es))).

(** The calls of [k_truss] with the numbers [ks], each on the result of the call before,
    k_truss_demo.cpp:147-162. *)
Fixpoint truss_chain (n : nat) (E : lil Z) (ks : list nat) : res (option (list (lil Z))) :=
  match ks with
  | [] => Ok (Some [])
  | k :: ks => r <- k_truss n E k ;;
      match r with
      | None => Ok None
      | Some F => rest <- truss_chain n F ks ;; Ok (option_map (cons F) rest)
      end
  end.
