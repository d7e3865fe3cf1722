(** Model of peer pressure clustering over any type of numbers, and over [double].  /repo/src/algorithms/cluster.hpp. *)
From Coq Require Import ZArith Floats.SpecFloat.
From Verif Require Import Base ModelLil ModelVec ModelHelpers ModelViews ModelMul ModelElem
  ModelIndex ModelUtils ModelAlgoBase ModelRank ModelCluster ModelFloat.
Local Open Scope nat_scope.

Section PeerPressure.
(** [RealT]: 0, its operators, [==], conversions from [bool] and from an index. *)
Context {R : Type} (zero : R) (plus times : R -> R -> R) (inv : R -> R) (rmax : R -> R -> R) (reqb : R -> R -> bool)
  (of_bool : bool -> R) (of_index : nat -> R).

(** [PlusEqualSemiring<RealT, RealT, bool>], cluster.hpp:37-39: [Plus<bool>] is a disjunction. *)
Definition rt_mul_eq (C : lil bool) (A B : lil R) : res (lil bool) :=
  mxm orb reqb (fun x y => reqb y x) idc idc btrue idc (NoAcc idc) mnomask MERGE C (Mat A) (Mat B).
(** The greatest value of each column, 214-217, 238-241, 379-382 and 399-402. *)
Definition rt_col_max (m : bvec R) (Tally : lil R) : res (bvec R) :=
  reduce idc rmax rmax btrue idc (NoAcc idc) vnomask MERGE m (Trn Tally).

(** One iteration, 207-255 and 373-414: the new values of [m], [Cf] and [Tally].  [ta] converts the
    values of [A] to real numbers. *)
Definition rt_pp_body {TA : Type} (ta : TA -> R) (A : lil TA) (nums : lil nat) (C : lil bool)
    (m : bvec R) (Cf : lil bool) (Tally : lil R) : res (bvec R * lil bool * lil R) :=
  Tally <- mxm plus (fun (c : bool) (a : TA) => times (of_bool c) (ta a)) (fun (a : TA) (c : bool) => times (ta a) (of_bool c))
             idc idc btrue idc (NoAcc idc) mnomask MERGE Tally (Mat C) (Mat A) ;;
  m <- rt_col_max m Tally ;;
  m_mat <- diag idc m ;;
  Cf <- rt_mul_eq Cf Tally m_mat ;;
  Tally <- mxm plus (fun (k : nat) (c : bool) => times (of_index k) (of_bool c)) (fun (c : bool) (k : nat) => times (of_bool c) (of_index k))
             idc idc btrue idc (NoAcc idc) (MVal Cf) REPLACE Tally (Mat nums) (Mat Cf) ;;
  m <- rt_col_max m Tally ;;
  d <- diag idc m ;;
  m_mat <- lil_assign m_mat d ;;
  Cf <- rt_mul_eq Cf Tally m_mat ;;
  Cf <- apply idc btrue idc (NoAcc idc) (MVal Cf) REPLACE Cf (Mat Cf) ;;
  Ok (m, Cf, Tally).

(** The loop, 204-263 and 371-422: [max_iters] is the number of iterations still allowed. *)
Fixpoint rt_pp_loop {TA : Type} (max_iters : nat) (ta : TA -> R) (A : lil TA) (nums : lil nat) (C : lil bool)
    (m : bvec R) (Cf : lil bool) (Tally : lil R) : res (lil bool) :=
  match max_iters with
  | O => Ok C
  | S k =>
      x <- rt_pp_body ta A nums C m Cf Tally ;;
      let '(m, Cf, Tally) := x in
      if lil_eqb Bool.eqb Cf C then Ok C
      else C <- lil_assign C Cf ;; rt_pp_loop k ta A nums C m Cf Tally
  end.

(** [T] is the scalar type of the graph, [tr] and [rt] the conversions to and from real numbers. *)
Context {T : Type} (tr : T -> R) (rt : R -> T).

(** The part before the loop up to [A], and the loop, 158-204 and 328-371. *)
Definition rt_pp_run {TA : Type} (makeA : res (lil TA)) (ta : TA -> R) (graph : lil T) (C : lil bool)
    (max_iters : nat) : res (lil bool) :=
  let N := ncols graph in
  if negb (nrows graph =? ncols graph) then Throw DimensionException else
  if negb (nrows graph =? nrows C) || negb (ncols graph =? ncols C) then Throw DimensionException else
  nums <- cluster_nums N ;;
  A <- makeA ;;
  m <- vec_new zero N ;;
  rt_pp_loop max_iters ta A nums C m (lil_new N N) (lil_new N N).

(** [peer_pressure_cluster], 153-265: the new [C]. *)
Definition rt_peer_pressure (graph : lil T) (C : lil bool) (max_iters : nat) : res (lil bool) :=
  let N := ncols graph in
  rt_pp_run (A <- apply tr btrue idc (NoAcc idc) mnomask MERGE (lil_new N N) (Mat graph) ;;
             normalize_rows zero plus times inv A) idc graph C max_iters.
(** [peer_pressure_cluster_v2], 323-425: [A] has the scalar type of the graph. *)
Definition rt_peer_pressure_v2 (graph : lil T) (C : lil bool) (max_iters : nat) : res (lil bool) :=
  let N := ncols graph in
  rt_pp_run (apply tr btrue idc (NoAcc rt) mnomask MERGE (lil_new N N) (Mat graph)) tr graph C max_iters.
End PeerPressure.

(** A [bool] and an index converted to [double]. *)
Definition double_of_bool (b : bool) : fval := if b then f1 CDouble else f0.
Definition double_of_index (n : nat) : fval := of_int CDouble (Z.of_nat n).
(** The two functions with [RealT] = [double], the default. *)
Definition dpeer_pressure_cluster {T : Type} (tr : T -> fval) : lil T -> lil bool -> nat -> res (lil bool) :=
  rt_peer_pressure f0 (FPlus CDouble) (FTimes CDouble) (FMultiplicativeInverse CDouble) (FMax CDouble) FEqual
    double_of_bool double_of_index tr.
Definition dpeer_pressure_cluster_v2 {T : Type} (tr : T -> fval) (rt : fval -> T) : lil T -> lil bool -> nat -> res (lil bool) :=
  rt_peer_pressure_v2 f0 (FPlus CDouble) (FTimes CDouble) (FMax CDouble) FEqual
    double_of_bool double_of_index tr rt.
(** The variant that starts with one cluster per vertex, 292-301. *)
Definition dpeer_pressure_cluster_start {T : Type} (tr : T -> fval) (graph : lil T) (max_iters : nat) : res (lil bool) :=
  C <- scaled_identity (nrows graph) true ;;
  dpeer_pressure_cluster tr graph C max_iters.
