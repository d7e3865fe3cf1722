(** Model of peer pressure clustering and Markov clustering.  /repo/src/algorithms/cluster.hpp.
    The real numbers ([double]) are rationals here: rounding is not modelled. *)
From Coq Require Import QArith Qcanon.
From Verif Require Import Base ModelLil ModelVec ModelHelpers ModelViews ModelMul ModelElem
  ModelIndex ModelUtils ModelAlgoBase ModelRank.
Local Open Scope nat_scope.

(** [grb::Max], algebra.hpp:295-299, and [grb::Equal], on real numbers. *)
Definition qmax (a b : Qc) : Qc := if Qclt_le_dec a b then b else a.
Definition qeqb (a b : Qc) : bool := if Qc_eq_dec a b then true else false.
(** A [bool] and an index converted to a real number ([qn] for the latter). *)
Definition bq (b : bool) : Qc := if b then 1%Qc else 0%Qc.

(** ** [get_cluster_assignments], cluster.hpp:57-85.  [tq] converts a stored value to [double].
    [None] is the largest index, the value of a vertex without cluster.  The arrays are indexed by
    column but have as many elements as there are rows: an access beyond them is undefined. *)
Definition assign_step (s : list Qc * list (option nat)) (t : nat * nat * Qc)
  : res (list Qc * list (option nat)) :=
  let '(max_vals, clusters) := s in
  let '(cluster, vertex, x) := t in
  y <- vat max_vals vertex ;;
  if Qclt_le_dec y x then
    max_vals <- vset max_vals vertex x ;;
    clusters <- vset clusters vertex (Some cluster) ;;
    Ok (max_vals, clusters)
  else Ok (max_vals, clusters).
Definition get_cluster_assignments {T : Type} (tq : T -> Qc) (cluster_matrix : lil T) : res (list (option nat)) :=
  let num_nodes := nrows cluster_matrix in
  s <- mfor (map (fun '(i, j, x) => (i, j, tq x)) (lil_extractTuples cluster_matrix))
         (fun t s => assign_step s t)
         (repeat (- (1))%Qc num_nodes, repeat None num_nodes) ;;
  Ok (snd s).

(** [grb::Max] on indices. *)
Definition nmax (a b : nat) : nat := if a <? b then b else a.
(** [get_cluster_assignments_v2], 100-121: the product of [MaxFirstSemiring] is its first operand. *)
Definition get_cluster_assignments_v2 {T : Type} (cluster_matrix : lil T) : res (bvec nat) :=
  clusters <- vec_new 0 (ncols cluster_matrix) ;;
  index_of_vec <- index_ramp (nrows cluster_matrix) ;;
  vxm nmax (fun (i : nat) (_ : T) => i) btrue idc (NoAcc idc) vnomask MERGE clusters index_of_vec (Mat cluster_matrix).

(** ** Peer pressure clustering *)

(** [cluster_num_mat], 182-187 and 350-355. *)
Definition cluster_nums (N : nat) : res (lil nat) :=
  mfor (seq 0 N) (fun ix M => lil_setElement M ix ix (ix + 1)) (lil_new N N).
(** [PlusEqualSemiring<RealT, RealT, bool>], 37-39: [Plus<bool>] is a disjunction. *)
Definition mul_eq (C : lil bool) (A B : lil Qc) : res (lil bool) :=
  mxm orb qeqb (fun x y => qeqb y x) idc idc btrue idc (NoAcc idc) mnomask MERGE C (Mat A) (Mat B).
(** The greatest value of each column, 214-217, 238-241, 379-382 and 399-402. *)
Definition col_max (m : bvec Qc) (Tally : lil Qc) : res (bvec Qc) :=
  reduce idc qmax qmax btrue idc (NoAcc idc) vnomask MERGE m (Trn Tally).

(** One iteration, 207-255 and 373-414: the new values of [m], [Cf] and [Tally].  [ta] converts the
    values of [A] to real numbers. *)
Definition pp_body {TA : Type} (ta : TA -> Qc) (A : lil TA) (nums : lil nat) (C : lil bool)
    (m : bvec Qc) (Cf : lil bool) (Tally : lil Qc) : res (bvec Qc * lil bool * lil Qc) :=
  Tally <- mxm Qcplus (fun (c : bool) (a : TA) => (bq c * ta a)%Qc) (fun (a : TA) (c : bool) => (ta a * bq c)%Qc)
             idc idc btrue idc (NoAcc idc) mnomask MERGE Tally (Mat C) (Mat A) ;;
  m <- col_max m Tally ;;
  m_mat <- diag idc m ;;
  Cf <- mul_eq Cf Tally m_mat ;;
  Tally <- mxm Qcplus (fun (k : nat) (c : bool) => (qn k * bq c)%Qc) (fun (c : bool) (k : nat) => (bq c * qn k)%Qc)
             idc idc btrue idc (NoAcc idc) (MVal Cf) REPLACE Tally (Mat nums) (Mat Cf) ;;
  m <- col_max m Tally ;;
  d <- diag idc m ;;
  m_mat <- lil_assign m_mat d ;;
  Cf <- mul_eq Cf Tally m_mat ;;
  Cf <- apply idc btrue idc (NoAcc idc) (MVal Cf) REPLACE Cf (Mat Cf) ;;
  Ok (m, Cf, Tally).

(** The loop, 204-263 and 371-422: [max_iters] is the number of iterations still allowed. *)
Fixpoint pp_loop {TA : Type} (max_iters : nat) (ta : TA -> Qc) (A : lil TA) (nums : lil nat) (C : lil bool)
    (m : bvec Qc) (Cf : lil bool) (Tally : lil Qc) : res (lil bool) :=
  match max_iters with
  | O => Ok C
  | S k =>
      x <- pp_body ta A nums C m Cf Tally ;;
      let '(m, Cf, Tally) := x in
      if lil_eqb Bool.eqb Cf C then Ok C
      else C <- lil_assign C Cf ;; pp_loop k ta A nums C m Cf Tally
  end.

Section PeerPressure.
(** [T] is the scalar type of the graph, [tq] and [qt] the conversions to and from real numbers. *)
Context {T : Type} (tq : T -> Qc) (qt : Qc -> T).

(** The part before the loop up to [A], and the loop. *)
Definition pp_run {TA : Type} (makeA : res (lil TA)) (ta : TA -> Qc) (graph : lil T) (C : lil bool)
    (max_iters : nat) : res (lil bool) :=
  let N := ncols graph in
  if negb (nrows graph =? ncols graph) then Throw DimensionException else
  if negb (nrows graph =? nrows C) || negb (ncols graph =? ncols C) then Throw DimensionException else
  nums <- cluster_nums N ;;
  A <- makeA ;;
  m <- vec_new 0%Qc N ;;
  pp_loop max_iters ta A nums C m (lil_new N N) (lil_new N N).

(** [peer_pressure_cluster], 153-265: the new [C]. *)
Definition peer_pressure_cluster (graph : lil T) (C : lil bool) (max_iters : nat) : res (lil bool) :=
  let N := ncols graph in
  pp_run (A <- apply tq btrue idc (NoAcc idc) mnomask MERGE (lil_new N N) (Mat graph) ;;
          normalize_rows 0%Qc Qcplus Qcmult Qcinv A) idc graph C max_iters.
(** The variant that starts with one cluster per vertex, 292-301. *)
Definition peer_pressure_cluster_start (graph : lil T) (max_iters : nat) : res (lil bool) :=
  C <- scaled_identity (nrows graph) true ;;
  peer_pressure_cluster graph C max_iters.
(** [peer_pressure_cluster_v2], 323-425: [A] has the scalar type of the graph. *)
Definition peer_pressure_cluster_v2 (graph : lil T) (C : lil bool) (max_iters : nat) : res (lil bool) :=
  let N := ncols graph in
  pp_run (apply tq btrue idc (NoAcc qt) mnomask MERGE (lil_new N N) (Mat graph)) tq graph C max_iters.
End PeerPressure.

(** ** [markov_cluster], 444-533, for powers [e] and [r] of at least 1 (for 0, [e - 1] wraps around
    to the largest index). *)
Fixpoint times {S : Type} (n : nat) (f : S -> res S) (s : S) : res S :=
  match n with O => Ok s | S k => s' <- f s ;; times k f s' end.
(** 479-488: the expansion is masked by the values computed so far. *)
Definition mk_expand (e : nat) (Anorm : lil Qc) : res (lil Qc) :=
  times (e - 1) (fun Apower => mxm Qcplus Qcmult Qcmult idc idc qtrue idc (NoAcc idc) (MVal Apower) REPLACE
                                 Apower (Mat Apower) (Mat Anorm)) Anorm.
(** 491-501. *)
Definition mk_inflate (r : nat) (Apower : lil Qc) : res (lil Qc) :=
  Ainfl <- times (r - 1) (fun Ainfl => eWiseMult Qcmult Qcmult idc qtrue idc (NoAcc idc) (MVal Ainfl) REPLACE
                                         Ainfl (Mat Ainfl) (Mat Apower)) Apower ;;
  normalize_cols 0%Qc Qcplus Qcmult Qcinv Ainfl.
(** 505-519. *)
Definition mk_error (rows : nat) (Anorm Ainfl : lil Qc) : res Qc :=
  E <- eWiseAdd Qcminus idc idc Qcminus idc idc btrue idc (NoAcc idc) mnomask MERGE (lil_new rows rows) (Mat Anorm) (Mat Ainfl) ;;
  E <- eWiseMult Qcmult Qcmult idc btrue idc (NoAcc idc) mnomask MERGE E (Mat E) (Mat E) ;;
  err <- reduce_ms 0%Qc idc Qcplus Qcplus Qcplus idc (NoAcc idc) 0%Qc E ;;
  Ok (err / (qn rows * qn rows))%Qc.
(** 472-532. *)
Fixpoint mk_loop (max_iters rows e r : nat) (threshold : Qc) (Anorm : lil Qc) : res (lil Qc) :=
  match max_iters with
  | O => Ok Anorm
  | S k =>
      Apower <- mk_expand e Anorm ;;
      Ainfl <- mk_inflate r Apower ;;
      err <- mk_error rows Anorm Ainfl ;;
      if Qclt_le_dec err threshold then Ok Ainfl
      else Anorm <- lil_assign Anorm Ainfl ;; mk_loop k rows e r threshold Anorm
  end.
Definition markov_cluster {T : Type} (tq : T -> Qc) (graph : lil T) (e r : nat) (threshold : Qc) (max_iters : nat)
  : res (lil Qc) :=
  let rows := nrows graph in
  let cols := ncols graph in
  if negb (rows =? cols) then Throw DimensionException else
  Anorm <- apply tq btrue idc (NoAcc idc) mnomask MERGE (lil_new rows cols) (Mat graph) ;;
  Anorm <- normalize_cols 0%Qc Qcplus Qcmult Qcinv Anorm ;;
  mk_loop max_iters rows e r threshold Anorm.
