(** Model of Louvain clustering over any type of numbers, and over [double].  /repo/src/algorithms/cluster_louvain.hpp. *)
From Coq Require Import ZArith Floats.SpecFloat.
From Verif Require Import Base ModelLil ModelVec ModelHelpers ModelViews ModelMul ModelElem
  ModelIndex ModelUtils ModelAlgoBase ModelRank ModelMis ModelCluster ModelLouvain ModelFloat ModelClusterTypes.
Local Open Scope nat_scope.

Section Louvain.
(** [RealT]: 0, its operators, negation, [==], conversion from [bool], and the constants 2.0 and 0.0001. *)
Context {R : Type} (zero : R) (plus times div : R -> R -> R) (neg : R -> R) (rmax : R -> R -> R) (reqb : R -> R -> bool)
  (of_bool : bool -> R) (two small : R).
(** [T] is the scalar type of the graph, [tr] and [tb] its conversions to real numbers and to [bool], [tplus] is [Plus<T>]. *)
Context {T : Type} (tr : T -> R) (tb : T -> bool) (tplus : T -> T -> T).
(** The random numbers: [draw r j] is what [distribution(generator)] returns in the [r]-th round of
    tie breaking (counted over the whole call) for the element [j].  Every such call happens at most
    once, so that all sequences of random numbers are covered by all functions [draw].
    [fuel]: how often the loop that breaks ties may test its condition for one vertex. *)
Context (draw : nat -> nat -> R) (fuel : nat).

(** 204-216 and 445-455, with the value [kappa]: the elements of [q] that equal it.  ([Identity<T>]
    converts [true] to [T] and back, which does not change it.) *)
Definition rt_lv_equal (kappa : R) (t : bvec bool) (q : bvec R) : res (bvec bool) :=
  t <- apply_v (fun x => reqb x kappa) btrue idc (NoAcc idc) vnomask MERGE t q ;;
  apply_v idc btrue idc (NoAcc idc) (MVal t) REPLACE t t.
(** 199-201, 236-238, 440-442, 476-478: [MaxMonoid<RealT>].  Its identity matters only for a vector
    without elements, and then not for the equality test that follows, which finds no elements. *)
Definition rt_lv_max (q : bvec R) : res R :=
  reduce_vs zero idc rmax rmax idc (NoAcc idc) zero q.

(** The loop that breaks ties, 220-255 and 460-494.  The state is [t] and the number of the round. *)
Definition rt_lv_tie (rows : nat) (s : bvec bool * nat) : res (bvec bool * nat) :=
  let '(t, r) := s in
  p <- vec_new zero rows ;;
  p <- apply_v of_bool btrue idc (NoAcc idc) vnomask MERGE p t ;;
  let p := number_values (fun j x => plus (times x (draw r j)) small) p in
  max_p <- rt_lv_max p ;;
  t <- rt_lv_equal max_p t p ;;
  Ok (t, S r).
Definition rt_lv_break (rows : nat) (t : bvec bool) (r : nat) : res (option (bvec bool * nat)) :=
  mwhile fuel (fun '(t, _) => negb (vnvals t =? 1)%Z) (rt_lv_tie rows) (t, r).

(** The state of a sweep: [S], [S_row], [vertices_changed], the number of rounds of tie breaking, and
    [v], [q_mask], [q], [t], which live across iterations in the masked version only. *)
Record rt_lv_state := mkRLv {
  rlvS : lil bool; rlvRow : bvec bool; rlvCh : bool; rlvR : nat;
  rlvV : bvec R; rlvM : bvec bool; rlvQ : bvec R; rlvT : bvec bool }.

(** 180-186 and 406-412. *)
Definition rt_lv_subtract (i : nat) (k : bvec R) (m : R) (v : bvec R) : res (bvec R) :=
  ki <- vec_extractElement k i ;;
  apply_v (fun x => times x (div (neg ki) m)) btrue idc (Acc plus idc idc) vnomask MERGE v k.
(** The end of both bodies, 257-273 and 496-512. *)
Definition rt_lv_finish (rows i : nat) (S_row : bvec bool) (Sm : lil bool) (q : bvec R) (t : bvec bool) (s : rt_lv_state)
    (v : bvec R) (q_mask : bvec bool) : res (option rt_lv_state) :=
  kappa <- rt_lv_max q ;;
  t <- rt_lv_equal kappa t q ;;
  o <- rt_lv_break rows t (rlvR s) ;;
  match o with
  | None => Ok None
  | Some (t, r) =>
      Sm <- assign_row false idc btrue idc (NoAcc idc) vnomask MERGE Sm t i AllIdx ;;
      e <- vec_eqb Bool.eqb t S_row ;;
      Ok (Some (mkRLv Sm S_row (rlvCh s || negb e) r v q_mask q t))
  end.

(** The body of [louvain_cluster], 150-274: [v], [q] and [t] are new vectors. *)
Definition rt_lv_body (rows : nat) (ApAT : lil T) (k : bvec R) (m : R) (mask : bvec bool) (i : nat) (s : rt_lv_state)
  : res (option rt_lv_state) :=
  h <- vec_hasElement k i ;;
  if negb h then Ok (Some s) else
  x <- lv_clear rows i mask (rlvRow s) (rlvS s) ;;
  let '(S_row, Sm) := x in
  v <- vec_new zero rows ;;
  v <- extract_col btrue idc (NoAcc tr) vnomask MERGE v (Mat ApAT) AllIdx i ;;
  v <- rt_lv_subtract i k m v ;;
  q <- vec_new zero rows ;;
  q <- vxm plus (fun (x : R) (b : bool) => times x (of_bool b)) btrue idc (NoAcc idc) vnomask MERGE q v (Mat Sm) ;;
  t <- vec_new false rows ;;
  rt_lv_finish rows i S_row Sm q t s (rlvV s) (rlvM s).
(** The body of [louvain_cluster_masked], 377-513. *)
Definition rt_lv_body_masked (rows : nat) (ApAT : lil T) (k : bvec R) (m : R) (mask : bvec bool) (i : nat) (s : rt_lv_state)
  : res (option rt_lv_state) :=
  h <- vec_hasElement k i ;;
  if negb h then Ok (Some s) else
  x <- lv_clear rows i mask (rlvRow s) (rlvS s) ;;
  let '(S_row, Sm) := x in
  v <- extract_col btrue idc (NoAcc tr) vnomask MERGE (rlvV s) (Trn ApAT) AllIdx i ;;
  v <- rt_lv_subtract i k m v ;;
  q_mask <- extract_col btrue idc (NoAcc tb) vnomask MERGE (rlvM s) (Trn ApAT) AllIdx i ;;
  q_mask <- vxm orb andb btrue idc (NoAcc idc) vnomask MERGE q_mask q_mask (Mat Sm) ;;
  q <- vxm plus (fun (x : R) (b : bool) => times x (of_bool b)) btrue idc (NoAcc idc) (MVal q_mask) REPLACE (rlvQ s) v (Mat Sm) ;;
  rt_lv_finish rows i S_row Sm q (rlvT s) s v q_mask.

(** The outer loop, 142-291 and 369-530: [left] more iterations are allowed after this one, [iters] were done.
    [inr n] is the exception [n] of type [unsigned int]; [None]: the loop that breaks ties has not ended. *)
Fixpoint rt_lv_loop (left : nat) (iters : nat) (rows : nat) (body : nat -> rt_lv_state -> res (option rt_lv_state)) (s : rt_lv_state)
  : res (option (lil bool + nat)) :=
  o <- ofor (seq 0 rows) body (mkRLv (rlvS s) (rlvRow s) false (rlvR s) (rlvV s) (rlvM s) (rlvQ s) (rlvT s)) ;;
  match o with
  | None => Ok None
  | Some s' =>
      if rlvCh s' then
        match left with
        | O => Ok (Some (inr (iters + 1)))
        | S left' => rt_lv_loop left' (iters + 1) rows body s'
        end
      else Ok (Some (inl (rlvS s')))
  end.

(** 95-140 and 316-366, then the loop: a do-while loop runs at least once. *)
Definition rt_lv_run (body : nat -> lil T -> bvec R -> R -> bvec bool -> nat -> rt_lv_state -> res (option rt_lv_state))
    (graph : lil T) (max_iters : nat) : res (option (lil bool + nat)) :=
  let rows := nrows graph in
  if negb (rows =? ncols graph) then Throw DimensionException else
  ApAT <- transpose btrue idc (Acc tplus idc idc) mnomask MERGE graph (Mat graph) ;;
  k <- vec_new zero rows ;;
  k <- reduce tr (fun x y => plus (tr x) (tr y)) (fun x y => plus x (tr y)) btrue idc (NoAcc idc) vnomask MERGE k (Mat graph) ;;
  m <- reduce_vs zero idc plus plus idc (NoAcc idc) zero k ;;
  let m := div m two in
  Sm <- scaled_identity rows true ;;
  S_row <- vec_new false rows ;;
  mask <- vec_new false rows ;;
  mask <- assign_const_v idc btrue idc (NoAcc idc) vnomask MERGE mask true AllIdx ;;
  v <- vec_new zero rows ;;
  q_mask <- vec_new false rows ;;
  q <- vec_new zero rows ;;
  t <- vec_new false rows ;;
  rt_lv_loop (max_iters - 1) 0 rows (body rows ApAT k m mask) (mkRLv Sm S_row true 0 v q_mask q t).
Definition rt_louvain (graph : lil T) (max_iters : nat) : res (option (lil bool + nat)) :=
  rt_lv_run rt_lv_body graph max_iters.
Definition rt_louvain_masked (graph : lil T) (max_iters : nat) : res (option (lil bool + nat)) :=
  rt_lv_run rt_lv_body_masked graph max_iters.
End Louvain.

(** The constant 0.0001: the [double] closest to it. *)
Definition d_small : fval := FDiv CDouble (f1 CDouble) (of_int CDouble 10000).
(** The two functions with [RealT] = [double], the default. *)
Definition dlouvain_cluster {T : Type} (tr : T -> fval) (tplus : T -> T -> T) (draw : nat -> nat -> fval) (fuel : nat)
  : lil T -> nat -> res (option (lil bool + nat)) :=
  rt_louvain f0 (FPlus CDouble) (FTimes CDouble) (FDiv CDouble) (FAdditiveInverse CDouble) (FMax CDouble) FEqual
    double_of_bool (of_int CDouble 2) d_small tr tplus draw fuel.
Definition dlouvain_cluster_masked {T : Type} (tr : T -> fval) (tb : T -> bool) (tplus : T -> T -> T) (draw : nat -> nat -> fval)
    (fuel : nat) : lil T -> nat -> res (option (lil bool + nat)) :=
  rt_louvain_masked f0 (FPlus CDouble) (FTimes CDouble) (FDiv CDouble) (FAdditiveInverse CDouble) (FMax CDouble) FEqual
    double_of_bool (of_int CDouble 2) d_small tr tb tplus draw fuel.
