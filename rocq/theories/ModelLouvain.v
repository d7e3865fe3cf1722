(** Model of Louvain clustering.  /repo/src/algorithms/cluster_louvain.hpp.
    [RealT] ([double]) are rationals here: rounding is not modelled.  [T] is the scalar type of the
    graph, [tq] and [tb] its conversions to real numbers and to [bool], [tplus] is [Plus<T>]. *)
From Coq Require Import QArith Qcanon.
From Verif Require Import Base ModelLil ModelVec ModelHelpers ModelViews ModelMul ModelElem
  ModelIndex ModelUtils ModelAlgoBase ModelRank ModelMis ModelCluster.
Local Open Scope nat_scope.

(** [get_louvain_cluster_assignments], 51-72: the product of [MaxSecondSemiring] is its second operand. *)
Definition get_louvain_cluster_assignments {T : Type} (cluster_matrix : lil T) : res (bvec nat) :=
  clusters <- vec_new 0 (ncols cluster_matrix) ;;
  index_of_vec <- index_ramp (nrows cluster_matrix) ;;
  mxv nmax (fun (_ : T) (i : nat) => i) (fun (i : nat) (_ : T) => i) btrue idc (NoAcc idc) vnomask MERGE
    clusters (Mat cluster_matrix) index_of_vec.

(** A loop over a list whose body may not end. *)
Fixpoint ofor {I S : Type} (l : list I) (body : I -> S -> res (option S)) (s : S) : res (option S) :=
  match l with
  | [] => Ok (Some s)
  | i :: l' => o <- body i s ;; match o with Some s' => ofor l' body s' | None => Ok None end
  end.

Section Louvain.
Context {T : Type} (tq : T -> Qc) (tb : T -> bool) (tplus : T -> T -> T).
(** The random numbers: [draw r j] is what [distribution(generator)] returns in the [r]-th round of
    tie breaking (counted over the whole call) for the element [j].  Every such call happens at most
    once, so that all sequences of random numbers are covered by all functions [draw].
    [fuel]: how often the loop that breaks ties may test its condition for one vertex. *)
Context (draw : nat -> nat -> Qc) (fuel : nat).

(** 204-216 and 445-455, with the value [kappa]: the elements of [q] that equal it.  ([Identity<T>]
    converts [true] to [T] and back, which does not change it.) *)
Definition lv_equal (kappa : Qc) (t : bvec bool) (q : bvec Qc) : res (bvec bool) :=
  t <- apply_v (fun x => qeqb x kappa) btrue idc (NoAcc idc) vnomask MERGE t q ;;
  apply_v idc btrue idc (NoAcc idc) (MVal t) REPLACE t t.
(** 199-201, 236-238, 440-442, 476-478: [MaxMonoid<RealT>].  Its identity matters only for a vector
    without elements, and then not for the equality test that follows, which finds no elements. *)
Definition lv_max (q : bvec Qc) : res Qc :=
  reduce_vs 0%Qc idc qmax qmax idc (NoAcc idc) 0%Qc q.

(** The loop that breaks ties, 220-255 and 460-494.  The state is [t] and the number of the round. *)
Definition lv_tie (rows : nat) (s : bvec bool * nat) : res (bvec bool * nat) :=
  let '(t, r) := s in
  p <- vec_new 0%Qc rows ;;
  p <- apply_v bq btrue idc (NoAcc idc) vnomask MERGE p t ;;
  let p := number_values (fun j x => (x * draw r j + Q2Qc (1 # 10000))%Qc) p in
  max_p <- lv_max p ;;
  t <- lv_equal max_p t p ;;
  Ok (t, S r).
Definition lv_break (rows : nat) (t : bvec bool) (r : nat) : res (option (bvec bool * nat)) :=
  mwhile fuel (fun '(t, _) => negb (vnvals t =? 1)%Z) (lv_tie rows) (t, r).

(** The state of a sweep: [S], [S_row], [vertices_changed], the number of rounds of tie breaking, and
    [v], [q_mask], [q], [t], which live across iterations in the masked version only. *)
Record lv_state := mkLv {
  lvS : lil bool; lvRow : bvec bool; lvCh : bool; lvR : nat;
  lvV : bvec Qc; lvM : bvec bool; lvQ : bvec Qc; lvT : bvec bool }.

(** The beginning of both bodies, 156-170 and 383-397: [S_row] and the new [S]. *)
Definition lv_clear (rows i : nat) (mask S_row : bvec bool) (Sm : lil bool) : res (bvec bool * lil bool) :=
  S_row <- extract_col btrue idc (NoAcc idc) vnomask MERGE S_row (Trn Sm) AllIdx i ;;
  Mask <- assign_row false idc btrue idc (NoAcc idc) vnomask MERGE (lil_new rows rows) mask i AllIdx ;;
  Sm <- apply idc btrue idc (NoAcc idc) (MComp Mask) REPLACE Sm (Mat Sm) ;;
  Ok (S_row, Sm).
(** 180-186 and 406-412. *)
Definition lv_subtract (i : nat) (k : bvec Qc) (m : Qc) (v : bvec Qc) : res (bvec Qc) :=
  ki <- vec_extractElement k i ;;
  apply_v (fun x => (x * (- ki / m))%Qc) btrue idc (Acc Qcplus idc idc) vnomask MERGE v k.
(** The end of both bodies, 257-273 and 496-512. *)
Definition lv_finish (rows i : nat) (S_row : bvec bool) (Sm : lil bool) (q : bvec Qc) (t : bvec bool) (s : lv_state)
    (v : bvec Qc) (q_mask : bvec bool) : res (option lv_state) :=
  kappa <- lv_max q ;;
  t <- lv_equal kappa t q ;;
  o <- lv_break rows t (lvR s) ;;
  match o with
  | None => Ok None
  | Some (t, r) =>
      Sm <- assign_row false idc btrue idc (NoAcc idc) vnomask MERGE Sm t i AllIdx ;;
      e <- vec_eqb Bool.eqb t S_row ;;
      Ok (Some (mkLv Sm S_row (lvCh s || negb e) r v q_mask q t))
  end.

(** The body of [louvain_cluster], 150-274: [v], [q] and [t] are new vectors. *)
Definition lv_body (rows : nat) (ApAT : lil T) (k : bvec Qc) (m : Qc) (mask : bvec bool) (i : nat) (s : lv_state)
  : res (option lv_state) :=
  h <- vec_hasElement k i ;;
  if negb h then Ok (Some s) else
  x <- lv_clear rows i mask (lvRow s) (lvS s) ;;
  let '(S_row, Sm) := x in
  v <- vec_new 0%Qc rows ;;
  v <- extract_col btrue idc (NoAcc tq) vnomask MERGE v (Mat ApAT) AllIdx i ;;
  v <- lv_subtract i k m v ;;
  q <- vec_new 0%Qc rows ;;
  q <- vxm Qcplus (fun (x : Qc) (b : bool) => (x * bq b)%Qc) btrue idc (NoAcc idc) vnomask MERGE q v (Mat Sm) ;;
  t <- vec_new false rows ;;
  lv_finish rows i S_row Sm q t s (lvV s) (lvM s).
(** The body of [louvain_cluster_masked], 377-513. *)
Definition lv_body_masked (rows : nat) (ApAT : lil T) (k : bvec Qc) (m : Qc) (mask : bvec bool) (i : nat) (s : lv_state)
  : res (option lv_state) :=
  h <- vec_hasElement k i ;;
  if negb h then Ok (Some s) else
  x <- lv_clear rows i mask (lvRow s) (lvS s) ;;
  let '(S_row, Sm) := x in
  v <- extract_col btrue idc (NoAcc tq) vnomask MERGE (lvV s) (Trn ApAT) AllIdx i ;;
  v <- lv_subtract i k m v ;;
  q_mask <- extract_col btrue idc (NoAcc tb) vnomask MERGE (lvM s) (Trn ApAT) AllIdx i ;;
  q_mask <- vxm orb andb btrue idc (NoAcc idc) vnomask MERGE q_mask q_mask (Mat Sm) ;;
  q <- vxm Qcplus (fun (x : Qc) (b : bool) => (x * bq b)%Qc) btrue idc (NoAcc idc) (MVal q_mask) REPLACE (lvQ s) v (Mat Sm) ;;
  lv_finish rows i S_row Sm q (lvT s) s v q_mask.

(** The outer loop, 142-291 and 369-530: [left] more iterations are allowed after this one, [iters] were done.
    [inr n] is the exception [n] of type [unsigned int]; [None]: the loop that breaks ties has not ended. *)
Fixpoint lv_loop (left : nat) (iters : nat) (rows : nat) (body : nat -> lv_state -> res (option lv_state)) (s : lv_state)
  : res (option (lil bool + nat)) :=
  o <- ofor (seq 0 rows) body (mkLv (lvS s) (lvRow s) false (lvR s) (lvV s) (lvM s) (lvQ s) (lvT s)) ;;
  match o with
  | None => Ok None
  | Some s' =>
      if lvCh s' then
        match left with
        | O => Ok (Some (inr (iters + 1)))
        | S left' => lv_loop left' (iters + 1) rows body s'
        end
      else Ok (Some (inl (lvS s')))
  end.

(** 95-140 and 316-366, then the loop: a do-while loop runs at least once. *)
Definition lv_run (body : nat -> lil T -> bvec Qc -> Qc -> bvec bool -> nat -> lv_state -> res (option lv_state))
    (graph : lil T) (max_iters : nat) : res (option (lil bool + nat)) :=
  let rows := nrows graph in
  if negb (rows =? ncols graph) then Throw DimensionException else
  ApAT <- transpose btrue idc (Acc tplus idc idc) mnomask MERGE graph (Mat graph) ;;
  k <- vec_new 0%Qc rows ;;
  k <- reduce tq (fun x y => (tq x + tq y)%Qc) (fun x y => (x + tq y)%Qc) btrue idc (NoAcc idc) vnomask MERGE k (Mat graph) ;;
  m <- reduce_vs 0%Qc idc Qcplus Qcplus idc (NoAcc idc) 0%Qc k ;;
  let m := (m / Q2Qc 2)%Qc in
  Sm <- scaled_identity rows true ;;
  S_row <- vec_new false rows ;;
  mask <- vec_new false rows ;;
  mask <- assign_const_v idc btrue idc (NoAcc idc) vnomask MERGE mask true AllIdx ;;
  v <- vec_new 0%Qc rows ;;
  q_mask <- vec_new false rows ;;
  q <- vec_new 0%Qc rows ;;
  t <- vec_new false rows ;;
  lv_loop (max_iters - 1) 0 rows (body rows ApAT k m mask) (mkLv Sm S_row true 0 v q_mask q t).
Definition louvain_cluster (graph : lil T) (max_iters : nat) : res (option (lil bool + nat)) :=
  lv_run lv_body graph max_iters.
Definition louvain_cluster_masked (graph : lil T) (max_iters : nat) : res (option (lil bool + nat)) :=
  lv_run lv_body_masked graph max_iters.
End Louvain.
