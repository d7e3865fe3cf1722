(** Model of the minimum spanning tree algorithm (Prim).  /repo/src/algorithms/mst.hpp.
    Weights are unbounded integers; [MSTType<T>] is [nat * Z], its default value [(0, 0)]. *)
From Verif Require Import Base ModelLil ModelVec ModelHelpers ModelViews ModelMul ModelElem
  ModelIndex ModelUtils ModelAlgoBase.

(** [MSTPlus], mst.hpp:51-58. *)
Definition mst_plus (l : Z) (r : nat * Z) : Z := (l + snd r)%Z.

(** [MSTMin], mst.hpp:61-69. *)
Definition mst_min (l r : nat * Z) : nat * Z := if (snd l <? snd r)%Z then l else r.

(** The loop of [argmin], mst.hpp:90-97. *)
Definition argmin_step (best t : nat * Z) : nat * Z := if (snd t <? snd best)%Z then t else best.

(** [argmin], mst.hpp:75-99.  The arrays have room for [nvals] elements; with no stored
    element although [nvals] is positive they keep their initial zeros, with fewer than [nvals]
    the remaining zeros take part. *)
Definition argmin (v : bvec Z) : res nat :=
  if negb (has_vals (vnvals v)) then Throw PanicException else
  c <- vec_extractTuples v ;;
  if (Z.of_nat (length c) <=? vnvals v)%Z then
    match c ++ repeat (0, 0%Z) (Z.to_nat (vnvals v) - length c) with
    | [] => UB
    | t :: r => Ok (fst (fold_left argmin_step r t))
    end
  else UB.

(** The variables that live across iterations: [weight], [d], [mask], [s], [mst_parents]. *)
Record mst_state := mkMst {
  mst_weight : Z; mst_d : bvec (nat * Z); mst_mask : bvec bool; mst_s : bvec Z;
  mst_par : bvec nat }.

(** The body of the loop, mst.hpp:185-223. *)
Definition mst_body (rows : nat) (A : lil (nat * Z)) (s : mst_state) : res mst_state :=
  temp <- vec_new 0%Z rows ;;
  temp <- eWiseMult_v mst_plus btrue idc (NoAcc idc) vnomask MERGE temp (mst_s s) (mst_d s) ;;
  u <- argmin temp ;;
  mask <- vec_setElement (mst_mask s) u true ;;
  s' <- apply_v idc btrue idc (NoAcc idc) (MComp mask) REPLACE (mst_s s) (mst_s s) ;;
  iw <- vec_extractElement (mst_d s) u ;;
  parents <- vec_setElement (mst_par s) u (fst iw) ;;
  Arow <- vec_new (0, 0%Z) (ncols A) ;;
  Arow <- extract_col btrue idc (NoAcc idc) vnomask MERGE Arow (Trn A) AllIdx u ;;
  d <- eWiseAdd_v mst_min idc idc btrue idc (NoAcc idc) vnomask MERGE (mst_d s) (mst_d s) Arow ;;
  Ok (mkMst (mst_weight s + snd iw) d mask s' parents).

(** [mst], mst.hpp:122-226: the weight and the new parent list, or [None] when the loop has not
    ended after [n] tests of its condition. *)
Definition mst (n : nat) (graph : lil Z) (mst_parents : bvec nat) : res (option (Z * bvec nat)) :=
  let rows := nrows graph in
  let cols := ncols graph in
  if negb (rows =? cols) || negb (rows =? vsize mst_parents) then Throw DimensionException
  else
    A <- build_or_throw (lil_new rows cols)
           (map (fun '(i, j, w) => (i, j, (i, w))) (lil_extractTuples graph)) ;;
    d <- vec_new (0, 0%Z) rows ;;
    mask <- vec_new false rows ;;
    mask <- vec_setElement mask 0 true ;;
    s <- vec_new 0%Z rows ;;
    s <- assign_const_v idc btrue idc (NoAcc idc) (MComp mask) REPLACE s 0%Z AllIdx ;;
    let parents := vec_clear mst_parents in
    d <- extract_col btrue idc (NoAcc idc) vnomask MERGE d (Trn A) AllIdx 0 ;;
    o <- mwhile n (fun s => (vnvals (mst_mask s) <? Z.of_nat rows)%Z) (mst_body rows A)
           (mkMst 0 d mask s parents) ;;
    match o with
    | Some s => Ok (Some (mst_weight s, mst_par s))
    | None => Ok None
    end.
