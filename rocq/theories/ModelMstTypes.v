(** Model of the minimum spanning tree algorithm (Prim) over the built-in integer types and over [float] and
    [double].  /repo/src/algorithms/mst.hpp.  ModelMst is the same over the unbounded integers.
    [D] is the scalar type: [ltb] is [<], [plus] the addition followed by the conversion to the scalar type,
    [zero] the value 0.  The scalars of the integer types are results of operations ([ival], ModelInts.v): [chk] and
    [chkv] make an undefined result the result of the whole call. *)
From Coq Require Import ZArith Floats.SpecFloat.
From Verif Require Import Base ModelLil ModelVec ModelHelpers ModelViews ModelMul ModelElem ModelIndex ModelUtils
  ModelAlgoBase ModelAlgebra ModelFloat ModelInts ModelIntPaths.

Section Mst.
Context {D : Type} (ltb : D -> D -> bool) (plus : D -> D -> D) (zero : D)
  (chk : D -> res D) (chkv : bvec D -> res (bvec D)).

(** [MSTPlus], mst.hpp:51-58. *)
Definition gmst_plus (l : D) (r : nat * D) : D := plus l (snd r).
(** [MSTMin], mst.hpp:61-69. *)
Definition gmst_min (l r : nat * D) : nat * D := if ltb (snd l) (snd r) then l else r.
(** The loop of [argmin], mst.hpp:90-97. *)
Definition gargmin_step (best t : nat * D) : nat * D := if ltb (snd t) (snd best) then t else best.

(** [argmin], mst.hpp:75-99, as in ModelMst. *)
Definition gargmin (v : bvec D) : res nat :=
  if negb (has_vals (vnvals v)) then Throw PanicException else
  c <- vec_extractTuples v ;;
  if (Z.of_nat (length c) <=? vnvals v)%Z then
    match c ++ repeat (0, zero) (Z.to_nat (vnvals v) - length c) with
    | [] => UB
    | t :: r => Ok (fst (fold_left gargmin_step r t))
    end
  else UB.

(** The variables that live across iterations: [weight], [d], [mask], [s], [mst_parents]. *)
Record gmst_state := mkGmst {
  gmst_weight : D; gmst_d : bvec (nat * D); gmst_mask : bvec bool; gmst_s : bvec D;
  gmst_par : bvec nat }.

(** The body of the loop, mst.hpp:185-223. *)
Definition gmst_body (rows : nat) (A : lil (nat * D)) (s : gmst_state) : res gmst_state :=
  temp <- vec_new zero rows ;;
  temp <- eWiseMult_v gmst_plus btrue idc (NoAcc idc) vnomask MERGE temp (gmst_s s) (gmst_d s) ;;
  temp <- chkv temp ;;
  u <- gargmin temp ;;
  mask <- vec_setElement (gmst_mask s) u true ;;
  s' <- apply_v idc btrue idc (NoAcc idc) (MComp mask) REPLACE (gmst_s s) (gmst_s s) ;;
  iw <- vec_extractElement (gmst_d s) u ;;
  weight <- chk (plus (gmst_weight s) (snd iw)) ;;
  parents <- vec_setElement (gmst_par s) u (fst iw) ;;
  Arow <- vec_new (0, zero) (ncols A) ;;
  Arow <- extract_col btrue idc (NoAcc idc) vnomask MERGE Arow (Trn A) AllIdx u ;;
  d <- eWiseAdd_v gmst_min idc idc btrue idc (NoAcc idc) vnomask MERGE (gmst_d s) (gmst_d s) Arow ;;
  Ok (mkGmst weight d mask s' parents).

(** [mst], mst.hpp:122-226: the weight and the new parent list, or [None] when the loop has not
    ended after [n] tests of its condition. *)
Definition gmst (n : nat) (graph : lil D) (mst_parents : bvec nat) : res (option (D * bvec nat)) :=
  let rows := nrows graph in
  let cols := ncols graph in
  if negb (rows =? cols) || negb (rows =? vsize mst_parents) then Throw DimensionException
  else
    A <- build_or_throw (lil_new rows cols)
           (map (fun '(i, j, w) => (i, j, (i, w))) (lil_extractTuples graph)) ;;
    d <- vec_new (0, zero) rows ;;
    mask <- vec_new false rows ;;
    mask <- vec_setElement mask 0 true ;;
    s <- vec_new zero rows ;;
    s <- assign_const_v idc btrue idc (NoAcc idc) (MComp mask) REPLACE s zero AllIdx ;;
    let parents := vec_clear mst_parents in
    d <- extract_col btrue idc (NoAcc idc) vnomask MERGE d (Trn A) AllIdx 0 ;;
    o <- mwhile n (fun s => (vnvals (gmst_mask s) <? Z.of_nat rows)%Z) (gmst_body rows A)
           (mkGmst zero d mask s parents) ;;
    match o with
    | Some s => Ok (Some (gmst_weight s, gmst_par s))
    | None => Ok None
    end.
End Mst.

(** A single result: undefined makes the call undefined. *)
Definition defined (x : ival) : res ival := if is_ok x then Ok x else UB.

(** Over an integer type, and over a floating point type. *)
Definition imst (t : ctype) : nat -> lil ival -> bvec nat -> res (option (ival * bvec nat)) :=
  gmst iltb (op2 Plus t) (Ok 0%Z) defined defined_v.
Definition fmst (t : ftype) : nat -> lil fval -> bvec nat -> res (option (fval * bvec nat)) :=
  gmst SFltb (FPlus t) f0 (fun x => Ok x) (fun u => Ok u).
