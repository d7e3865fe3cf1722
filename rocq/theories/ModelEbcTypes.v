(** Model of [edge_betweenness_centrality] with the built-in types of C++.  /repo/src/algorithms/bc.hpp:1158-1297.
    ModelBc has numbers without bounds.  Here a scalar may be the outcome of an undefined operation ([def] is false of it), and a
    call in which some result is undefined is undefined.  [eWiseMult] and [vxm] compute all elements before they apply a mask
    (sparse_vxm.hpp:48-95, sparse_ewisemult.hpp:51-94), so that the results at masked positions count too. *)
From Coq Require Import ZArith Floats.SpecFloat.
From Verif Require Import Base ModelLil ModelVec ModelHelpers ModelViews ModelMul ModelElem
  ModelIndex ModelUtils ModelAlgoBase ModelAlgebra ModelOps ModelInts ModelBc ModelBc32 ModelFloat ModelFsssp ModelConv.
Local Open Scope nat_scope.

Section Numbers.
(** [Plus], [Times], [Div], the conversion of an index, the conversion to [bool]; [tbi] is the conversion to [int32_t] and then to
    [bool] ([Identity<int32_t, bool>]). *)
Context {T : Type} (def : T -> bool) (add mul div : T -> T -> T) (ofn : nat -> T) (tb : T -> bool) (tbi : T -> res bool).
Context (n : nat) (graph : lil T).

(** No stored element is undefined. *)
Definition def_v (u : bvec T) : res (bvec T) :=
  if forallb (fun e : bool * T => negb (fst e) || def (snd e)) (combine (vbits u) (vvals u)) then Ok u else UB.
Definition def_m (M : lil T) : res (lil T) :=
  if forallb (fun r => forallb (fun e => def (snd e)) r) (data M) then Ok M else UB.
(** Every stored element is converted by [tbi]. *)
Definition conv_v (u : bvec T) : res unit :=
  if forallb (fun e : bool * T => negb (fst e) || match tbi (snd e) with Ok _ => true | _ => false end) (combine (vbits u) (vvals u))
  then Ok tt else UB.
Definition tbi' (x : T) : bool := match tbi x with Ok b => b | _ => false end.

(** 1196-1225 *)
Definition xe_body (s : vbs) : res vbs :=
  let '(frontier, nsp, search) := s in
  Sg <- vec_new false (nrows graph) ;;
  _ <- conv_v frontier ;;
  Sg <- apply_v tbi' btrue idc (NoAcc idc) vnomask MERGE Sg frontier ;;
  nsp <- eWiseAdd_v add idc idc btrue idc (NoAcc idc) vnomask REPLACE nsp nsp frontier ;;
  nsp <- def_v nsp ;;
  t <- vxm add mul btrue idc (NoAcc idc) vnomask REPLACE frontier frontier (Mat graph) ;;
  _ <- def_v t ;;
  frontier <- vxm add mul tb idc (NoAcc idc) (MComp nsp) REPLACE frontier frontier (Mat graph) ;;
  Ok (frontier, nsp, search ++ [Sg]).
(** 1227-1294 *)
Definition xe_back (nsp : bvec T) (search : list (bvec bool)) (depth : nat) (s : lil T * lil T * bvec T)
  : res (lil T * lil T * bvec T) :=
  let '(score, update, flow) := s in
  let N := nrows graph in
  weights <- vec_new (ofn 0) N ;;
  Sd <- sigma_at search depth ;;
  t <- eWiseMult_v div btrue idc (NoAcc idc) vnomask MERGE weights flow nsp ;;
  _ <- def_v t ;;
  weights <- eWiseMult_v div btrue idc (NoAcc idc) (MVal Sd) MERGE weights flow nsp ;;
  weights <- eWiseAdd_v (fun x (b : bool) => add x (ofn (if b then 1 else 0))) idc
               (fun b : bool => ofn (if b then 1 else 0)) btrue idc (NoAcc idc) vnomask MERGE weights weights Sd ;;
  weights <- def_v weights ;;
  wmat <- ebc_diag graph weights ;;
  update <- mxm add mul mul idc idc btrue idc (NoAcc idc) mnomask MERGE update (Mat graph) (Mat wmat) ;;
  update <- def_m update ;;
  Sp <- sigma_at search (depth - 1) ;;
  weights <- apply_v idc btrue idc (NoAcc idc) (MVal Sp) REPLACE weights nsp ;;
  wmat <- ebc_diag graph weights ;;
  update <- mxm add mul mul idc idc btrue idc (NoAcc idc) mnomask MERGE update (Mat wmat) (Mat update) ;;
  update <- def_m update ;;
  score <- eWiseAdd add idc idc add idc idc btrue idc (NoAcc idc) mnomask MERGE score (Mat score) (Mat update) ;;
  score <- def_m score ;;
  flow <- reduce idc add add btrue idc (NoAcc idc) vnomask MERGE flow (Mat update) ;;
  flow <- def_v flow ;;
  Ok (score, update, flow).
(** 1174-1295 *)
Definition xe_source (root : nat) (score : lil T) : res (option (lil T)) :=
  let N := nrows graph in
  frontier <- vec_new (ofn 0) N ;;
  frontier <- extract_col btrue idc (NoAcc idc) vnomask MERGE frontier (Trn graph) AllIdx root ;;
  nsp <- vec_new (ofn 0) N ;;
  nsp <- vec_setElement nsp root (ofn 1) ;;
  flow <- vec_new (ofn 0) N ;;
  S0 <- vec_new false N ;;
  S0 <- vec_setElement S0 root true ;;
  r <- mwhile n (fun s => has_vals (vnvals (fst (fst s)))) xe_body (frontier, nsp, [S0]) ;;
  match r with
  | None => Ok None
  | Some (frontier, nsp, search) =>
      s <- mdown (length search - 1) (xe_back nsp search) (score, lil_new N N, flow) ;;
      Ok (Some (fst (fst s)))
  end.
Definition xedge_betweenness : res (option (lil T)) :=
  let N := nrows graph in
  if negb (N =? ncols graph) then Throw DimensionException else
  mfor (seq 0 N) (fun i o => match o with None => Ok None | Some w => xe_source i w end) (Some (lil_new N N)).
End Numbers.

(** Over an integer type. *)
Definition i_int32_bool (x : ival) : res bool := z <- x ;; Ok (istrue (convert int32 z)).
Definition iedge_betweenness (t : ctype) : nat -> lil ival -> res (option (lil ival)) :=
  xedge_betweenness is_ok (op2 Plus t) (op2 Times t) (op2 (fun t => Div t t t) t) (fun a => Ok (convert t (Z.of_nat a))) itrue i_int32_bool.
(** Over [float] and [double]. *)
Definition f_int32_bool (x : fval) : res bool := z <- float_to_int int32 x ;; Ok (istrue z).
Definition fedge_betweenness (t : ftype) : nat -> lil fval -> res (option (lil fval)) :=
  xedge_betweenness (fun _ => true) (FPlus t) (FTimes t) (FDiv t) (fun a => of_int t (Z.of_nat a)) ftrue f_int32_bool.
