(** Model of the delta stepping shortest path algorithm over the built-in integer types and over [float] and [double].
    /repo/src/algorithms/sssp.hpp:277-472.  ModelDelta is the same over the unbounded integers.
    [D] is the scalar type [T]: [leb], [ltb], [min], [plus], [times] are its operators, [dtrue] the conversion to [bool], [ofb]
    and [ofn] the conversions from [bool] and from [IndexType], [zero] the value 0.  The scalars of the integer types are
    results of operations ([ival], ModelInts.v): [chk] and [chkv] make an undefined result the result of the whole call. *)
From Coq Require Import ZArith Floats.SpecFloat.
From Verif Require Import Base ModelLil ModelVec ModelHelpers ModelViews ModelMul ModelElem ModelIndex ModelAlgoBase ModelAlgebra
  ModelFloat ModelFsssp ModelInts ModelIntPaths ModelMstTypes.

Section Delta.
Context {D : Type} (leb ltb : D -> D -> bool) (min plus times : D -> D -> D) (dtrue : D -> bool) (ofb : bool -> D)
  (ofn : nat -> D) (zero : D) (chk : D -> res D) (chkv : bvec D -> res (bvec D)).

(** [SelectInRange], sssp.hpp:277-293. *)
Definition gin_range (low high input : D) : bool := leb low input && ltb input high.

(** [AL], [AH], sssp.hpp:322-341: the edges of [graph] whose weight satisfies [p]. *)
Definition gds_select (p : D -> bool) (n : nat) (graph : lil D) : res (lil D) :=
  A <- apply (fun x => ofb (p x)) btrue idc (NoAcc idc) mnomask MERGE (lil_new n n) (Mat graph) ;;
  apply idc dtrue idc (NoAcc idc) (MVal A) REPLACE A (Mat graph).

(** The variables of the two loops. *)
Record gds_state := mkGds {
  gds_t : bvec D; gds_masked : bvec D; gds_req : bvec D; gds_bi : bvec bool; gds_comp : bvec bool;
  gds_less : bvec bool; gds_s : bvec bool; gds_i : nat }.

(** [static_cast<T>(i)*delta], converted to [T], sssp.hpp:352, 370, 461. *)
Definition gds_low (delta : D) (i : nat) : res D := chk (times (ofn i) delta).

(** The body of the inner loop, sssp.hpp:383-431; [rng] is [in_range]. *)
Definition gds_inner_body (rng : D -> bool) (AL : lil D) (x : gds_state) : res gds_state :=
  tReq <- vxm min plus btrue idc (NoAcc idc) vnomask MERGE (gds_req x) (gds_masked x) (Mat AL) ;;
  tReq <- chkv tReq ;;
  s <- eWiseAdd_v orb idc idc btrue idc (NoAcc idc) vnomask MERGE (gds_s x) (gds_s x) (gds_bi x) ;;
  tless <- eWiseAdd_v ltb dtrue dtrue dtrue idc (NoAcc idc) (MVal tReq) REPLACE (gds_less x) tReq (gds_t x) ;;
  tBi <- apply_v rng btrue idc (NoAcc idc) (MVal tless) REPLACE (gds_bi x) tReq ;;
  t <- eWiseAdd_v min idc idc btrue idc (NoAcc idc) vnomask MERGE (gds_t x) (gds_t x) tReq ;;
  tmasked <- apply_v idc btrue idc (NoAcc idc) (MVal tBi) REPLACE (gds_masked x) t ;;
  Ok (mkGds t tmasked tReq tBi (gds_comp x) tless s (gds_i x)).

(** [tcomp], sssp.hpp:347-355 and 456-465. *)
Definition gds_compare (outp : outmode) (delta : D) (i : nat) (tcomp : bvec bool) (t : bvec D) : res (bvec bool) :=
  low <- gds_low delta i ;;
  tcomp <- apply_v (fun v => leb low v) btrue idc (NoAcc idc) vnomask MERGE tcomp t ;;
  apply_v idc btrue idc (NoAcc idc) (MVal tcomp) outp tcomp tcomp.

(** The body of the outer loop, sssp.hpp:361-466, with at most [n] tests of the inner condition. *)
Definition gds_outer_body (n : nat) (delta : D) (AL AH : lil D) (x : gds_state) : res (option gds_state) :=
  let s := vec_clear (gds_s x) in
  low <- gds_low delta (gds_i x) ;;
  high <- gds_low delta (gds_i x + 1) ;;
  let rng := gin_range low high in
  tBi <- apply_v rng btrue idc (NoAcc idc) vnomask MERGE (gds_bi x) (gds_t x) ;;
  tBi <- apply_v (fun b => dtrue (ofb b)) btrue idc (NoAcc idc) (MVal tBi) REPLACE tBi tBi ;;
  tmasked <- apply_v idc btrue idc (NoAcc idc) (MVal tBi) REPLACE (gds_masked x) (gds_t x) ;;
  o <- mwhile n (fun x => has_vals (vnvals (gds_masked x))) (gds_inner_body rng AL)
         (mkGds (gds_t x) tmasked (gds_req x) tBi (gds_comp x) (gds_less x) s (gds_i x)) ;;
  match o with
  | None => Ok None
  | Some x =>
      tmasked <- apply_v idc btrue idc (NoAcc idc) (MVal (gds_s x)) REPLACE (gds_masked x) (gds_t x) ;;
      tReq <- vxm min plus btrue idc (NoAcc idc) vnomask MERGE (gds_req x) tmasked (Mat AH) ;;
      tReq <- chkv tReq ;;
      t <- eWiseAdd_v min idc idc btrue idc (NoAcc idc) vnomask MERGE (gds_t x) (gds_t x) tReq ;;
      tcomp <- gds_compare REPLACE delta (gds_i x + 1) (gds_comp x) t ;;
      Ok (Some (mkGds t tmasked tReq (gds_bi x) tcomp (gds_less x) (gds_s x) (gds_i x + 1)))
  end.

(** The outer loop, sssp.hpp:359-467. *)
Fixpoint gds_outer (n fuel : nat) (delta : D) (AL AH : lil D) (x : gds_state) : res (option gds_state) :=
  match n with
  | O => Ok None
  | S n' =>
      if has_vals (vnvals (gds_comp x)) then
        o <- gds_outer_body fuel delta AL AH x ;;
        match o with None => Ok None | Some x => gds_outer n' fuel delta AL AH x end
      else Ok (Some x)
  end.

(** [sssp_delta_step], sssp.hpp:297-472: the new contents of [paths], or [None] when a loop has not
    ended after [n] tests of its condition. *)
Definition gsssp_delta_step (n : nat) (graph : lil D) (delta : D) (src : nat) (paths : bvec D) : res (option (bvec D)) :=
  let nv := nrows graph in
  let paths := vec_clear paths in
  v <- vec_new zero nv ;;
  b <- vec_new false nv ;;
  t <- vec_setElement v src zero ;;
  AL <- gds_select (fun w => leb w delta) nv graph ;;
  AH <- gds_select (fun w => ltb delta w) nv graph ;;
  tcomp <- gds_compare MERGE delta 0 b t ;;
  o <- gds_outer n n delta AL AH (mkGds t v v b tcomp b b 0) ;;
  match o with
  | None => Ok None
  | Some x =>
      paths <- apply_v idc btrue idc (NoAcc idc) vnomask MERGE paths (gds_t x) ;;
      Ok (Some paths)
  end.
End Delta.

(** [<=] of the integer types. *)
Definition ileb (x y : ival) : bool := match x, y with Ok a, Ok b => (a <=? b)%Z | _, _ => false end.

(** Over an integer type, and over a floating point type. *)
Definition isssp_delta_step (t : ctype) :=
  gsssp_delta_step ileb iltb (op2 Min t) (op2 Plus t) (op2 Times t) inonzero (fun b => Ok (if b then 1%Z else 0%Z))
    (fun i => Ok (convert t (Z.of_nat i))) (Ok 0%Z) defined defined_v.
Definition fsssp_delta_step (t : ftype) :=
  gsssp_delta_step FLessEqual FLessThan (FMin t) (FPlus t) (FTimes t) ftrue (fun b : bool => if b then f1 t else f0)
    (fun i => of_int t (Z.of_nat i)) f0 Ok Ok.
