(** Model of the delta stepping shortest path algorithm.  /repo/src/algorithms/sssp.hpp:277-472.
    Weights are unbounded integers. *)
From Verif Require Import Base ModelLil ModelVec ModelHelpers ModelViews ModelMul ModelElem
  ModelIndex ModelAlgoBase.

(** The result of a comparison stored in a container of weights. *)
Definition bz (b : bool) : Z := if b then 1%Z else 0%Z.

(** [SelectInRange], sssp.hpp:277-293. *)
Definition in_range (low high input : Z) : bool := ((low <=? input) && (input <? high))%Z.

(** [AL], [AH], sssp.hpp:322-341: the edges of [graph] whose weight satisfies [p]. *)
Definition ds_select (p : Z -> bool) (n : nat) (graph : lil Z) : res (lil Z) :=
  A <- apply (fun x => bz (p x)) btrue idc (NoAcc idc) mnomask MERGE (lil_new n n) (Mat graph) ;;
  apply idc ztrue idc (NoAcc idc) (MVal A) REPLACE A (Mat graph).

(** The variables of the two loops. *)
Record ds_state := mkDs {
  ds_t : bvec Z; ds_masked : bvec Z; ds_req : bvec Z; ds_bi : bvec bool; ds_comp : bvec bool;
  ds_less : bvec bool; ds_s : bvec bool; ds_i : nat }.

(** [static_cast<T>(i)*delta] *)
Definition ds_low (delta : Z) (i : nat) : Z := (Z.of_nat i * delta)%Z.

(** The body of the inner loop, sssp.hpp:383-431. *)
Definition ds_inner_body (delta : Z) (AL : lil Z) (x : ds_state) : res ds_state :=
  let rng := in_range (ds_low delta (ds_i x)) (ds_low delta (ds_i x + 1)) in
  tReq <- vxm zmin Z.add btrue idc (NoAcc idc) vnomask MERGE (ds_req x) (ds_masked x) (Mat AL) ;;
  s <- eWiseAdd_v orb idc idc btrue idc (NoAcc idc) vnomask MERGE (ds_s x) (ds_s x) (ds_bi x) ;;
  tless <- eWiseAdd_v Z.ltb ztrue ztrue ztrue idc (NoAcc idc) (MVal tReq) REPLACE (ds_less x) tReq (ds_t x) ;;
  tBi <- apply_v rng btrue idc (NoAcc idc) (MVal tless) REPLACE (ds_bi x) tReq ;;
  t <- eWiseAdd_v zmin idc idc btrue idc (NoAcc idc) vnomask MERGE (ds_t x) (ds_t x) tReq ;;
  tmasked <- apply_v idc btrue idc (NoAcc idc) (MVal tBi) REPLACE (ds_masked x) t ;;
  Ok (mkDs t tmasked tReq tBi (ds_comp x) tless s (ds_i x)).

(** [tcomp] at the end of the outer loop, sssp.hpp:456-465. *)
Definition ds_compare (outp : outmode) (delta : Z) (i : nat) (tcomp : bvec bool) (t : bvec Z)
  : res (bvec bool) :=
  tcomp <- apply_v (fun v => (ds_low delta i <=? v)%Z) btrue idc (NoAcc idc) vnomask MERGE tcomp t ;;
  apply_v idc btrue idc (NoAcc idc) (MVal tcomp) outp tcomp tcomp.

(** The body of the outer loop, sssp.hpp:361-466, with at most [n] tests of the inner condition.
    [Identity<T>] applied to [tBi] converts to the type of the weights and back. *)
Definition ds_outer_body (n : nat) (delta : Z) (AL AH : lil Z) (x : ds_state) : res (option ds_state) :=
  let rng := in_range (ds_low delta (ds_i x)) (ds_low delta (ds_i x + 1)) in
  let s := vec_clear (ds_s x) in
  tBi <- apply_v rng btrue idc (NoAcc idc) vnomask MERGE (ds_bi x) (ds_t x) ;;
  tBi <- apply_v (fun b => ztrue (bz b)) btrue idc (NoAcc idc) (MVal tBi) REPLACE tBi tBi ;;
  tmasked <- apply_v idc btrue idc (NoAcc idc) (MVal tBi) REPLACE (ds_masked x) (ds_t x) ;;
  o <- mwhile n (fun x => has_vals (vnvals (ds_masked x))) (ds_inner_body delta AL)
         (mkDs (ds_t x) tmasked (ds_req x) tBi (ds_comp x) (ds_less x) s (ds_i x)) ;;
  match o with
  | None => Ok None
  | Some x =>
      tmasked <- apply_v idc btrue idc (NoAcc idc) (MVal (ds_s x)) REPLACE (ds_masked x) (ds_t x) ;;
      tReq <- vxm zmin Z.add btrue idc (NoAcc idc) vnomask MERGE (ds_req x) tmasked (Mat AH) ;;
      t <- eWiseAdd_v zmin idc idc btrue idc (NoAcc idc) vnomask MERGE (ds_t x) (ds_t x) tReq ;;
      tcomp <- ds_compare REPLACE delta (ds_i x + 1) (ds_comp x) t ;;
      Ok (Some (mkDs t tmasked tReq (ds_bi x) tcomp (ds_less x) (ds_s x) (ds_i x + 1)))
  end.

(** The outer loop, sssp.hpp:359-467. *)
Fixpoint ds_outer (n fuel : nat) (delta : Z) (AL AH : lil Z) (x : ds_state) : res (option ds_state) :=
  match n with
  | O => Ok None
  | S n' =>
      if has_vals (vnvals (ds_comp x)) then
        o <- ds_outer_body fuel delta AL AH x ;;
        match o with None => Ok None | Some x => ds_outer n' fuel delta AL AH x end
      else Ok (Some x)
  end.

(** [sssp_delta_step], sssp.hpp:297-472: the new contents of [paths], or [None] when a loop has not
    ended after [n] tests of its condition. *)
Definition sssp_delta_step (n : nat) (graph : lil Z) (delta : Z) (src : nat) (paths : bvec Z)
  : res (option (bvec Z)) :=
  let nv := nrows graph in
  let paths := vec_clear paths in
  v <- vec_new 0%Z nv ;;
  b <- vec_new false nv ;;
  t <- vec_setElement v src 0%Z ;;
  AL <- ds_select (fun w => (w <=? delta)%Z) nv graph ;;
  AH <- ds_select (fun w => (delta <? w)%Z) nv graph ;;
  tcomp <- ds_compare MERGE delta 0 b t ;;
  o <- ds_outer n n delta AL AH (mkDs t v v b tcomp b b 0) ;;
  match o with
  | None => Ok None
  | Some x =>
      paths <- apply_v idc btrue idc (NoAcc idc) vnomask MERGE paths (ds_t x) ;;
      Ok (Some paths)
  end.
