(** What the operations should do, stated on partial maps. *)
From Verif Require Import Base ModelLil ModelVec ModelHelpers ModelViews Spec.

(** ** The write rule (GraphBLAS C API, "mask and replace") *)

(** Union merge: both present, one present, none present. *)
Definition ounion {D1 D2 D3 : Type} (op : D1 -> D2 -> D3) (c1 : D1 -> D3) (c2 : D2 -> D3)
    (x : option D1) (y : option D2) : option D3 :=
  match x, y with
  | Some a, Some b => Some (op a b)
  | Some a, None => Some (c1 a)
  | None, Some b => Some (c2 b)
  | None, None => None
  end.

(** New value of one element before masking, from the old value [c] and the computed
    value [t]. *)
Definition spec_accum {TC TT TZ : Type} (a : accum TC TT TZ) (c : option TC) (t : option TT)
  : option TZ :=
  match a with
  | NoAcc tz => option_map tz t
  | Acc f cz tz => ounion f cz tz c t
  end.

(** Final value of one element. *)
Definition spec_write {TC TZ : Type} (zc : TZ -> TC) (allowed : bool) (outp : outmode)
    (c : option TC) (z : option TZ) : option TC :=
  if allowed then option_map zc z
  else match outp with MERGE => c | REPLACE => None end.

(** Does the mask allow writing position [(i,j)]? *)
Definition otrue {TM : Type} (truthy : TM -> bool) (o : option TM) : bool :=
  match o with Some v => truthy v | None => false end.

Definition mask_allows {TM : Type} (truthy : TM -> bool) (m : mask (lil TM)) (i j : nat) : bool :=
  match m with
  | NoMask => true
  | MVal M => otrue truthy (mget M i j)
  | MComp M => negb (otrue truthy (mget M i j))
  | MStruct M => is_some (mget M i j)
  | MSComp M => negb (is_some (mget M i j))
  end.

Definition vmask_allows {TM : Type} (truthy : TM -> bool) (m : mask (bvec TM)) (i : nat) : bool :=
  match m with
  | NoMask => true
  | MVal v => otrue truthy (vget v i)
  | MComp v => negb (otrue truthy (vget v i))
  | MStruct v => is_some (vget v i)
  | MSComp v => negb (is_some (vget v i))
  end.

(** A well-formed mask container. *)
Definition wfmask {TM : Type} (m : mask (lil TM)) : Prop :=
  match m with
  | NoMask => True
  | MVal M | MComp M | MStruct M | MSComp M => wfm M
  end.
Definition wfvmask {TM : Type} (m : mask (bvec TM)) : Prop :=
  match m with
  | NoMask => True
  | MVal v | MComp v | MStruct v | MSComp v => wfv0 v
  end.

(** The mask has the shape of the output. *)
Definition mask_fits {TM : Type} (m : mask (lil TM)) (nr nc : nat) : Prop :=
  match m with
  | NoMask => True
  | MVal M | MComp M | MStruct M | MSComp M => nrows M = nr /\ ncols M = nc
  end.
Definition vmask_fits {TM : Type} (m : mask (bvec TM)) (n : nat) : Prop :=
  match m with
  | NoMask => True
  | MVal v | MComp v | MStruct v | MSComp v => vsize v = n
  end.

(** [r] is a normal return of a well-formed matrix shaped like [C] in which the computed
    result [T] has been written into [C] by the write rule. *)
Definition written {TC TT TZ TM : Type} (truthy : TM -> bool) (zc : TZ -> TC)
    (a : accum TC TT TZ) (m : mask (lil TM)) (outp : outmode) (C : lil TC) (T : smat TT)
    (r : res (lil TC)) : Prop :=
  exists C', r = Ok C' /\ wfm C' /\ nrows C' = nrows C /\ ncols C' = ncols C /\
    forall i j, i < nrows C -> j < ncols C ->
      mget C' i j = spec_write zc (mask_allows truthy m i j) outp (mget C i j)
                      (spec_accum a (mget C i j) (T i j)).

Definition vwritten {TW TT TZ TM : Type} (truthy : TM -> bool) (zc : TZ -> TW)
    (a : accum TW TT TZ) (m : mask (bvec TM)) (outp : outmode) (w : bvec TW) (t : svec TT)
    (r : res (bvec TW)) : Prop :=
  exists w', r = Ok w' /\ wfv w' /\ vsize w' = vsize w /\
    forall i, i < vsize w ->
      vget w' i = spec_write zc (vmask_allows truthy m i) outp (vget w i)
                    (spec_accum a (vget w i) (t i)).

(** Transpose of a map. *)
Definition stran {T : Type} (A : smat T) : smat T := fun i j => A j i.

(** A vector whose count does not claim it is empty when it is not (every vector with an
    exact count; also one built with duplicates).  The products test this count. *)
Definition wfvn {T : Type} (u : bvec T) : Prop :=
  wfv0 u /\ (vnvals u = 0%Z -> forall i, vget u i = None).

(** The map an operand denotes. *)
Definition sview {T : Type} (A : mview T) : smat T :=
  match A with Mat M => mget M | Trn M => stran (mget M) end.
Definition wfview {T : Type} (A : mview T) : Prop :=
  match A with Mat M | Trn M => wfm M end.

(** Products: element [(i,j)] is the sum over [k], in increasing order, of the products
    of the stored pairs; absent when there is none. *)
Definition smul {TA TB TT : Type} (add : TT -> TT -> TT) (mult : TA -> TB -> TT) (K : nat)
    (A : smat TA) (B : smat TB) : smat TT :=
  fun i j => osum add (map (fun k => omap2 mult (A i k) (B k j)) (seq 0 K)).
Definition smulv {TA TU TT : Type} (add : TT -> TT -> TT) (mult : TA -> TU -> TT) (K : nat)
    (A : smat TA) (u : svec TU) : svec TT :=
  fun i => osum add (map (fun k => omap2 mult (A i k) (u k)) (seq 0 K)).
Definition svmul {TA TU TT : Type} (add : TT -> TT -> TT) (mult : TU -> TA -> TT) (K : nat)
    (u : svec TU) (A : smat TA) : svec TT :=
  fun j => osum add (map (fun k => omap2 mult (u k) (A k j)) (seq 0 K)).

(** Shapes that conform (GraphBLAS: the dimension tests of each operation). *)
Definition mxm_conforms {TA TB TC TM : Type} (m : mask (lil TM)) (C : lil TC)
    (A : mview TA) (B : mview TB) : Prop :=
  mask_fits m (nrows C) (ncols C) /\
  nrows C = vrows A /\ ncols C = vcols B /\ vcols A = vrows B.
Definition mxv_conforms {TA TU TW TM : Type} (m : mask (bvec TM)) (w : bvec TW)
    (A : mview TA) (u : bvec TU) : Prop :=
  vmask_fits m (vsize w) /\ vsize w = vrows A /\ vsize u = vcols A.
Definition vxm_conforms {TA TU TW TM : Type} (m : mask (bvec TM)) (w : bvec TW)
    (u : bvec TU) (A : mview TA) : Prop :=
  vmask_fits m (vsize w) /\ vsize w = vcols A /\ vsize u = vrows A.

(** Row and column reductions: the first present value converted, the others combined
    with the running value from left to right. *)
Definition ofold {TA TT : Type} (c1 : TA -> TT) (op : TT -> TA -> TT) (l : list (option TA))
  : option TT :=
  fold_left (fun acc x => match acc, x with
                          | None, Some v => Some (c1 v)
                          | Some a, Some v => Some (op a v)
                          | _, None => acc
                          end) l None.

(** Kronecker product with an [rB] x [cB] right operand. *)
Definition skron {TA TB TT : Type} (op : TA -> TB -> TT) (rB cB : nat)
    (A : smat TA) (B : smat TB) : smat TT :=
  fun i j => omap2 op (A (i / rB) (j / cB)) (B (i mod rB) (j mod cB)).

Definition transpose_conforms {TA TC TM : Type} (m : mask (lil TM)) (C : lil TC)
    (A : mview TA) : Prop :=
  mask_fits m (nrows C) (ncols C) /\ nrows C = vcols A /\ ncols C = vrows A.
Definition ewise_conforms {TA TB TC TM : Type} (m : mask (lil TM)) (C : lil TC)
    (A : mview TA) (B : mview TB) : Prop :=
  mask_fits m (nrows C) (ncols C) /\
  nrows C = vrows A /\ ncols C = vcols A /\ vrows A = vrows B /\ vcols A = vcols B.
Definition vewise_conforms {TU TV TW TM : Type} (m : mask (bvec TM)) (w : bvec TW)
    (u : bvec TU) (v : bvec TV) : Prop :=
  vmask_fits m (vsize w) /\ vsize w = vsize u /\ vsize u = vsize v.
Definition apply_conforms {TA TC TM : Type} (m : mask (lil TM)) (C : lil TC)
    (A : mview TA) : Prop :=
  mask_fits m (nrows C) (ncols C) /\ nrows C = vrows A /\ ncols C = vcols A.
Definition vapply_conforms {TU TW TM : Type} (m : mask (bvec TM)) (w : bvec TW)
    (u : bvec TU) : Prop :=
  vmask_fits m (vsize w) /\ vsize w = vsize u.
Definition reduce_conforms {TA TW TM : Type} (m : mask (bvec TM)) (w : bvec TW)
    (A : mview TA) : Prop :=
  vmask_fits m (vsize w) /\ vsize w = vrows A.
Definition kron_conforms {TA TB TC TM : Type} (m : mask (lil TM)) (C : lil TC)
    (A : mview TA) (B : mview TB) : Prop :=
  mask_fits m (nrows C) (ncols C) /\
  nrows C = vrows A * vrows B /\ ncols C = vcols A * vcols B.
