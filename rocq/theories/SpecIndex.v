(** What extract and assign should do, stated on partial maps. *)
From Verif Require Import Base ModelLil ModelVec ModelHelpers ModelViews Spec SpecOps.

Definition obind {A B : Type} (o : option A) (f : A -> option B) : option B :=
  match o with Some a => f a | None => None end.

(** The [k]-th index of a sequence. *)
Definition sel (s : idxseq) (k : nat) : option nat :=
  match s with
  | AllIdx => Some k
  | IdxArr l => nth_error l k
  | IdxRange b e => if b + k <? e then Some (b + k) else None
  end.

(** The first position [k < n] at which the sequence holds [o]. *)
Definition pos (s : idxseq) (n o : nat) : option nat :=
  find (fun k => match sel s k with Some i => i =? o | None => false end) (seq 0 n).

(** The sequence has [n] indices. *)
Definition idx_size (s : idxseq) (n : nat) : Prop :=
  match s with
  | AllIdx => True
  | IdxArr l => length l = n
  | IdxRange b e => b + n = e
  end.
(** ... at most [n]. *)
Definition idx_size_le (s : idxseq) (n : nat) : Prop :=
  match s with
  | AllIdx => True
  | IdxArr l => length l <= n
  | IdxRange b e => b <= e <= b + n
  end.
(** All indices are below [n]. *)
Definition idx_in (s : idxseq) (n : nat) : Prop :=
  match s with
  | AllIdx => True
  | IdxArr l => Forall (fun i => i < n) l
  | IdxRange b e => b < e -> e <= n
  end.
(** No index occurs twice. *)
Definition idx_nodup (s : idxseq) : Prop :=
  match s with
  | AllIdx | IdxRange _ _ => True
  | IdxArr l => NoDup l
  end.
(** The indices increase. *)
Definition idx_sorted (s : idxseq) : Prop :=
  match s with
  | AllIdx | IdxRange _ _ => True
  | IdxArr l => forall a b i j, a < b -> nth_error l a = Some i -> nth_error l b = Some j -> i < j
  end.
(** A range whose end does not precede its beginning. *)
Definition idx_fwd (s : idxseq) : Prop :=
  match s with IdxRange b e => b <= e | _ => True end.
(** A range whose end precedes its beginning (a 64-bit value). *)
Definition backward (s : idxseq) : Prop :=
  match s with IdxRange b e => e < b /\ (Z.of_nat b < 2 ^ 64)%Z | _ => False end.

(** The call ends with an exception. *)
Definition fails {A : Type} (r : res A) : Prop := exists e, r = Throw e.

(** Same size and same stored elements. *)
Definition same {T : Type} (u v : bvec T) : Prop :=
  vsize u = vsize v /\ forall i, vget u i = vget v i.

(** ** extract *)

Definition sextract {T : Type} (u : svec T) (s : idxseq) : svec T :=
  fun k => obind (sel s k) u.
Definition smextract {T : Type} (A : smat T) (rs cs : idxseq) : smat T :=
  fun i j => obind (sel rs i) (fun i' => obind (sel cs j) (fun j' => A i' j')).
Definition scextract {T : Type} (A : smat T) (rs : idxseq) (col : nat) : svec T :=
  fun k => obind (sel rs k) (fun i' => A i' col).

Definition vextract_conforms {TU TW TM : Type} (m : mask (bvec TM)) (w : bvec TW)
    (u : bvec TU) (s : idxseq) : Prop :=
  vmask_fits m (vsize w) /\ idx_size s (vsize w) /\ idx_in s (vsize u).
Definition extract_conforms {TA TC TM : Type} (m : mask (lil TM)) (C : lil TC)
    (A : mview TA) (rs cs : idxseq) : Prop :=
  mask_fits m (nrows C) (ncols C) /\ idx_size rs (nrows C) /\ idx_size cs (ncols C) /\
  idx_in rs (vrows A) /\ idx_in cs (vcols A).
Definition cextract_conforms {TA TW TM : Type} (m : mask (bvec TM)) (w : bvec TW)
    (A : mview TA) (rs : idxseq) (col : nat) : Prop :=
  vmask_fits m (vsize w) /\ idx_size rs (vsize w) /\ col < vcols A /\ idx_in rs (vrows A).

(** ** assign *)

(** What assignment puts at one position before masking: [c] is the old value, [inreg] says
    whether the position is among those assigned to, [t] is the value assigned to it (if
    any).  With an accumulator the old value is combined with the new one; without, a
    position assigned to takes the new value or loses its element, other positions keep
    theirs. *)
Definition spec_assign {TC TT TZ : Type} (a : accum TC TT TZ) (cz' : TC -> TZ) (inreg : bool)
    (c : option TC) (t : option TT) : option TZ :=
  match a with
  | Acc f cz tz => ounion f cz tz c t
  | NoAcc tz => if inreg then option_map tz t else option_map cz' c
  end.

(** [r] is a normal return of a well-formed vector of the size of [w] in which, at the
    positions [reg], the values [t] have been assigned. *)
Definition vassigned {TW TT TZ TM : Type} (cz' : TW -> TZ) (truthy : TM -> bool) (zc : TZ -> TW)
    (a : accum TW TT TZ) (m : mask (bvec TM)) (outp : outmode) (w : bvec TW)
    (reg : nat -> bool) (t : svec TT) (r : res (bvec TW)) : Prop :=
  exists w', r = Ok w' /\ wfv w' /\ vsize w' = vsize w /\
    forall i, i < vsize w ->
      vget w' i = spec_write zc (vmask_allows truthy m i) outp (vget w i)
                    (spec_assign a cz' (reg i) (vget w i) (t i)).

Definition assigned {TC TT TZ TM : Type} (cz' : TC -> TZ) (truthy : TM -> bool) (zc : TZ -> TC)
    (a : accum TC TT TZ) (m : mask (lil TM)) (outp : outmode) (C : lil TC)
    (reg : nat -> nat -> bool) (T : smat TT) (r : res (lil TC)) : Prop :=
  exists C', r = Ok C' /\ wfm C' /\ nrows C' = nrows C /\ ncols C' = ncols C /\
    forall i j, i < nrows C -> j < ncols C ->
      mget C' i j = spec_write zc (mask_allows truthy m i j) outp (mget C i j)
                      (spec_assign a cz' (reg i j) (mget C i j) (T i j)).

(** The values assigned: [u] (of size [n]) moved to the positions named by [s]. *)
Definition sassign {T : Type} (u : svec T) (n : nat) (s : idxseq) : svec T :=
  fun o => obind (pos s n o) u.
Definition smassign {T : Type} (A : smat T) (nr nc : nat) (rs cs : idxseq) : smat T :=
  fun i j => obind (pos rs nr i) (fun i' => obind (pos cs nc j) (fun j' => A i' j')).
(** The positions assigned to. *)
Definition in_idx (s : idxseq) (n o : nat) : bool := is_some (pos s n o).

(** Shapes for which assignment is defined.  [AllIndices] with a source longer than the
    destination is not covered (the code does not test for it). *)
Definition all_fits (s : idxseq) (nsrc ndst : nat) : Prop :=
  match s with AllIdx => nsrc <= ndst | _ => True end.
Definition vassign_conforms {TU TW TM : Type} (m : mask (bvec TM)) (w : bvec TW)
    (u : bvec TU) (s : idxseq) : Prop :=
  vmask_fits m (vsize w) /\ idx_size s (vsize u) /\ idx_in s (vsize w).
Definition assign_conforms {TA TC TM : Type} (m : mask (lil TM)) (C : lil TC)
    (A : mview TA) (rs cs : idxseq) : Prop :=
  mask_fits m (nrows C) (ncols C) /\ idx_size rs (vrows A) /\ idx_size cs (vcols A) /\
  idx_in rs (nrows C) /\ idx_in cs (ncols C).
Definition cassign_conforms {TU TC TM : Type} (m : mask (bvec TM)) (C : lil TC)
    (u : bvec TU) (rs : idxseq) (col : nat) : Prop :=
  vmask_fits m (nrows C) /\ idx_size rs (vsize u) /\ col < ncols C /\ idx_in rs (nrows C).
Definition rassign_conforms {TU TC TM : Type} (m : mask (bvec TM)) (C : lil TC)
    (u : bvec TU) (row : nat) (cs : idxseq) : Prop :=
  vmask_fits m (ncols C) /\ idx_size cs (vsize u) /\ row < nrows C /\ idx_in cs (ncols C).
Definition vcassign_conforms {TW TM : Type} (m : mask (bvec TM)) (w : bvec TW)
    (s : idxseq) : Prop :=
  vmask_fits m (vsize w) /\ idx_size_le s (vsize w) /\ idx_in s (vsize w).
Definition mcassign_conforms {TC TM : Type} (m : mask (lil TM)) (C : lil TC)
    (rs cs : idxseq) : Prop :=
  mask_fits m (nrows C) (ncols C) /\ idx_size_le rs (nrows C) /\ idx_size_le cs (ncols C) /\
  idx_in rs (nrows C) /\ idx_in cs (ncols C).
(** Number of positions named by a sequence ([n] for [AllIndices]). *)
Definition idx_count (s : idxseq) (n : nat) : nat :=
  match s with
  | AllIdx => n
  | IdxArr l => length l
  | IdxRange b e => e - b
  end.
