(** Model of the row-level and write-back helpers shared by all operations.
    /repo/src/graphblas/platforms/sequential/sparse_helpers.hpp
    Iterators into a sorted row are modelled by the suffix they point to. *)
From Verif Require Import Base ModelLil ModelVec.

(** [sparse_copy], sparse_helpers.hpp:67-93. *)
Definition sparse_copy {S T : Type} (cast : S -> T) (dst : lil T) (src : lil S)
  : res (lil T) :=
  mfor (seq 0 (nrows dst))
    (fun i D =>
       r <- getrow src i ;;
       match r with
       | [] => Ok D
       | _ => setRow (fun x => x) D i (cast_row cast r)
       end)
    (lil_clear dst).

(** [increment_while_below], sparse_helpers.hpp:116-126, and
    [advance_and_check_tuple_iterator], 1293-1311: the remaining suffix ... *)
Fixpoint drop_below {T : Type} (r : row T) (j : nat) : row T :=
  match r with
  | [] => []
  | (k, v) :: r' => if k <? j then drop_below r' j else (k, v) :: r'
  end.

(** ... and the boolean result. *)
Definition at_index {T : Type} (r : row T) (j : nat) : bool :=
  match r with
  | [] => false
  | (k, _) :: _ => k =? j
  end.

(** [increment_and_add_while_below], sparse_helpers.hpp:131-141: elements copied;
    the iterator ends at [drop_below r j]. *)
Fixpoint take_below {T : Type} (r : row T) (j : nat) : row T :=
  match r with
  | [] => []
  | (k, v) :: r' => if k <? j then (k, v) :: take_below r' j else []
  end.

(** [dot], sparse_helpers.hpp:205-253; [None] is [value_set = false]. *)
Section Dot.
Context {D1 D2 D3 : Type} (add : D3 -> D3 -> D3) (mult : D1 -> D2 -> D3).
Fixpoint dot_loop (v1 : row D1) : row D2 -> option D3 -> option D3 :=
  fix aux (v2 : row D2) (ans : option D3) : option D3 :=
    match v1, v2 with
    | (i1, x1) :: v1', (i2, x2) :: v2' =>
        if i2 =? i1 then
          dot_loop v1' v2'
            (match ans with
             | Some a => Some (add a (mult x1 x2))
             | None => Some (mult x1 x2)
             end)
        else if i1 <? i2 then dot_loop v1' v2 ans
        else aux v2' ans
    | _, _ => ans
    end.
Definition dot (v1 : row D1) (v2 : row D2) : option D3 := dot_loop v1 v2 None.
End Dot.

(** [dot_rev], sparse_helpers.hpp:257-305: the same loop with the roles of the two
    iterators exchanged; the multiplication receives the element of the first
    argument first. *)
Section DotRev.
Context {D1 D2 D3 : Type} (add : D3 -> D3 -> D3) (mult : D1 -> D2 -> D3).
Fixpoint dot_rev_loop (v2 : row D1) : row D2 -> option D3 -> option D3 :=
  fix aux (v1 : row D2) (ans : option D3) : option D3 :=
    match v2, v1 with
    | (i2, x2) :: v2', (i1, x1) :: v1' =>
        if i2 =? i1 then
          dot_rev_loop v2' v1'
            (match ans with
             | Some a => Some (add a (mult x2 x1))
             | None => Some (mult x2 x1)
             end)
        else if i1 <? i2 then aux v1' ans
        else dot_rev_loop v2' v1 ans
    | _, _ => ans
    end.
Definition dot_rev (v2 : row D1) (v1 : row D2) : option D3 := dot_rev_loop v2 v1 None.
End DotRev.

(** [reduction], sparse_helpers.hpp:310-344; [None] is the result [false].  The
    one-element case converts ([c1]); [op01] is [op] on two input values, [op] adds
    an input value to the running value; [c3] is the final conversion to [D3]. *)
Definition reduction {D1 DT D3 : Type} (c1 : D1 -> DT) (op01 : D1 -> D1 -> DT)
    (op : DT -> D1 -> DT) (c3 : DT -> D3) (v : row D1) : option D3 :=
  match v with
  | [] => None
  | [(_, x)] => Some (c3 (c1 x))
  | (_, x) :: (_, y) :: v' =>
      Some (c3 (fold_left (fun t p => op t (snd p)) v' (op01 x y)))
  end.

(** [ewise_or], sparse_helpers.hpp:351-411.  [c1], [c2] are the casts to [D3]; [op]
    includes the cast of its result.  The self-aliasing check cannot fire: every
    caller passes a local temporary as [ans]. *)
Section EwiseOr.
Context {D1 D2 D3 : Type} (op : D1 -> D2 -> D3) (c1 : D1 -> D3) (c2 : D2 -> D3).
Fixpoint ewise_or (v1 : row D1) : row D2 -> row D3 :=
  fix aux (v2 : row D2) : row D3 :=
    match v1, v2 with
    | (i1, x1) :: v1', (i2, x2) :: v2' =>
        if i2 =? i1 then (i1, op x1 x2) :: ewise_or v1' v2'
        else if i1 <? i2 then (i1, c1 x1) :: ewise_or v1' v2
        else (i2, c2 x2) :: aux v2'
    | [], _ => cast_row c2 v2
    | _, [] => cast_row c1 v1
    end.
End EwiseOr.

(** Index sequences accepted by extract/assign.
    [AllIndices], /repo/src/graphblas/indices.hpp:229-244; index arrays
    ([std::vector<IndexType>]); [IndexSequenceRange(begin, end)], 171-193. *)
Inductive idxseq : Type :=
| AllIdx
| IdxArr (l : list nat)
| IdxRange (b e : nat).

(** 2^64, one more than the largest index value; sealed, so that it is never computed in
    unary. *)
Definition two64_sig : {n : nat | Z.of_nat n = (2 ^ 64)%Z}.
Proof. exact (exist _ (Z.to_nat (2 ^ 64)) (Z2Nat.id (2 ^ 64) (Pos2Z.is_nonneg _))). Qed.

(** What an [IndexSequenceRange] with [e < b] enumerates: from [b] up to 2^64 - 1 and on
    from 0 up to [e] (indices.hpp:84-160). *)
Definition wrapped_range (b e : nat) : list nat :=
  seq b (proj1_sig two64_sig - b) ++ seq 0 e.

(** The indices a sequence enumerates when iterated; [AllIndices] cannot be iterated
    before [setupIndices] replaces it.  An [IndexSequenceRange] counts up from [b], with
    64-bit wrap-around, until it meets [e] ([IndexGenerator], indices.hpp:85-160); its
    [size()] is [e - b] modulo 2^64, the length of this list. *)
Definition idx_list (s : idxseq) : list nat :=
  match s with
  | AllIdx => []
  | IdxArr l => l
  | IdxRange b e => if b <=? e then seq b (e - b) else wrapped_range b e
  end.

(** [searchIndices], sparse_helpers.hpp:416-430. *)
Definition searchIndices (s : idxseq) (n : nat) : bool :=
  match s with
  | AllIdx => true
  | _ => existsb (fun it => it =? n) (idx_list s)
  end.

(** [setupIndices], sparse_helpers.hpp:1273-1282. *)
Definition setupIndices (s : idxseq) (n : nat) : idxseq :=
  match s with
  | AllIdx => IdxRange 0 n
  | _ => s
  end.

(** [check_index_array_content], sparse_helpers.hpp:1252-1267. *)
Definition check_index_array_content (s : idxseq) (dim : nat) : res unit :=
  match s with
  | AllIdx => Ok tt
  | _ => mfor (idx_list s) (fun ix _ => throw_if (dim <=? ix) IndexOutOfBoundsException) tt
  end.

(** [ewise_or_stencil], sparse_helpers.hpp:461-535. *)
Section Stencil.
Context {D1 D2 D3 : Type} (c1 : D1 -> D3) (c2 : D2 -> D3) (stencil : idxseq).
Fixpoint ewise_or_stencil (v1 : row D1) : row D2 -> row D3 :=
  fix aux (v2 : row D2) : row D3 :=
    match v1, v2 with
    | (i1, x1) :: v1', (i2, x2) :: v2' =>
        if i2 =? i1 then (i2, c2 x2) :: ewise_or_stencil v1' v2'
        else if i1 <? i2 then
          if negb (searchIndices stencil i1)
          then (i1, c1 x1) :: ewise_or_stencil v1' v2
          else ewise_or_stencil v1' v2
        else (i2, c2 x2) :: aux v2'
    | (i1, x1) :: v1', [] =>
        if negb (searchIndices stencil i1)
        then (i1, c1 x1) :: ewise_or_stencil v1' []
        else ewise_or_stencil v1' []
    | [], (i2, x2) :: v2' => (i2, c2 x2) :: aux v2'
    | [], [] => []
    end.
End Stencil.

(** [ewise_and], sparse_helpers.hpp:739-774. *)
Section EwiseAnd.
Context {D1 D2 D3 : Type} (op : D1 -> D2 -> D3).
Fixpoint ewise_and (v1 : row D1) : row D2 -> row D3 :=
  fix aux (v2 : row D2) : row D3 :=
    match v1, v2 with
    | (i1, x1) :: v1', (i2, x2) :: v2' =>
        if i2 =? i1 then (i1, op x1 x2) :: ewise_and v1' v2'
        else if i1 <? i2 then ewise_and v1' v2
        else aux v2'
    | _, _ => []
    end.
End EwiseAnd.

(** The optional accumulator.  [NoAcc tz]: [NoAccumulate], with the cast from the
    computed type to the intermediate type.  [Acc f cz tz]: a binary operator
    [f], with the casts used where only one operand is present. *)
Inductive accum (TC TT TZ : Type) : Type :=
| NoAcc (tz : TT -> TZ)
| Acc (f : TC -> TT -> TZ) (cz : TC -> TZ) (tz : TT -> TZ).
Arguments NoAcc {TC TT TZ} tz.
Arguments Acc {TC TT TZ} f cz tz.

(** [ewise_or_opt_accum], sparse_helpers.hpp:645-675. *)
Definition ewise_or_opt_accum {TC TT TZ : Type} (a : accum TC TT TZ)
    (Z : lil TZ) (C : lil TC) (T : lil TT) : res (lil TZ) :=
  match a with
  | NoAcc tz => sparse_copy tz Z T
  | Acc f cz tz =>
      mfor (seq 0 (nrows Z))
        (fun i Z' =>
           c <- getrow C i ;;
           t <- getrow T i ;;
           setRow (fun x => x) Z' i (ewise_or f cz tz c t))
        Z
  end.

(** [ewise_or_stencil_opt_accum], sparse_helpers.hpp:580-638; the copy of an
    unstenciled row of [C] casts with [cz'] (setRow). *)
Definition ewise_or_stencil_opt_accum {TC TT TZ : Type} (a : accum TC TT TZ) (cz' : TC -> TZ)
    (Z : lil TZ) (C : lil TC) (T : lil TT) (ri ci : idxseq) : res (lil TZ) :=
  match a with
  | Acc f cz tz =>
      mfor (seq 0 (nrows Z))
        (fun i Z' =>
           c <- getrow C i ;;
           t <- getrow T i ;;
           setRow (fun x => x) Z' i (ewise_or f cz tz c t))
        Z
  | NoAcc tz =>
      mfor (seq 0 (nrows Z))
        (fun i Z' =>
           c <- getrow C i ;;
           if searchIndices ri i then
             t <- getrow T i ;;
             setRow (fun x => x) Z' i (ewise_or_stencil cz' tz ci c t)
           else setRow cz' Z' i c)
        Z
  end.

(** [ewise_or_opt_accum_1D], sparse_helpers.hpp:682-709. *)
Definition ewise_or_opt_accum_1D {TW TT TZ : Type} (a : accum TW TT TZ)
    (w : bvec TW) (t : row TT) : res (row TZ) :=
  match a with
  | NoAcc tz => Ok (cast_row tz t)
  | Acc f cz tz => c <- getContents w ;; Ok (ewise_or f cz tz c t)
  end.

(** [ewise_or_stencil_opt_accum_1D], sparse_helpers.hpp:544-570. *)
Definition ewise_or_stencil_opt_accum_1D {TW TT TZ : Type} (a : accum TW TT TZ)
    (cz' : TW -> TZ) (w : bvec TW) (t : row TT) (ix : idxseq) : res (row TZ) :=
  c <- getContents w ;;
  match a with
  | NoAcc tz => Ok (ewise_or_stencil cz' tz ix c t)
  | Acc f cz tz => Ok (ewise_or f cz tz c t)
  end.

(** [opt_accum_scalar], sparse_helpers.hpp:716-735. *)
Definition opt_accum_scalar {TW TT TZ : Type} (a : accum TW TT TZ) (w : TW) (t : TT) : TZ :=
  match a with
  | NoAcc tz => tz t
  | Acc f _ _ => f w t
  end.

(** [apply_with_mask], sparse_helpers.hpp:802-875.  The mask row is given with its
    values already converted to [bool]; [increment_until_true] (102-108) is the
    [else] branch. *)
Fixpoint apply_with_mask {TC TZ : Type} (zc : TZ -> TC) (outp : outmode)
    (c : row TC) (z : row TZ) (m : row bool) : row TC :=
  match m with
  | [] => match outp with MERGE => c | REPLACE => [] end
  | (mi, b) :: m' =>
      if b then
        let c1 := match outp with MERGE => drop_below c mi | REPLACE => c end in
        let z1 := drop_below z mi in
        match outp with MERGE => take_below c mi | REPLACE => [] end
        ++ (match z1 with
            | (k, v) :: _ => if k =? mi then [(mi, zc v)] else []
            | [] => []
            end)
        ++ apply_with_mask zc outp
             (match c1 with
              | (k, _) :: c1' => if k =? mi then c1' else c1
              | [] => []
              end)
             z1 m'
      else apply_with_mask zc outp c z m'
  end.

(** [get_complement_row] and [get_complement_contents], sparse_helpers.hpp:900-926 and
    1096-1121; with values converted to [true], [get_structural_complement_row] and
    [get_structural_complement_contents], 930-952 and 1124-1144. *)
Fixpoint complement_loop (ixs : list nat) (it : row bool) : row bool :=
  match ixs with
  | [] => []
  | ix :: ixs' =>
      match it with
      | [] => (ix, true) :: complement_loop ixs' it
      | (k, b) :: it' =>
          if ix <? k then (ix, true) :: complement_loop ixs' it
          else if negb b then (ix, true) :: complement_loop ixs' it'
          else complement_loop ixs' it'
      end
  end.

(** Masks: [NoMask], a container used by value, and the three views
    (/repo/src/graphblas/ComplementView.hpp, StructureView.hpp,
    StructuralComplementView.hpp). *)
Inductive mask (X : Type) : Type :=
| NoMask
| MVal (m : X)
| MComp (m : X)
| MStruct (m : X)
| MSComp (m : X).
Arguments NoMask {X}.
Arguments MVal {X} m.
Arguments MComp {X} m.
Arguments MStruct {X} m.
Arguments MSComp {X} m.

(** The mask row handed to [apply_with_mask] by the [write_with_opt_mask] overloads;
    [truthy] is the conversion of a mask scalar to [bool].
    [get_structure_row]: sparse_helpers.hpp:885-896. *)
Definition mask_row {TM : Type} (truthy : TM -> bool) (m : mask (lil TM)) (i : nat)
  : res (row bool) :=
  match m with
  | NoMask => UB (* never used *)
  | MVal M => r <- getrow M i ;; Ok (cast_row truthy r)
  | MComp M => r <- getrow M i ;; Ok (complement_loop (seq 0 (ncols M)) (cast_row truthy r))
  | MStruct M => r <- getrow M i ;; Ok (cast_row (fun _ => true) r)
  | MSComp M =>
      r <- getrow M i ;; Ok (complement_loop (seq 0 (ncols M)) (cast_row (fun _ => true) r))
  end.

(** [write_with_opt_mask], the five overloads, sparse_helpers.hpp:956-1070. *)
Definition write_with_opt_mask {TC TZ TM : Type} (truthy : TM -> bool) (zc : TZ -> TC)
    (C : lil TC) (Z : lil TZ) (m : mask (lil TM)) (outp : outmode) : res (lil TC) :=
  match m with
  | NoMask => sparse_copy zc C Z
  | _ =>
      mfor (seq 0 (nrows C))
        (fun i C' =>
           c <- getrow C' i ;;
           z <- getrow Z i ;;
           mr <- mask_row truthy m i ;;
           setRow (fun x => x) C' i (apply_with_mask zc outp c z mr))
        C
  end.

(** The mask contents handed to [apply_with_mask] by the 1D overloads.
    [get_structure_contents] etc., sparse_helpers.hpp:1078-1144. *)
Definition mask_contents {TM : Type} (truthy : TM -> bool) (m : mask (bvec TM))
  : res (row bool) :=
  match m with
  | NoMask => UB (* never used *)
  | MVal v => r <- getContents v ;; Ok (cast_row truthy r)
  | MComp v => r <- getContents v ;; Ok (complement_loop (seq 0 (vsize v)) (cast_row truthy r))
  | MStruct v => r <- getContents v ;; Ok (cast_row (fun _ => true) r)
  | MSComp v =>
      r <- getContents v ;; Ok (complement_loop (seq 0 (vsize v)) (cast_row (fun _ => true) r))
  end.

(** [write_with_opt_mask_1D], the five overloads, sparse_helpers.hpp:1148-1247. *)
Definition write_with_opt_mask_1D {TW TZ TM : Type} (truthy : TM -> bool) (zc : TZ -> TW)
    (w : bvec TW) (z : row TZ) (m : mask (bvec TM)) (outp : outmode) : res (bvec TW) :=
  match m with
  | NoMask => setContents zc w z
  | _ =>
      c <- getContents w ;;
      mr <- mask_contents truthy m ;;
      setContents (fun x => x) w (apply_with_mask zc outp c z mr)
  end.

(** The two last phases of every matrix operation: build [Z] from [C] and [T] with the
    accumulator, then write it through the mask (e.g. sparse_mxm.hpp:92-107). *)
Definition accum_write {TC TT TZ TM : Type} (truthy : TM -> bool) (zc : TZ -> TC)
    (a : accum TC TT TZ) (m : mask (lil TM)) (outp : outmode)
    (C : lil TC) (T : lil TT) : res (lil TC) :=
  Z <- ewise_or_opt_accum a (lil_new (nrows C) (ncols C)) C T ;;
  write_with_opt_mask truthy zc C Z m outp.

(** The same for vector operations (e.g. sparse_mxv.hpp:88-104). *)
Definition accum_write_1D {TW TT TZ TM : Type} (truthy : TM -> bool) (zc : TZ -> TW)
    (a : accum TW TT TZ) (m : mask (bvec TM)) (outp : outmode)
    (w : bvec TW) (t : row TT) : res (bvec TW) :=
  z <- ewise_or_opt_accum_1D a w t ;;
  write_with_opt_mask_1D truthy zc w z m outp.

(** [xpey], sparse_helpers.hpp:1340-1366: [vec1 += vec2]. *)
Fixpoint xpey {D1 D2 : Type} (op : D1 -> D2 -> D1) (cast : D2 -> D1)
    (v1 : row D1) (v2 : row D2) : row D1 :=
  match v2 with
  | [] => v1
  | (j, x) :: v2' =>
      take_below v1 j
      ++ match drop_below v1 j with
         | (k, y) :: v1' =>
             if k =? j then (k, op y x) :: xpey op cast v1' v2'
             else (j, cast x) :: xpey op cast ((k, y) :: v1') v2'
         | [] => (j, cast x) :: xpey op cast [] v2'
         end
  end.

(** [axpy], sparse_helpers.hpp:1373-1409: [c += a * b[:]]. *)
Fixpoint axpy {TA TB TT : Type} (add : TT -> TT -> TT) (mult : TA -> TB -> TT)
    (a : TA) (c : row TT) (b : row TB) : row TT :=
  match b with
  | [] => c
  | (j, bj) :: b' =>
      let t := mult a bj in
      take_below c j
      ++ match drop_below c j with
         | (k, y) :: c' =>
             if k =? j then (k, add y t) :: axpy add mult a c' b'
             else (j, t) :: axpy add mult a ((k, y) :: c') b'
         | [] => (j, t) :: axpy add mult a [] b'
         end
  end.
