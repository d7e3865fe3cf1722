(** Model of the bitmap vector container.
    /repo/src/graphblas/platforms/sequential/BitmapSparseVector.hpp *)
From Verif Require Import Base ModelLil.

(** Data members, BitmapSparseVector.hpp:509-513. *)
Record bvec (T : Type) : Type := mkVec {
  vsize  : nat;
  vnvals : Z;
  vvals  : list T;
  vbits  : list bool
}.
Arguments mkVec {T} vsize vnvals vvals vbits.
Arguments vsize {T} b.
Arguments vnvals {T} b.
Arguments vvals {T} b.
Arguments vbits {T} b.

Section Vec.
(** [dflt] is the value-initialised [ScalarT()] that fills fresh storage. *)
Context {T : Type} (dflt : T).

(** Constructor, BitmapSparseVector.hpp:68-78. *)
Definition vec_new (n : nat) : res (bvec T) :=
  if n =? 0 then Throw InvalidValueException
  else Ok (mkVec n 0 (repeat dflt n) (repeat false n)).

(** Fill constructor, BitmapSparseVector.hpp:80-86: all bits set, count 0. *)
Definition vec_fill (n : nat) (v : T) : bvec T :=
  mkVec n 0 (repeat v n) (repeat true n).

(** Dense constructor, BitmapSparseVector.hpp:95-105. *)
Definition vec_dense (rhs : list T) : res (bvec T) :=
  if length rhs =? 0 then Throw InvalidValueException
  else Ok (mkVec (length rhs) (Z.of_nat (length rhs)) rhs (repeat true (length rhs))).

(** Store one element: [m_vals[i] = v; m_bitmap[i] = true]. *)
Definition vec_store (w : bvec T) (i : nat) (v : T) (n : Z) : res (bvec T) :=
  vs <- vset (vvals w) i v ;;
  bs <- vset (vbits w) i true ;;
  Ok (mkVec (vsize w) n vs bs).

(** Dense constructor with implied zero, BitmapSparseVector.hpp:116-137;
    [keep v] is [v != zero]. *)
Definition vec_dense_zero (keep : T -> bool) (rhs : list T) : res (bvec T) :=
  if length rhs =? 0 then Throw InvalidValueException else
  mfor (seq 0 (length rhs))
    (fun idx w =>
       v <- vat rhs idx ;;
       if keep v then vec_store w idx v (vnvals w + 1)%Z else Ok w)
    (mkVec (length rhs) 0 (repeat dflt (length rhs)) (repeat false (length rhs))).

(** Constructor from index and value arrays, BitmapSparseVector.hpp:143-165.
    The two arrays are given zipped; the count is incremented per tuple. *)
Definition vec_tuples (n : nat) (ts : list (nat * T)) : res (bvec T) :=
  mfor ts
    (fun '(i, v) w =>
       _ <- throw_if (vsize w <=? i) DimensionException ;;
       vec_store w i v (vnvals w + 1)%Z)
    (mkVec n 0 (repeat dflt n) (repeat false n)).

(** Copy assignment, BitmapSparseVector.hpp:190-205. *)
Definition vec_assign (w rhs : bvec T) : res (bvec T) :=
  if negb (vsize w =? vsize rhs) then Throw DimensionException
  else Ok (mkVec (vsize w) (vnvals rhs) (vvals rhs) (vbits rhs)).

(** Assignment from a dense array, BitmapSparseVector.hpp:214-227. *)
Definition vec_assign_dense (w : bvec T) (rhs : list T) : res (bvec T) :=
  if negb (length rhs =? vsize w) then Throw DimensionException else
  w' <- mfor (seq 0 (length rhs))
          (fun idx w => v <- vat rhs idx ;; vec_store w idx v (vnvals w)) w ;;
  Ok (mkVec (vsize w') (Z.of_nat (vsize w')) (vvals w') (vbits w')).

(** [operator==], BitmapSparseVector.hpp:235-258. *)
Definition vec_eqb (eqb : T -> T -> bool) (u v : bvec T) : res bool :=
  if negb (vsize u =? vsize v) || negb (vnvals u =? vnvals v)%Z then Ok false else
  mfor (seq 0 (vsize u))
    (fun i ans =>
       if negb ans then Ok false else
       bu <- vat (vbits u) i ;;
       bv <- vat (vbits v) i ;;
       if negb (Bool.eqb bu bv) then Ok false
       else if bu then
         xu <- vat (vvals u) i ;;
         xv <- vat (vvals v) i ;;
         Ok (eqb xu xv)
       else Ok true)
    true.

(** [clear], BitmapSparseVector.hpp:272-277 ([m_vals] is left alone). *)
Definition vec_clear (w : bvec T) : bvec T :=
  mkVec (vsize w) 0 (vvals w) (repeat false (vsize w)).

(** [std::reduce] over a range of bits with [std::plus]. *)
Definition count_true (bs : list bool) : Z :=
  Z.of_nat (length (filter (fun b => b) bs)).

(** [resize], BitmapSparseVector.hpp:288-328.  [m_size] is overwritten before the
    test [new_size < m_size/2], which therefore compares [new_size] with its own
    half. *)
Definition vec_resize (w : bvec T) (n : nat) : bvec T :=
  if n <? vsize w then
    let nv := if n <? n / 2 then count_true (firstn n (vbits w))
              else (vnvals w - count_true (skipn n (vbits w)))%Z in
    mkVec n nv (vresize (vvals w) n dflt) (vresize (vbits w) n false)
  else if vsize w <? n then
    mkVec n (vnvals w) (vresize (vvals w) n dflt) (vresize (vbits w) n false)
  else w.

(** [build], BitmapSparseVector.hpp:336-367: fresh arrays are filled and swapped in
    at the end; the count becomes the number of tuples. *)
Definition vec_build (dup : T -> T -> T) (w : bvec T) (ts : list (nat * T)) : res (bvec T) :=
  f <- mfor ts
         (fun '(i, v) acc =>
            _ <- throw_if (vsize w <=? i) IndexOutOfBoundsException ;;
            b <- vat (vbits acc) i ;;
            if b then
              old <- vat (vvals acc) i ;;
              vec_store acc i (dup old v) 0
            else vec_store acc i v 0)
         (mkVec (vsize w) 0 (repeat dflt (vsize w)) (repeat false (vsize w))) ;;
  Ok (mkVec (vsize w) (Z.of_nat (length ts)) (vvals f) (vbits f)).

(** [hasElement], BitmapSparseVector.hpp:369-377. *)
Definition vec_hasElement (w : bvec T) (i : nat) : res bool :=
  if vsize w <=? i then Throw IndexOutOfBoundsException else vat (vbits w) i.

(** [extractElement], BitmapSparseVector.hpp:390-403. *)
Definition vec_extractElement (w : bvec T) (i : nat) : res T :=
  if vsize w <=? i then Throw IndexOutOfBoundsException else
  b <- vat (vbits w) i ;;
  if b then vat (vvals w) i else Throw NoValueException.

(** [setElement], BitmapSparseVector.hpp:406-419. *)
Definition vec_setElement (w : bvec T) (i : nat) (v : T) : res (bvec T) :=
  if vsize w <=? i then Throw IndexOutOfBoundsException else
  b <- vat (vbits w) i ;;
  vec_store w i v (if b then vnvals w else vnvals w + 1)%Z.

(** [removeElement], BitmapSparseVector.hpp:421-433. *)
Definition vec_removeElement (w : bvec T) (i : nat) : res (bvec T) :=
  if vsize w <=? i then Throw IndexOutOfBoundsException else
  b <- vat (vbits w) i ;;
  if b then
    bs <- vset (vbits w) i false ;;
    Ok (mkVec (vsize w) (vnvals w - 1)%Z (vvals w) bs)
  else Ok w.

(** [getContents], BitmapSparseVector.hpp:482-494; [extractTuples], 437-448, visits
    the same elements in the same order. *)
Definition getContents (w : bvec T) : res (row T) :=
  mfor (seq 0 (vsize w))
    (fun idx acc =>
       b <- vat (vbits w) idx ;;
       if b then v <- vat (vvals w) idx ;; Ok (acc ++ [(idx, v)]) else Ok acc)
    [].
Definition vec_extractTuples (w : bvec T) : res (row T) := getContents w.

(** [setContents], BitmapSparseVector.hpp:497-507: no range check, so an index
    [>= size] is undefined behaviour; the count is incremented per tuple. *)
Definition setContents {S : Type} (cast : S -> T) (w : bvec T) (c : row S) : res (bvec T) :=
  mfor c (fun '(i, v) w' => vec_store w' i (cast v) (vnvals w' + 1)%Z) (vec_clear w).

End Vec.
