(** Model of the sparse matrix container.
    /repo/src/graphblas/platforms/sequential/LilSparseMatrix.hpp
    (the optimized_sequential copy is textually identical except for printInfo). *)
From Verif Require Import Base.

(** [RowType = std::vector<std::tuple<IndexType, ScalarT>>],
    LilSparseMatrix.hpp:48-51. *)
Notation row T := (list (nat * T)).

(** The data members, LilSparseMatrix.hpp:790-805.  [nvals] is the exact value
    whose residue mod 2^64 the C++ field holds. *)
Record lil (T : Type) : Type := mkLil {
  nrows : nat;
  ncols : nat;
  nvals : Z;
  data  : list (row T)
}.
Arguments mkLil {T} nrows ncols nvals data.
Arguments nrows {T} l.
Arguments ncols {T} l.
Arguments nvals {T} l.
Arguments data {T} l.

Section Lil.
Context {T : Type}.

(** Constructor, LilSparseMatrix.hpp:54-61. *)
Definition lil_new (nr nc : nat) : lil T :=
  mkLil nr nc 0 (repeat [] nr).

(** Row access [operator[]], LilSparseMatrix.hpp:433-438. *)
Definition getrow (M : lil T) (i : nat) : res (row T) := vat (data M) i.

(** The loop [for jj: m_data[ii].emplace_back(jj, val[ii][jj])] of the dense
    constructors, LilSparseMatrix.hpp:85-90 and 107-114; [keep] is the test
    [val != zero] of the second form (always true in the first). *)
Fixpoint dense_row (keep : T -> bool) (jj : nat) (vs : list T) : row T :=
  match vs with
  | [] => []
  | v :: vs' => if keep v then (jj, v) :: dense_row keep (S jj) vs'
                else dense_row keep (S jj) vs'
  end.

(** Dense constructors, LilSparseMatrix.hpp:73-92 ([keep] constantly true) and
    95-118 ([keep v := v <> zero]).  [val[0]] on an empty array is undefined. *)
Definition lil_dense (keep : T -> bool) (val : list (list T)) : res (lil T) :=
  match val with
  | [] => UB
  | v0 :: _ =>
      let nc := length v0 in
      mfor (seq 0 (length val))
        (fun ii M =>
           vs <- vat val ii ;;
           _ <- throw_if (negb (length vs =? nc)) DimensionException ;;
           let r := dense_row keep 0 vs in
           d <- vset (data M) ii r ;;
           Ok (mkLil (nrows M) (ncols M) (nvals M + Z.of_nat (length r)) d))
        (lil_new (length val) nc)
  end.

(** Assignment, LilSparseMatrix.hpp:125-140. *)
Definition lil_assign (M R : lil T) : res (lil T) :=
  if negb (nrows M =? nrows R) || negb (ncols M =? ncols R)
  then Throw DimensionException
  else Ok (mkLil (nrows M) (ncols M) (nvals R) (data R)).

(** Comparison of rows as [std::vector<std::tuple<...>>] [operator==]. *)
Fixpoint row_eqb (eqb : T -> T -> bool) (r1 r2 : row T) : bool :=
  match r1, r2 with
  | [], [] => true
  | (i, a) :: r1', (j, b) :: r2' => (i =? j) && eqb a b && row_eqb eqb r1' r2'
  | _, _ => false
  end.

Fixpoint rows_eqb (eqb : T -> T -> bool) (l1 l2 : list (row T)) : bool :=
  match l1, l2 with
  | [], [] => true
  | r1 :: l1', r2 :: l2' => row_eqb eqb r1 r2 && rows_eqb eqb l1' l2'
  | _, _ => false
  end.

(** [operator==], LilSparseMatrix.hpp:148-154. *)
Definition lil_eqb (eqb : T -> T -> bool) (M R : lil T) : bool :=
  (nrows M =? nrows R) && (ncols M =? ncols R) && (nvals M =? nvals R)%Z
  && rows_eqb eqb (data M) (data R).

(** [clear], LilSparseMatrix.hpp:189-197. *)
Definition lil_clear (M : lil T) : lil T :=
  mkLil (nrows M) (ncols M) 0 (map (fun _ => []) (data M)).

(** Sum of row sizes, the loops at LilSparseMatrix.hpp:222-225 and 409-418. *)
Definition count_rows (d : list (row T)) : Z :=
  fold_left (fun n r => (n + Z.of_nat (length r))%Z) d 0%Z.

(** [recomputeNvals], LilSparseMatrix.hpp:409-418. *)
Definition lil_recompute (M : lil T) : lil T :=
  mkLil (nrows M) (ncols M) (count_rows (data M)) (data M).

(** Scan to the first stored index [>= nc] and erase from there,
    LilSparseMatrix.hpp:238-250. *)
Fixpoint row_truncate (nc : nat) (r : row T) : row T :=
  match r with
  | [] => []
  | (j, v) :: r' => if j <? nc then (j, v) :: row_truncate nc r' else []
  end.

(** [resize], LilSparseMatrix.hpp:210-256. *)
Definition lil_resize (M : lil T) (nr nc : nat) : lil T :=
  let d1 := vresize (data M) nr [] in
  let n1 := if nr <? nrows M then count_rows d1 else nvals M in
  let '(n2, d2) :=
    if nc <? ncols M then
      fold_left (fun '(n, acc) r =>
                   let r' := row_truncate nc r in
                   ((n - (Z.of_nat (length r) - Z.of_nat (length r')))%Z, acc ++ [r']))
                d1 (n1, [])
    else (n1, d1) in
  mkLil nr nc n2 d2.

(** The linear search of [hasElement]/[extractElement],
    LilSparseMatrix.hpp:274-281 and 301-307. *)
Fixpoint row_find (r : row T) (j : nat) : option T :=
  match r with
  | [] => None
  | (k, v) :: r' => if k =? j then Some v else row_find r' j
  end.

Definition oob (M : lil T) (i j : nat) : bool := (nrows M <=? i) || (ncols M <=? j).

(** [hasElement], LilSparseMatrix.hpp:258-282. *)
Definition lil_hasElement (M : lil T) (i j : nat) : res bool :=
  if oob M i j then Throw IndexOutOfBoundsException else
  match data M with
  | [] => Ok false
  | _ => r <- getrow M i ;;
         Ok (match row_find r j with Some _ => true | None => false end)
  end.

(** [extractElement], LilSparseMatrix.hpp:285-309. *)
Definition lil_extractElement (M : lil T) (i j : nat) : res T :=
  if oob M i j then Throw IndexOutOfBoundsException else
  match data M with
  | [] => Throw NoValueException
  | _ => r <- getrow M i ;;
         match row_find r j with
         | Some v => Ok v
         | None => Throw NoValueException
         end
  end.

(** The insertion loop of both [setElement] overloads,
    LilSparseMatrix.hpp:326-346 and 367-387: new row and whether an element was
    added.  The plain overload is the case [merge old new = new]. *)
Fixpoint row_set (merge : T -> T -> T) (r : row T) (j : nat) (v : T) : row T * bool :=
  match r with
  | [] => ([(j, v)], true)
  | (k, w) :: r' =>
      if k =? j then ((k, merge w v) :: r', false)
      else if j <? k then ((j, v) :: (k, w) :: r', true)
      else let '(r'', b) := row_set merge r' j v in ((k, w) :: r'', b)
  end.

(** [setElement(i, j, v, merge)], LilSparseMatrix.hpp:351-388. *)
Definition lil_setElement_merge (merge : T -> T -> T) (M : lil T) (i j : nat) (v : T)
  : res (lil T) :=
  if oob M i j then Throw IndexOutOfBoundsException else
  r <- getrow M i ;;
  let '(r', b) := row_set merge r j v in
  d <- vset (data M) i r' ;;
  Ok (mkLil (nrows M) (ncols M) (if b then nvals M + 1 else nvals M)%Z d).

(** [setElement(i, j, v)], LilSparseMatrix.hpp:312-347. *)
Definition lil_setElement (M : lil T) (i j : nat) (v : T) : res (lil T) :=
  lil_setElement_merge (fun _ new => new) M i j v.

(** [build], LilSparseMatrix.hpp:170-187.  The loop stops at the first throwing
    [setElement]; the elements inserted before remain, so the state is returned
    together with the outcome. *)
Fixpoint lil_build (dup : T -> T -> T) (M : lil T) (ts : list (nat * nat * T))
  : lil T * res unit :=
  match ts with
  | [] => (M, Ok tt)
  | (i, j, v) :: ts' =>
      match lil_setElement_merge dup M i j v with
      | Ok M' => lil_build dup M' ts'
      | Throw e => (M, Throw e)
      | UB => (M, UB)
      end
  end.

(** [std::find_if] + [erase], LilSparseMatrix.hpp:398-406. *)
Fixpoint row_remove (r : row T) (j : nat) : row T * bool :=
  match r with
  | [] => ([], false)
  | (k, w) :: r' => if k =? j then (r', true)
                    else let '(r'', b) := row_remove r' j in ((k, w) :: r'', b)
  end.

(** [removeElement], LilSparseMatrix.hpp:390-407. *)
Definition lil_removeElement (M : lil T) (i j : nat) : res (lil T) :=
  if oob M i j then Throw IndexOutOfBoundsException else
  r <- getrow M i ;;
  let '(r', b) := row_remove r j in
  d <- vset (data M) i r' ;;
  Ok (mkLil (nrows M) (ncols M) (if b then nvals M - 1 else nvals M)%Z d).

(** [swap], LilSparseMatrix.hpp:421-428: exchanges the rows, copies the count of
    [rhs] into [this], and does not touch the count of [rhs]. *)
Definition lil_swap (M R : lil T) : res (lil T * lil T) :=
  mfor (seq 0 (length (data M)))
    (fun idx '(M', R') =>
       a <- getrow M' idx ;;
       b <- getrow R' idx ;;
       dm <- vset (data M') idx b ;;
       dr <- vset (data R') idx a ;;
       Ok (mkLil (nrows M') (ncols M') (nvals M') dm,
           mkLil (nrows R') (ncols R') (nvals R') dr))
    (mkLil (nrows M) (ncols M) (nvals R) (data M), R).

(** [extractTuples], LilSparseMatrix.hpp:707-720 (row-major). *)
Fixpoint tuples_from (i : nat) (d : list (row T)) : list (nat * nat * T) :=
  match d with
  | [] => []
  | r :: d' => map (fun '(j, v) => (i, j, v)) r ++ tuples_from (S i) d'
  end.
Definition lil_extractTuples (M : lil T) : list (nat * nat * T) := tuples_from 0 (data M).

(** [getCol], LilSparseMatrix.hpp:547-567: every row is scanned completely. *)
Definition getCol (M : lil T) (j : nat) : res (row T) :=
  mfor (seq 0 (nrows M))
    (fun ii acc =>
       r <- getrow M ii ;;
       Ok (acc ++ flat_map (fun '(k, v) => if k =? j then [(ii, v)] else []) r))
    [].

End Lil.

(** [setRow] with conversion, LilSparseMatrix.hpp:446-461 (the move overload
    464-473 is the case [cast := id]). *)
Definition cast_row {S T : Type} (cast : S -> T) (r : row S) : row T :=
  map (fun '(j, v) => (j, cast v)) r.

Definition setRow {S T : Type} (cast : S -> T) (M : lil T) (i : nat) (r : row S)
  : res (lil T) :=
  old <- getrow M i ;;
  d <- vset (data M) i (cast_row cast r) ;;
  Ok (mkLil (nrows M) (ncols M)
            (nvals M + Z.of_nat (length r) - Z.of_nat (length old)) d).

(** [mergeRow] with an accumulator, LilSparseMatrix.hpp:489-542: sorted merge of
    the stored row (left) and [row_data] (right). *)
Section MergeRow.
Context {S T : Type} (cast : S -> T) (op : T -> S -> T).
Fixpoint merge_rows (l : row T) : row S -> row T :=
  fix aux (r : row S) : row T :=
    match l, r with
    | (li, lv) :: l', (ri, rv) :: r' =>
        if li <? ri then (li, lv) :: merge_rows l' r
        else if ri <? li then (ri, cast rv) :: aux r'
        else (li, op lv rv) :: merge_rows l' r'
    | _, [] => l
    | [], _ => cast_row cast r
    end.

Definition mergeRow (M : lil T) (i : nat) (r : row S) : res (lil T) :=
  match r with
  | [] => Ok M
  | _ =>
      old <- getrow M i ;;
      match old with
      | [] => setRow cast M i r
      | _ => setRow (fun x => x) M i (merge_rows old r)
      end
  end.
End MergeRow.

(** The replace-or-insert scan of [setCol], LilSparseMatrix.hpp:606-640; it is the
    scan of [setElement].  [setCol], LilSparseMatrix.hpp:572-650.  State: the matrix
    and the remaining column entries. *)
Definition setCol {S T : Type} (cast : S -> T) (M : lil T) (j : nat) (col : row S)
  : res (lil T) :=
  res_map fst
    (mfor (seq 0 (nrows M))
      (fun i '(M', it) =>
         r <- getrow M' i ;;
         let erase :=
           let '(r', b) := row_remove r j in
           d <- vset (data M') i r' ;;
           Ok (mkLil (nrows M') (ncols M') (if b then nvals M' - 1 else nvals M')%Z d, it) in
         match it with
         | [] => erase
         | (k, v) :: it' =>
             if i <? k then erase
             else if i =? k then
               let '(r', b) := row_set (fun _ new => new) r j (cast v) in
               d <- vset (data M') i r' ;;
               Ok (mkLil (nrows M') (ncols M') (if b then nvals M' + 1 else nvals M')%Z d, it')
             else Throw PanicException
         end)
      (M, col)).
