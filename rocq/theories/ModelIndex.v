(** Model of extract and assign (sequential backend) and of their frontends. *)
From Verif Require Import Base ModelLil ModelVec ModelHelpers ModelViews.

(** [check_size_nindices], [check_nrows_nindices], [check_ncols_nindices],
    detail/checks.hpp:158-190, 246-257: no check for [AllIndices]. *)
Definition check_nindices (n : nat) (s : idxseq) : res unit :=
  match s with
  | AllIdx => Ok tt
  | _ => check_eq n (length (idx_list s))
  end.

(** [check_nindices_within_size] etc., checks.hpp:77-87, 280-325. *)
Definition check_nindices_within (s : idxseq) (n : nat) : res unit :=
  match s with
  | AllIdx => Ok tt
  | _ => throw_if (n <? length (idx_list s)) DimensionException
  end.

(** [check_index_within_ncols], [check_index_within_nrows], checks.hpp:65-75, 262-275. *)
Definition check_index_within (i n : nat) : res unit :=
  throw_if (n <=? i) InvalidIndexException.

(** Iteration with a running output position. *)
Definition enum {X : Type} (l : list X) : list (nat * X) := combine (seq 0 (length l)) l.

(** ** extract *)

(** [vectorExtract], sparse_extract.hpp:65-107: the source is searched from its beginning
    for every index. *)
Definition vectorExtract {T : Type} (src : row T) (ix : list nat) : row T :=
  fold_left
    (fun dest '(out_idx, wanted_idx) =>
       match drop_below src wanted_idx with
       | (k, v) :: _ => if k =? wanted_idx then dest ++ [(out_idx, v)] else dest
       | [] => dest
       end)
    (enum ix) [].

(** [matrixExtract], sparse_extract.hpp:110-139, 142-197 (transposed). *)
Definition matrixExtract_A {T : Type} (nr nc : nat) (A : lil T) (ri ci : list nat)
  : res (lil T) :=
  mfor (enum ri)
    (fun '(out_row_index, row_it) C =>
       ra <- getrow A row_it ;;
       let out_row := vectorExtract ra ci in
       if empty out_row then Ok C else setRow (fun x => x) C out_row_index out_row)
    (lil_new nr nc).

Definition matrixExtract_AT {T : Type} (nr nc : nat) (A : lil T) (ri ci : list nat)
  : res (lil T) :=
  mfor (enum ci)
    (fun '(out_row_idx, col_it) C =>
       mfor (enum ri)
         (fun '(out_col_idx, wanted_idx) C =>
            ra <- getrow A col_it ;;
            match drop_below ra wanted_idx with
            | (k, v) :: _ =>
                if k =? wanted_idx then pushrow C out_col_idx (out_row_idx, v) else Ok C
            | [] => Ok C
            end)
         C)
    (lil_new nr nc).

Definition matrixExtract {T : Type} (nr nc : nat) (A : mview T) (ri ci : list nat)
  : res (lil T) :=
  match A with
  | Mat A => matrixExtract_A nr nc A ri ci
  | Trn A => matrixExtract_AT nr nc A ri ci
  end.

(** The scans of [extractColumn], sparse_extract.hpp:227-257 and (transposed, which does
    not stop at a match) 260-297. *)
Fixpoint scan_first {T : Type} (r : row T) (j : nat) : option T :=
  match r with
  | [] => None
  | (k, v) :: r' => if k =? j then Some v else if j <? k then None else scan_first r' j
  end.
Fixpoint scan_all {T : Type} (r : row T) (j : nat) : list T :=
  match r with
  | [] => []
  | (k, v) :: r' => if k =? j then v :: scan_all r' j else if j <? k then [] else scan_all r' j
  end.

Definition extractColumn {T : Type} (A : mview T) (ri : list nat) (col_index : nat)
  : res (row T) :=
  match A with
  | Mat A =>
      mfor (enum ri)
        (fun '(out_row_index, it) t =>
           ra <- getrow A it ;;
           Ok (match scan_first ra col_index with
               | Some v => t ++ [(out_row_index, v)]
               | None => t
               end))
        []
  | Trn A =>
      r <- getrow A col_index ;;
      mfor (enum ri)
        (fun '(out_row_index, it) t =>
           Ok (t ++ map (fun v => (out_row_index, v)) (scan_all r it)))
        []
  end.

(** Frontend operations.hpp:354-384, backend sparse_extract.hpp:311-357. *)
Definition extract_v {TU TW TZ TM : Type} (truthy : TM -> bool) (zc : TZ -> TW)
    (a : accum TW TU TZ) (m : mask (bvec TM)) (outp : outmode) (w : bvec TW) (u : bvec TU)
    (s : idxseq) : res (bvec TW) :=
  _ <- check_mask_size (vsize w) m ;;
  _ <- check_nindices (vsize w) s ;;
  _ <- check_index_array_content s (vsize u) ;;
  uc <- getContents u ;;
  let t := vectorExtract uc (idx_list (setupIndices s (Nat.min (vsize w) (vsize u)))) in
  accum_write_1D truthy zc a m outp w t.

(** Frontend operations.hpp:387-426, backend sparse_extract.hpp:366-416. *)
Definition extract_m {TA TC TZ TM : Type} (truthy : TM -> bool) (zc : TZ -> TC)
    (a : accum TC TA TZ) (m : mask (lil TM)) (outp : outmode) (C : lil TC) (A : mview TA)
    (rs cs : idxseq) : res (lil TC) :=
  _ <- check_mask_rows (nrows C) m ;;
  _ <- check_mask_cols (ncols C) m ;;
  _ <- check_nindices (nrows C) rs ;;
  _ <- check_nindices (ncols C) cs ;;
  _ <- check_index_array_content rs (vrows A) ;;
  _ <- check_index_array_content cs (vcols A) ;;
  T <- matrixExtract (nrows C) (ncols C) A
         (idx_list (setupIndices rs (Nat.min (vrows A) (nrows C))))
         (idx_list (setupIndices cs (Nat.min (vcols A) (ncols C)))) ;;
  accum_write truthy zc a m outp C T.

(** Frontend operations.hpp:429-466, backend sparse_extract.hpp:427-473. *)
Definition extract_col {TA TW TZ TM : Type} (truthy : TM -> bool) (zc : TZ -> TW)
    (a : accum TW TA TZ) (m : mask (bvec TM)) (outp : outmode) (w : bvec TW) (A : mview TA)
    (rs : idxseq) (col_index : nat) : res (bvec TW) :=
  _ <- check_mask_size (vsize w) m ;;
  _ <- check_nindices (vsize w) rs ;;
  _ <- check_index_within col_index (vcols A) ;;
  _ <- check_index_array_content rs (vrows A) ;;
  t <- extractColumn A (idx_list (setupIndices rs (Nat.min (vrows A) (vsize w)))) col_index ;;
  accum_write_1D truthy zc a m outp w t.

(** ** assign *)

(** [std::sort] by the first component, sparse_assign.hpp:49-56, 79.  Insertion sort;
    among equal keys [std::sort] may order differently. *)
Fixpoint insert_pair (p : nat * nat) (l : list (nat * nat)) : list (nat * nat) :=
  match l with
  | [] => [p]
  | q :: l' => if fst q <? fst p then q :: insert_pair p l' else p :: l
  end.
Fixpoint sort_pairs (l : list (nat * nat)) : list (nat * nat) :=
  match l with
  | [] => []
  | p :: l' => insert_pair p (sort_pairs l')
  end.

(** [compute_outin_mapping], sparse_assign.hpp:58-80: pairs (output index, input index). *)
Definition compute_outin_mapping (ix : list nat) : list (nat * nat) :=
  sort_pairs (map (fun '(idx, i) => (i, idx)) (enum ix)).

(** [vectorExpand], sparse_assign.hpp:83-145.  The inner loop: *)
Fixpoint expand_walk {T : Type} (it : row T) (wanted : nat) : row T :=
  match it with
  | [] => []
  | (k, v) :: it' => if k =? wanted then it else if wanted <? k then it else expand_walk it' wanted
  end.
(** ... and the outer loop; [src] is the whole source, to which the iterator [it] is reset
    when it is exhausted or the next wanted index lies before it.  (When it is exhausted the
    value of [src_idx] does not matter.) *)
Fixpoint expand_loop {T : Type} (src it : row T) (pairs : list (nat * nat)) (dest : row T)
  : row T :=
  match pairs with
  | [] => dest
  | (o, i) :: pairs' =>
      let it1 := expand_walk it i in
      let dest1 := match it1 with
                   | (k, v) :: _ => if k =? i then dest ++ [(o, v)] else dest
                   | [] => dest
                   end in
      let it2 := match pairs', it1 with
                 | (_, i') :: _, (k, _) :: _ => if i' <? k then src else it1
                 | _ :: _, [] => src
                 | [], _ => it1
                 end in
      expand_loop src it2 pairs' dest1
  end.
Definition vectorExpand {T : Type} (src : row T) (pairs : list (nat * nat)) : row T :=
  expand_loop src src pairs [].

(** [matrixExpand], sparse_assign.hpp:147-181, 183-217 (transposed). *)
Definition matrixExpand {T : Type} (nr nc : nat) (A : mview T) (ri ci : list nat)
  : res (lil T) :=
  match A with
  | Mat A =>
      let oi_pairs := compute_outin_mapping ci in
      mfor (seq 0 (length ri))
        (fun in_row_index T' =>
           ra <- getrow A in_row_index ;;
           if empty ra then Ok T' else
           out_row_index <- vat ri in_row_index ;;
           let out_row := vectorExpand ra oi_pairs in
           if empty out_row then Ok T' else setRow (fun x => x) T' out_row_index out_row)
        (lil_new nr nc)
  | Trn A =>
      let oi_row_pairs := compute_outin_mapping ri in
      mfor (compute_outin_mapping ci)
        (fun '(out_col_index, in_col_index) T' =>
           ra <- getrow A in_col_index ;;
           pushcol (fun v => v) out_col_index (vectorExpand ra oi_row_pairs) T')
        (lil_new nr nc)
  end.

(** Backend of the vector variant, sparse_assign.hpp:275-324.  For [NoAccumulate] the
    intermediate type [TZ] is the scalar type of [w], so [cz'] and [zc] are then
    identities. *)
Definition assign_v_backend {TU TW TZ TM : Type} (cz' : TW -> TZ) (truthy : TM -> bool)
    (zc : TZ -> TW) (a : accum TW TU TZ) (m : mask (bvec TM)) (outp : outmode) (w : bvec TW)
    (u : bvec TU) (s : idxseq) : res (bvec TW) :=
  _ <- check_index_array_content s (vsize w) ;;
  let s' := setupIndices s (vsize u) in
  uc <- getContents u ;;
  let t := vectorExpand uc (compute_outin_mapping (idx_list s')) in
  z <- ewise_or_stencil_opt_accum_1D a cz' w t s' ;;
  write_with_opt_mask_1D truthy zc w z m outp.

(** Frontend operations.hpp:474-510. *)
Definition assign_v {TU TW TZ TM : Type} (cz' : TW -> TZ) (truthy : TM -> bool)
    (zc : TZ -> TW) (a : accum TW TU TZ) (m : mask (bvec TM)) (outp : outmode) (w : bvec TW)
    (u : bvec TU) (s : idxseq) : res (bvec TW) :=
  _ <- check_mask_size (vsize w) m ;;
  _ <- check_nindices (vsize u) s ;;
  assign_v_backend cz' truthy zc a m outp w u s.

(** Frontend operations.hpp:513-551, backend sparse_assign.hpp:326-380. *)
Definition assign_m {TA TC TZ TM : Type} (cz' : TC -> TZ) (truthy : TM -> bool)
    (zc : TZ -> TC) (a : accum TC TA TZ) (m : mask (lil TM)) (outp : outmode) (C : lil TC)
    (A : mview TA) (rs cs : idxseq) : res (lil TC) :=
  _ <- check_mask_rows (nrows C) m ;;
  _ <- check_mask_cols (ncols C) m ;;
  _ <- check_nindices (vrows A) rs ;;
  _ <- check_nindices (vcols A) cs ;;
  _ <- check_index_array_content rs (nrows C) ;;
  _ <- check_index_array_content cs (ncols C) ;;
  let rs' := setupIndices rs (vrows A) in
  let cs' := setupIndices cs (vcols A) in
  T <- matrixExpand (nrows C) (ncols C) A (idx_list rs') (idx_list cs') ;;
  Z <- ewise_or_stencil_opt_accum a cz' (lil_new (nrows C) (ncols C)) C T rs' cs' ;;
  write_with_opt_mask truthy zc C Z m outp.

(** A stored row or column as a vector, sparse_assign.hpp:410-415, 466-471.  [dflt] is the
    value [CScalarType()]. *)
Definition vec_of_row {TC : Type} (dflt : TC) (n : nat) (r : row TC) : res (bvec TC) :=
  c_vec <- vec_new dflt n ;;
  mfor r (fun '(i, v) c => vec_setElement c i v) c_vec.

(** ... and back, sparse_assign.hpp:421-430, 477-486: arrays of [nvals()] entries are filled
    by [extractTuples].  A count that differs from the number of stored elements would write
    past these arrays or leave entries unset; both are [UB] here. *)
Definition row_of_vec {TC : Type} (c_vec : bvec TC) : res (row TC) :=
  t <- vec_extractTuples c_vec ;;
  if (Z.of_nat (length t) =? vnvals c_vec)%Z then Ok t else UB.

(** Column variant: frontend operations.hpp:554-593, backend sparse_assign.hpp:382-433. *)
Definition assign_col {TU TC TZ TM : Type} (dflt : TC) (cz' : TC -> TZ) (truthy : TM -> bool)
    (zc : TZ -> TC) (a : accum TC TU TZ) (m : mask (bvec TM)) (outp : outmode) (C : lil TC)
    (u : bvec TU) (rs : idxseq) (col_index : nat) : res (lil TC) :=
  _ <- check_mask_size (nrows C) m ;;
  _ <- check_nindices (vsize u) rs ;;
  _ <- check_index_within col_index (ncols C) ;;
  _ <- check_index_array_content rs (nrows C) ;;
  C_col <- getCol C col_index ;;
  c_vec <- vec_of_row dflt (nrows C) C_col ;;
  c_vec' <- assign_v_backend cz' truthy zc a m outp c_vec u rs ;;
  col_data <- row_of_vec c_vec' ;;
  setCol (fun x => x) C col_index col_data.

(** Row variant: frontend operations.hpp:596-634, backend sparse_assign.hpp:435-488. *)
Definition assign_row {TU TC TZ TM : Type} (dflt : TC) (cz' : TC -> TZ) (truthy : TM -> bool)
    (zc : TZ -> TC) (a : accum TC TU TZ) (m : mask (bvec TM)) (outp : outmode) (C : lil TC)
    (u : bvec TU) (row_index : nat) (cs : idxseq) : res (lil TC) :=
  _ <- check_mask_size (ncols C) m ;;
  _ <- check_nindices (vsize u) cs ;;
  _ <- check_index_within row_index (nrows C) ;;
  _ <- check_index_array_content cs (ncols C) ;;
  C_row <- getrow C row_index ;;
  c_vec <- vec_of_row dflt (ncols C) C_row ;;
  c_vec' <- assign_v_backend cz' truthy zc a m outp c_vec u cs ;;
  row_data <- row_of_vec c_vec' ;;
  setRow (fun x => x) C row_index row_data.

(** Constant variants: frontend operations.hpp:637-677, backend sparse_assign.hpp:490-537. *)
Definition assign_const_v {TV TW TZ TM : Type} (cz' : TW -> TZ) (truthy : TM -> bool)
    (zc : TZ -> TW) (a : accum TW TV TZ) (m : mask (bvec TM)) (outp : outmode) (w : bvec TW)
    (val : TV) (s : idxseq) : res (bvec TW) :=
  _ <- check_mask_size (vsize w) m ;;
  _ <- check_nindices_within s (vsize w) ;;
  _ <- check_index_array_content s (vsize w) ;;
  let s' := setupIndices s (vsize w) in
  let t := map (fun i => (i, val)) (idx_list s') in
  z <- ewise_or_stencil_opt_accum_1D a cz' w t s' ;;
  write_with_opt_mask_1D truthy zc w z m outp.

(** Frontend operations.hpp:680-722, backend sparse_assign.hpp:219-271, 539-593. *)
Definition assign_const_m {TV TC TZ TM : Type} (cz' : TC -> TZ) (truthy : TM -> bool)
    (zc : TZ -> TC) (a : accum TC TV TZ) (m : mask (lil TM)) (outp : outmode) (C : lil TC)
    (val : TV) (rs cs : idxseq) : res (lil TC) :=
  _ <- check_mask_rows (nrows C) m ;;
  _ <- check_mask_cols (ncols C) m ;;
  _ <- check_nindices_within rs (nrows C) ;;
  _ <- check_nindices_within cs (ncols C) ;;
  _ <- check_index_array_content rs (nrows C) ;;
  _ <- check_index_array_content cs (ncols C) ;;
  let rs' := setupIndices rs (nrows C) in
  let cs' := setupIndices cs (ncols C) in
  T <- mfor (idx_list rs')
         (fun row_it T' =>
            let out_row := map (fun j => (j, val)) (idx_list cs') in
            if empty out_row then Ok T' else setRow (fun x => x) T' row_it out_row)
         (lil_new (nrows C) (ncols C)) ;;
  Z <- ewise_or_stencil_opt_accum a cz' (lil_new (nrows C) (ncols C)) C T rs' cs' ;;
  write_with_opt_mask truthy zc C Z m outp.
