(** Model of the batch betweenness centrality with the numbers of paths in [int32_t], as in the code.
    /repo/src/algorithms/bc.hpp.  ModelBc has unbounded numbers of paths; here they are the scalars of ModelInts: a sum or a
    product outside the range of [int32_t] is undefined.  The real numbers are rationals as in ModelBc. *)
From Coq Require Import ZArith QArith Qcanon.
From Verif Require Import Base ModelLil ModelVec ModelHelpers ModelViews ModelMul ModelElem
  ModelIndex ModelUtils ModelAlgoBase ModelRank ModelAlgebra ModelInts ModelBc.
Local Open Scope nat_scope.

Definition int32 : ctype := CInt true W32.
(** The conversion to [bool] of a stored number. *)
Definition itrue (x : ival) : bool := match x with Ok z => ztrue z | _ => false end.
(** The numbers of a matrix all of whose elements are defined (other elements cannot occur after [defined_m]). *)
Definition plain (M : lil ival) : lil Z :=
  mkLil (nrows M) (ncols M) (nvals M) (map (cast_row (fun x => match x with Ok z => z | _ => 0%Z end)) (data M)).

Section Batch.
Context {T : Type} (ti : T -> Z) (tq : T -> Qc).
Context (n : nat) (A : lil T) (src : list nat).

(** The products of [ArithmeticSemiring<int32_t>], algebra.hpp:521. *)
Definition imul_ia (x : ival) (a : T) : ival := op2 Times int32 x (Ok (ti a)).
Definition imul_ai (a : T) (x : ival) : ival := op2 Times int32 (Ok (ti a)) x.

(** State of the searches: [Frontier], [NumSP], [Sigmas]. *)
Definition bcs32 (X : Type) : Type := lil ival * lil ival * list (lil X).
Definition b32_more {X : Type} (s : bcs32 X) : bool := has_vals (nvals (fst (fst s))).

(** [Sigma[d] = (bool)Frontier], bc.hpp:134-139, 363-367, 530-534, 711-716. *)
Definition b32_sigma (Frontier : lil ival) : res (lil bool) :=
  apply itrue btrue idc (NoAcc idc) mnomask MERGE (lil_new (nrows Frontier) (ncols Frontier)) (Mat Frontier).
(** [P = X + Y], 143-148, 370-373, 537-540, 719-723, 888-892. *)
Definition b32_count (P X Y : lil ival) : res (lil ival) :=
  P <- eWiseAdd (op2 Plus int32) idc idc (op2 Plus int32) idc idc btrue idc (NoAcc idc) mnomask MERGE P (Mat X) (Mat Y) ;;
  defined_m P.
(** [F<!P> = F +.* A], 152-158, 376-380, 895-901.  [mxm] computes the whole product before it applies the mask
    (sparse_mxm.hpp:51-102, 107-163), so that an overflow at a masked position is undefined too. *)
Definition b32_next_r (P F : lil ival) : res (lil ival) :=
  T <- mxm (op2 Plus int32) imul_ia imul_ai idc idc btrue idc (NoAcc idc) mnomask REPLACE F (Mat F) (Mat A) ;;
  _ <- defined_m T ;;
  mxm (op2 Plus int32) imul_ia imul_ai idc idc itrue idc (NoAcc idc) (MComp P) REPLACE F (Mat F) (Mat A).
(** [F<!P> = A' +.* F], 543-549, 702-708. *)
Definition b32_next_c (P F : lil ival) : res (lil ival) :=
  T <- mxm (op2 Plus int32) imul_ai imul_ia idc idc btrue idc (NoAcc idc) mnomask REPLACE F (Trn A) (Mat F) ;;
  _ <- defined_m T ;;
  mxm (op2 Plus int32) imul_ai imul_ia idc idc itrue idc (NoAcc idc) (MComp P) REPLACE F (Trn A) (Mat F).

(** The loop bodies 360-383 (also 129-162), 528-552, 699-726 and 882-903. *)
Definition b32_body_r (s : bcs32 bool) : res (bcs32 bool) :=
  let '(F, P, Sigmas) := s in
  Sg <- b32_sigma F ;; P <- b32_count P P F ;; F <- b32_next_r P F ;; Ok (F, P, Sigmas ++ [Sg]).
Definition b32_body_c (s : bcs32 bool) : res (bcs32 bool) :=
  let '(F, P, Sigmas) := s in
  Sg <- b32_sigma F ;; P <- b32_count P P F ;; F <- b32_next_c P F ;; Ok (F, P, Sigmas ++ [Sg]).
Definition b32_body_src (s : bcs32 bool) : res (bcs32 bool) :=
  let '(F, P, Sigmas) := s in
  F <- b32_next_c P F ;; Sg <- b32_sigma F ;; P <- b32_count P P F ;; Ok (F, P, Sigmas ++ [Sg]).
Definition b32_body_old (s : bcs32 ival) : res (bcs32 ival) :=
  let '(F, P, Sigmas) := s in
  let Sg := F in
  P <- b32_count P F P ;; F <- b32_next_r P F ;; Ok (F, P, Sigmas ++ [Sg]).

(** The tuples given to [build]. *)
Definition src_rows32 : list (nat * nat * ival) := map (fun i => (i, nth i src 0, Ok 1%Z)) (seq 0 (length src)).
Definition src_cols32 : list (nat * nat * ival) := map (fun i => (nth i src 0, i, Ok 1%Z)) (seq 0 (length src)).

(** bc.hpp:74-289 *)
Definition bc32_batch_alt_trans_v2 : res (option (list Qc)) :=
  let p := length src in
  let N := ncols A in
  bc_check A src (
  F <- extract_m btrue idc (NoAcc (fun x => Ok (ti x))) mnomask MERGE (lil_new p N) (Mat A) (IdxArr src) AllIdx ;;
  P <- build_or_throw (lil_new p N) src_rows32 ;;
  r <- mwhile n (fun s => b32_more s && (length (snd s) <? 10)) b32_body_r (F, P, []) ;;
  match r with
  | None => Ok None
  | Some (F, P, Sigmas) =>
      NspInv <- bc_inverse (plain P) ;;
      BCu <- bc_ones p N ;;
      s <- mdown (length Sigmas - 1) (bc_back_r tq A (plain P) NspInv Sigmas) (lil_new p N, BCu) ;;
      l <- bc_result_v2 p N (Trn (snd s)) ;;
      Ok (Some l)
  end).

(** bc.hpp:317-459 *)
Definition bc32_batch_alt_trans : res (option (list Qc)) :=
  let p := length src in
  let N := ncols A in
  bc_check A src (
  F <- extract_m btrue idc (NoAcc (fun x => Ok (ti x))) mnomask MERGE (lil_new p N) (Mat A) (IdxArr src) AllIdx ;;
  P <- build_or_throw (lil_new p N) src_rows32 ;;
  r <- mwhile n b32_more b32_body_r (F, P, []) ;;
  match r with
  | None => Ok None
  | Some (F, P, Sigmas) =>
      NspInv <- bc_inverse (plain P) ;;
      BCu <- bc_ones p N ;;
      s <- mdown (length Sigmas - 1) (bc_back_r tq A (plain P) NspInv Sigmas) (lil_new p N, BCu) ;;
      l <- bc_result p N (Trn (snd s)) ;;
      Ok (Some l)
  end).

(** bc.hpp:486-634 *)
Definition bc32_batch_alt : res (option (list Qc)) :=
  let p := length src in
  let N := ncols A in
  bc_check A src (
  F <- extract_m btrue idc (NoAcc (fun x => Ok (ti x))) mnomask MERGE (lil_new N p) (Trn A) AllIdx (IdxArr src) ;;
  P <- build_or_throw (lil_new N p) src_cols32 ;;
  r <- mwhile n b32_more b32_body_c (F, P, []) ;;
  match r with
  | None => Ok None
  | Some (F, P, Sigmas) =>
      NspInv <- bc_inverse (plain P) ;;
      BCu <- bc_ones N p ;;
      s <- mdown (length Sigmas - 1) (bc_back_c tq A (plain P) NspInv Sigmas) (lil_new N p, BCu) ;;
      l <- bc_result p N (Mat (snd s)) ;;
      Ok (Some l)
  end).

(** bc.hpp:661-806 *)
Definition bc32_batch : res (option (list Qc)) :=
  let p := length src in
  let N := ncols A in
  bc_check A src (
  F <- build_or_throw (lil_new N p) src_cols32 ;;
  r <- mwhile n b32_more b32_body_src (F, F, []) ;;
  match r with
  | None => Ok None
  | Some (F, P, Sigmas) =>
      NspInv <- bc_inverse (plain P) ;;
      BCu <- bc_ones N p ;;
      s <- mdown (length Sigmas - 1) (bc_back_c tq A (plain P) NspInv Sigmas) (lil_new N p, BCu) ;;
      l <- bc_result p N (Mat (snd s)) ;;
      Ok (Some l)
  end).

(** bc.hpp:836-984 *)
Definition bc32_batch_old : res (option (list Qc)) :=
  let p := length src in
  let N := ncols A in
  bc_check A src (
  P <- build_or_throw (lil_new p N) src_rows32 ;;
  F <- extract_m btrue idc (NoAcc (fun x => Ok (ti x))) mnomask MERGE (lil_new p N) (Mat A) (IdxArr src) AllIdx ;;
  r <- mwhile n b32_more b32_body_old (F, P, []) ;;
  match r with
  | None => Ok None
  | Some (F, P, Sigmas) =>
      U <- bc_ones p N ;;
      s <- mdown (length Sigmas - 1) (bc_back_old tq A (plain P) (map plain Sigmas)) (lil_new p N, U) ;;
      l <- bc_result p N (Trn (snd s)) ;;
      Ok (Some l)
  end).
End Batch.
