(** Model of the batch betweenness centrality with the real numbers of any type, and with [float] and [double] as in the code.
    /repo/src/algorithms/bc.hpp.  The numbers of paths are [int32_t] as in ModelBc32, of which the searches are taken: a sum or product
    of them outside the range of the type is undefined. *)
From Coq Require Import ZArith Floats.SpecFloat.
From Verif Require Import Base ModelLil ModelVec ModelHelpers ModelViews ModelMul ModelElem
  ModelIndex ModelUtils ModelAlgoBase ModelInts ModelBc ModelBc32 ModelFloat ModelFsssp.
Local Open Scope nat_scope.

Section Reals.
(** The real numbers: [0], [1], the operators, the conversion of an [int32_t]; [neg_count] is the constant [-1.0f * nsver],
    [count] the conversion of [nsver]. *)
Context {R : Type} (zero one : R) (plus minus times div : R -> R -> R) (inv : R -> R) (ofz : Z -> R) (neg_count count : nat -> R).
(** [T] is the scalar type of the graph, [ti] and [ta] its conversions to [int32_t] and to a real number. *)
Context {T : Type} (ti : T -> Z) (ta : T -> R).
Context (n : nat) (A : lil T) (src : list nat).

(** The products of [ArithmeticSemiring<float>] or [<double>], algebra.hpp:521. *)
Definition xmul_ra (x : R) (a : T) : R := times x (ta a).
Definition xmul_ar (a : T) (x : R) : R := times (ta a) x.

(** [NspInv = 1 ./ NumSP], bc.hpp:166-171, 387-393, 556-562, 729-735. *)
Definition xb_inverse (P : lil Z) : res (lil R) :=
  apply (fun x => inv (ofz x)) btrue idc (NoAcc idc) mnomask MERGE (lil_new (nrows P) (ncols P)) (Mat P).
(** [BCu] filled with ones, 174-181, 395-402, 564-572, 737-745 and 906-912. *)
Definition xb_ones (r c : nat) : res (lil R) :=
  assign_const_m idc btrue idc (NoAcc idc) mnomask MERGE (lil_new r c) one AllIdx AllIdx.

(** The body of the back propagation, 407-431 (also 187-218): state [W] and [BCu]. *)
Definition xb_back_r (P : lil Z) (NspInv : lil R) (Sigmas : list (lil bool)) (i : nat) (s : lil R * lil R)
  : res (lil R * lil R) :=
  let '(W, BCu) := s in
  Si <- sigma_at Sigmas i ;;
  W <- eWiseMult times times idc btrue idc (NoAcc idc) (MVal Si) REPLACE W (Mat NspInv) (Mat BCu) ;;
  Sp <- sigma_at Sigmas (i - 1) ;;
  W <- mxm plus xmul_ra xmul_ar idc idc btrue idc (NoAcc idc) (MVal Sp) REPLACE W (Mat W) (Trn A) ;;
  BCu <- eWiseMult (fun x y => times x (ofz y)) times ofz btrue idc (Acc plus idc idc) mnomask MERGE
           BCu (Mat W) (Mat P) ;;
  Ok (W, BCu).
(** 577-603, 750-778. *)
Definition xb_back_c (P : lil Z) (NspInv : lil R) (Sigmas : list (lil bool)) (i : nat) (s : lil R * lil R)
  : res (lil R * lil R) :=
  let '(W, BCu) := s in
  Si <- sigma_at Sigmas i ;;
  W <- eWiseMult times times idc btrue idc (NoAcc idc) (MVal Si) REPLACE W (Mat NspInv) (Mat BCu) ;;
  Sp <- sigma_at Sigmas (i - 1) ;;
  W <- mxm plus xmul_ar xmul_ra idc idc btrue idc (NoAcc idc) (MVal Sp) REPLACE W (Mat A) (Mat W) ;;
  BCu <- eWiseMult (fun x y => times x (ofz y)) times ofz btrue idc (Acc plus idc idc) mnomask MERGE
           BCu (Mat W) (Mat P) ;;
  Ok (W, BCu).
(** 917-956; [i] is [d - 1]. *)
Definition xb_back_old (P : lil Z) (Sigmas : list (lil Z)) (i : nat) (s : lil R * lil R)
  : res (lil R * lil R) :=
  let '(W, U) := s in
  Si <- sigma_at Sigmas i ;;
  W <- eWiseMult (fun x y => div x (ofz y)) div ofz ztrue idc (NoAcc idc) (MVal Si) REPLACE W (Mat U) (Mat P) ;;
  W <- mxm plus xmul_ra xmul_ar idc idc btrue idc (NoAcc idc) mnomask REPLACE W (Mat W) (Trn A) ;;
  Sp <- sigma_at Sigmas (i - 1) ;;
  W <- eWiseMult (fun x y => times x (ofz y)) times ofz ztrue idc (NoAcc idc) (MVal Sp) REPLACE W (Mat W) (Mat P) ;;
  U <- eWiseAdd plus idc idc plus idc idc btrue idc (NoAcc idc) mnomask REPLACE U (Mat U) (Mat W) ;;
  Ok (W, U).

(** The sums minus the number of sources: 434-458, 611-633, 782-805, 960-983. *)
Definition xb_result (p N : nat) (B : mview R) : res (list R) :=
  result <- vec_new zero N ;;
  result <- assign_const_v idc btrue idc (NoAcc idc) vnomask MERGE result (neg_count p) AllIdx ;;
  result <- reduce idc plus plus btrue idc (Acc plus idc idc) vnomask MERGE result B ;;
  to_vector zero N result.
(** 222-288: the reduction first, then the subtraction. *)
Definition xb_result_v2 (p N : nat) (B : mview R) : res (list R) :=
  result <- vec_new zero N ;;
  result <- reduce idc plus plus btrue idc (NoAcc idc) vnomask REPLACE result B ;;
  result <- apply_v (fun x => minus x (count p)) btrue idc (NoAcc idc) vnomask REPLACE result result ;;
  to_vector zero N result.

(** bc.hpp:74-289 *)
Definition xbc_batch_alt_trans_v2 : res (option (list R)) :=
  let p := length src in
  let N := ncols A in
  bc_check A src (
  F <- extract_m btrue idc (NoAcc (fun x => Ok (ti x))) mnomask MERGE (lil_new p N) (Mat A) (IdxArr src) AllIdx ;;
  P <- build_or_throw (lil_new p N) (src_rows32 src) ;;
  r <- mwhile n (fun s => b32_more s && (length (snd s) <? 10)) (b32_body_r ti A) (F, P, []) ;;
  match r with
  | None => Ok None
  | Some (F, P, Sigmas) =>
      NspInv <- xb_inverse (plain P) ;;
      BCu <- xb_ones p N ;;
      s <- mdown (length Sigmas - 1) (xb_back_r (plain P) NspInv Sigmas) (lil_new p N, BCu) ;;
      l <- xb_result_v2 p N (Trn (snd s)) ;;
      Ok (Some l)
  end).

(** bc.hpp:317-459 *)
Definition xbc_batch_alt_trans : res (option (list R)) :=
  let p := length src in
  let N := ncols A in
  bc_check A src (
  F <- extract_m btrue idc (NoAcc (fun x => Ok (ti x))) mnomask MERGE (lil_new p N) (Mat A) (IdxArr src) AllIdx ;;
  P <- build_or_throw (lil_new p N) (src_rows32 src) ;;
  r <- mwhile n b32_more (b32_body_r ti A) (F, P, []) ;;
  match r with
  | None => Ok None
  | Some (F, P, Sigmas) =>
      NspInv <- xb_inverse (plain P) ;;
      BCu <- xb_ones p N ;;
      s <- mdown (length Sigmas - 1) (xb_back_r (plain P) NspInv Sigmas) (lil_new p N, BCu) ;;
      l <- xb_result p N (Trn (snd s)) ;;
      Ok (Some l)
  end).

(** bc.hpp:486-634 *)
Definition xbc_batch_alt : res (option (list R)) :=
  let p := length src in
  let N := ncols A in
  bc_check A src (
  F <- extract_m btrue idc (NoAcc (fun x => Ok (ti x))) mnomask MERGE (lil_new N p) (Trn A) AllIdx (IdxArr src) ;;
  P <- build_or_throw (lil_new N p) (src_cols32 src) ;;
  r <- mwhile n b32_more (b32_body_c ti A) (F, P, []) ;;
  match r with
  | None => Ok None
  | Some (F, P, Sigmas) =>
      NspInv <- xb_inverse (plain P) ;;
      BCu <- xb_ones N p ;;
      s <- mdown (length Sigmas - 1) (xb_back_c (plain P) NspInv Sigmas) (lil_new N p, BCu) ;;
      l <- xb_result p N (Mat (snd s)) ;;
      Ok (Some l)
  end).

(** bc.hpp:661-806 *)
Definition xbc_batch : res (option (list R)) :=
  let p := length src in
  let N := ncols A in
  bc_check A src (
  F <- build_or_throw (lil_new N p) (src_cols32 src) ;;
  r <- mwhile n b32_more (b32_body_src ti A) (F, F, []) ;;
  match r with
  | None => Ok None
  | Some (F, P, Sigmas) =>
      NspInv <- xb_inverse (plain P) ;;
      BCu <- xb_ones N p ;;
      s <- mdown (length Sigmas - 1) (xb_back_c (plain P) NspInv Sigmas) (lil_new N p, BCu) ;;
      l <- xb_result p N (Mat (snd s)) ;;
      Ok (Some l)
  end).

(** bc.hpp:836-984 *)
Definition xbc_batch_old : res (option (list R)) :=
  let p := length src in
  let N := ncols A in
  bc_check A src (
  P <- build_or_throw (lil_new p N) (src_rows32 src) ;;
  F <- extract_m btrue idc (NoAcc (fun x => Ok (ti x))) mnomask MERGE (lil_new p N) (Mat A) (IdxArr src) AllIdx ;;
  r <- mwhile n b32_more (b32_body_old ti A) (F, P, []) ;;
  match r with
  | None => Ok None
  | Some (F, P, Sigmas) =>
      U <- xb_ones p N ;;
      s <- mdown (length Sigmas - 1) (xb_back_old (plain P) (map plain Sigmas)) (lil_new p N, U) ;;
      l <- xb_result p N (Trn (snd s)) ;;
      Ok (Some l)
  end).
End Reals.

(** The functions over a floating point type: [float] for the first four, [double] for the last.  [-1.0f * nsver] converts
    [nsver] first. *)
Section Floats.
Context (t : ftype) {T : Type} (ti : T -> Z) (ta : T -> fval).
Definition fb_neg_count (p : nat) : fval := FTimes t (FAdditiveInverse t (f1 t)) (of_int t (Z.of_nat p)).
Definition fb_count (p : nat) : fval := of_int t (Z.of_nat p).
Definition fbc_batch_alt_trans_v2 :=
  xbc_batch_alt_trans_v2 f0 (f1 t) (FPlus t) (FMinus t) (FTimes t) (FMultiplicativeInverse t) (of_int t) fb_count ti ta.
Definition fbc_batch_alt_trans :=
  xbc_batch_alt_trans f0 (f1 t) (FPlus t) (FTimes t) (FMultiplicativeInverse t) (of_int t) fb_neg_count ti ta.
Definition fbc_batch_alt :=
  xbc_batch_alt f0 (f1 t) (FPlus t) (FTimes t) (FMultiplicativeInverse t) (of_int t) fb_neg_count ti ta.
Definition fbc_batch :=
  xbc_batch f0 (f1 t) (FPlus t) (FTimes t) (FMultiplicativeInverse t) (of_int t) fb_neg_count ti ta.
Definition fbc_batch_old :=
  xbc_batch_old f0 (f1 t) (FPlus t) (FTimes t) (FDiv t) (of_int t) fb_neg_count ti ta.
End Floats.

(** bc.hpp:1002-1142 with [MatrixT::ScalarType] [float] or [double] ([static_cast<T>(1)] and [static_cast<T>(num_nodes)] are
    conversions of integers). *)
Definition fvertex_bc (t : ftype) (n : nat) (graph : lil fval) : res (option (list fval)) :=
  vertex_betweenness_centrality (FPlus t) (FMinus t) (FTimes t) (FMultiplicativeInverse t) (fun a => of_int t (Z.of_nat a)) ftrue n graph.
