(** Model of betweenness centrality.  /repo/src/algorithms/bc.hpp.
    The numbers of paths ([int32_t]) are unbounded integers (but see ModelBc32) and the real numbers ([float],
    [double]) rationals here: neither overflow nor rounding is modelled.  [n] bounds the iterations
    of the breadth first search; [Ok None] means that it has not ended. *)
From Coq Require Import QArith Qcanon.
From Verif Require Import Base ModelLil ModelVec ModelHelpers ModelViews ModelMul ModelElem
  ModelIndex ModelUtils ModelAlgoBase ModelRank.
Local Open Scope nat_scope.

(** An [int32_t] converted to a real number. *)
Definition zq (z : Z) : Qc := Q2Qc (inject_Z z).
(** [for (i = d - 1; i > 0; --i)] where [i] is [d - 1] at first. *)
Fixpoint mdown {S : Type} (i : nat) (body : nat -> S -> res S) (s : S) : res S :=
  match i with
  | O => Ok s
  | S j => s' <- body i s ;; mdown j body s'
  end.
(** [*Sigmas[i]]: an access beyond the end is undefined. *)
Definition sigma_at {X : Type} (l : list X) (i : nat) : res X :=
  match nth_error l i with Some x => Ok x | None => UB end.
(** Copying the result to a [std::vector], e.g. bc.hpp:279-286. *)
Definition to_vector {X : Type} (zero : X) (n : nat) (w : bvec X) : res (list X) :=
  mfor (seq 0 n)
    (fun k l => h <- vec_hasElement w k ;;
       if (h : bool) then x <- vec_extractElement w k ;; Ok (l ++ [x]) else Ok (l ++ [zero])) [].

Section Batch.
(** [T] is the scalar type of the graph, [ti] and [tq] its conversions to [int32_t] and to a real
    number. *)
Context {T : Type} (ti : T -> Z) (tq : T -> Qc).
Context (n : nat) (A : lil T) (src : list nat).

(** The products of [ArithmeticSemiring<int32_t>] and [ArithmeticSemiring<float>]. *)
Definition mul_ia (x : Z) (a : T) : Z := (x * ti a)%Z.
Definition mul_ai (a : T) (x : Z) : Z := (ti a * x)%Z.
Definition mul_qa (x : Qc) (a : T) : Qc := (x * tq a)%Qc.
Definition mul_aq (a : T) (x : Qc) : Qc := (tq a * x)%Qc.

(** State of the searches: [Frontier], [NumSP], [Sigmas] (the depth [d] is their number). *)
Definition bcs (X : Type) : Type := lil Z * lil Z * list (lil X).
Definition bc_more {X : Type} (s : bcs X) : bool := has_vals (nvals (fst (fst s))).

(** [Sigma[d] = (bool)Frontier], bc.hpp:134-139, 363-367, 530-534, 711-716. *)
Definition bc_sigma (Frontier : lil Z) : res (lil bool) :=
  apply ztrue btrue idc (NoAcc idc) mnomask MERGE (lil_new (nrows Frontier) (ncols Frontier)) (Mat Frontier).
(** [P = F + P], 143-148, 370-373, 537-540, 719-723. *)
Definition bc_count (P F : lil Z) : res (lil Z) :=
  eWiseAdd Z.add idc idc Z.add idc idc btrue idc (NoAcc idc) mnomask MERGE P (Mat P) (Mat F).
(** [F<!P> = F +.* A], 152-158, 376-380, 895-901. *)
Definition bc_next_r (P F : lil Z) : res (lil Z) :=
  mxm Z.add mul_ia mul_ai idc idc ztrue idc (NoAcc idc) (MComp P) REPLACE F (Mat F) (Mat A).
(** [F<!P> = A' +.* F], 543-549, 702-708. *)
Definition bc_next_c (P F : lil Z) : res (lil Z) :=
  mxm Z.add mul_ai mul_ia idc idc ztrue idc (NoAcc idc) (MComp P) REPLACE F (Trn A) (Mat F).

(** The loop bodies 360-383 (also 129-162), 528-552, 699-726 and 882-903. *)
Definition bc_body_r (s : bcs bool) : res (bcs bool) :=
  let '(F, P, Sigmas) := s in
  Sg <- bc_sigma F ;; P <- bc_count P F ;; F <- bc_next_r P F ;; Ok (F, P, Sigmas ++ [Sg]).
Definition bc_body_c (s : bcs bool) : res (bcs bool) :=
  let '(F, P, Sigmas) := s in
  Sg <- bc_sigma F ;; P <- bc_count P F ;; F <- bc_next_c P F ;; Ok (F, P, Sigmas ++ [Sg]).
Definition bc_body_src (s : bcs bool) : res (bcs bool) :=
  let '(F, P, Sigmas) := s in
  F <- bc_next_c P F ;; Sg <- bc_sigma F ;; P <- bc_count P F ;; Ok (F, P, Sigmas ++ [Sg]).
Definition bc_body_old (s : bcs Z) : res (bcs Z) :=
  let '(F, P, Sigmas) := s in
  let Sg := F in
  P <- eWiseAdd Z.add idc idc Z.add idc idc btrue idc (NoAcc idc) mnomask MERGE P (Mat F) (Mat P) ;;
  F <- bc_next_r P F ;; Ok (F, P, Sigmas ++ [Sg]).

(** [NspInv = 1 ./ NumSP], 166-171, 387-393, 556-562, 729-735. *)
Definition bc_inverse (P : lil Z) : res (lil Qc) :=
  apply (fun x => Qcinv (zq x)) btrue idc (NoAcc idc) mnomask MERGE (lil_new (nrows P) (ncols P)) (Mat P).
(** [BCu] filled with ones, 174-181, 395-402, 564-572, 737-745 and 906-912. *)
Definition bc_ones (r c : nat) : res (lil Qc) :=
  assign_const_m idc btrue idc (NoAcc idc) mnomask MERGE (lil_new r c) 1%Qc AllIdx AllIdx.

(** The body of the back propagation, 407-431 (also 187-218): state [W] and [BCu]. *)
Definition bc_back_r (P : lil Z) (NspInv : lil Qc) (Sigmas : list (lil bool)) (i : nat) (s : lil Qc * lil Qc)
  : res (lil Qc * lil Qc) :=
  let '(W, BCu) := s in
  Si <- sigma_at Sigmas i ;;
  W <- eWiseMult Qcmult Qcmult idc btrue idc (NoAcc idc) (MVal Si) REPLACE W (Mat NspInv) (Mat BCu) ;;
  Sp <- sigma_at Sigmas (i - 1) ;;
  W <- mxm Qcplus mul_qa mul_aq idc idc btrue idc (NoAcc idc) (MVal Sp) REPLACE W (Mat W) (Trn A) ;;
  BCu <- eWiseMult (fun x y => (x * zq y)%Qc) Qcmult zq btrue idc (Acc Qcplus idc idc) mnomask MERGE
           BCu (Mat W) (Mat P) ;;
  Ok (W, BCu).
(** 577-603, 750-778. *)
Definition bc_back_c (P : lil Z) (NspInv : lil Qc) (Sigmas : list (lil bool)) (i : nat) (s : lil Qc * lil Qc)
  : res (lil Qc * lil Qc) :=
  let '(W, BCu) := s in
  Si <- sigma_at Sigmas i ;;
  W <- eWiseMult Qcmult Qcmult idc btrue idc (NoAcc idc) (MVal Si) REPLACE W (Mat NspInv) (Mat BCu) ;;
  Sp <- sigma_at Sigmas (i - 1) ;;
  W <- mxm Qcplus mul_aq mul_qa idc idc btrue idc (NoAcc idc) (MVal Sp) REPLACE W (Mat A) (Mat W) ;;
  BCu <- eWiseMult (fun x y => (x * zq y)%Qc) Qcmult zq btrue idc (Acc Qcplus idc idc) mnomask MERGE
           BCu (Mat W) (Mat P) ;;
  Ok (W, BCu).
(** 917-956; [i] is [d - 1]. *)
Definition bc_back_old (P : lil Z) (Sigmas : list (lil Z)) (i : nat) (s : lil Qc * lil Qc)
  : res (lil Qc * lil Qc) :=
  let '(W, U) := s in
  Si <- sigma_at Sigmas i ;;
  W <- eWiseMult (fun x y => (x / zq y)%Qc) Qcdiv zq ztrue idc (NoAcc idc) (MVal Si) REPLACE W (Mat U) (Mat P) ;;
  W <- mxm Qcplus mul_qa mul_aq idc idc btrue idc (NoAcc idc) mnomask REPLACE W (Mat W) (Trn A) ;;
  Sp <- sigma_at Sigmas (i - 1) ;;
  W <- eWiseMult (fun x y => (x * zq y)%Qc) Qcmult zq ztrue idc (NoAcc idc) (MVal Sp) REPLACE W (Mat W) (Mat P) ;;
  U <- eWiseAdd Qcplus idc idc Qcplus idc idc btrue idc (NoAcc idc) mnomask REPLACE U (Mat U) (Mat W) ;;
  Ok (W, U).

(** The sums of the columns of [BCu] (or, when the sources are in the columns, of the rows) minus
    the number of sources: 434-458, 611-633, 782-805, 960-983. *)
Definition bc_result (p N : nat) (B : mview Qc) : res (list Qc) :=
  result <- vec_new 0%Qc N ;;
  result <- assign_const_v idc btrue idc (NoAcc idc) vnomask MERGE result (- qn p)%Qc AllIdx ;;
  result <- reduce idc Qcplus Qcplus btrue idc (Acc Qcplus idc idc) vnomask MERGE result B ;;
  to_vector 0%Qc N result.
(** 222-288: the reduction first, then the subtraction. *)
Definition bc_result_v2 (p N : nat) (B : mview Qc) : res (list Qc) :=
  result <- vec_new 0%Qc N ;;
  result <- reduce idc Qcplus Qcplus btrue idc (NoAcc idc) vnomask REPLACE result B ;;
  result <- apply_v (fun x => (x - qn p)%Qc) btrue idc (NoAcc idc) vnomask REPLACE result result ;;
  to_vector 0%Qc N result.

(** The tests at the beginning of every function, e.g. 82-97. *)
Definition bc_check {X : Type} (k : res X) : res X :=
  if length src =? 0 then Throw DimensionException
  else if negb (nrows A =? ncols A) then Throw DimensionException else k.
(** The tuples given to [build]: one row, or column, per source. *)
Definition src_rows : list (nat * nat * Z) := map (fun i => (i, nth i src 0, 1%Z)) (seq 0 (length src)).
Definition src_cols : list (nat * nat * Z) := map (fun i => (nth i src 0, i, 1%Z)) (seq 0 (length src)).

(** bc.hpp:74-289 *)
Definition bc_batch_alt_trans_v2 : res (option (list Qc)) :=
  let p := length src in
  let N := ncols A in
  bc_check (
  F <- extract_m btrue idc (NoAcc ti) mnomask MERGE (lil_new p N) (Mat A) (IdxArr src) AllIdx ;;
  P <- build_or_throw (lil_new p N) src_rows ;;
  r <- mwhile n (fun s => bc_more s && (length (snd s) <? 10)) bc_body_r (F, P, []) ;;
  match r with
  | None => Ok None
  | Some (F, P, Sigmas) =>
      NspInv <- bc_inverse P ;;
      BCu <- bc_ones p N ;;
      s <- mdown (length Sigmas - 1) (bc_back_r P NspInv Sigmas) (lil_new p N, BCu) ;;
      l <- bc_result_v2 p N (Trn (snd s)) ;;
      Ok (Some l)
  end).

(** bc.hpp:317-459 *)
Definition bc_batch_alt_trans : res (option (list Qc)) :=
  let p := length src in
  let N := ncols A in
  bc_check (
  F <- extract_m btrue idc (NoAcc ti) mnomask MERGE (lil_new p N) (Mat A) (IdxArr src) AllIdx ;;
  P <- build_or_throw (lil_new p N) src_rows ;;
  r <- mwhile n bc_more bc_body_r (F, P, []) ;;
  match r with
  | None => Ok None
  | Some (F, P, Sigmas) =>
      NspInv <- bc_inverse P ;;
      BCu <- bc_ones p N ;;
      s <- mdown (length Sigmas - 1) (bc_back_r P NspInv Sigmas) (lil_new p N, BCu) ;;
      l <- bc_result p N (Trn (snd s)) ;;
      Ok (Some l)
  end).

(** bc.hpp:486-634 *)
Definition bc_batch_alt : res (option (list Qc)) :=
  let p := length src in
  let N := ncols A in
  bc_check (
  F <- extract_m btrue idc (NoAcc ti) mnomask MERGE (lil_new N p) (Trn A) AllIdx (IdxArr src) ;;
  P <- build_or_throw (lil_new N p) src_cols ;;
  r <- mwhile n bc_more bc_body_c (F, P, []) ;;
  match r with
  | None => Ok None
  | Some (F, P, Sigmas) =>
      NspInv <- bc_inverse P ;;
      BCu <- bc_ones N p ;;
      s <- mdown (length Sigmas - 1) (bc_back_c P NspInv Sigmas) (lil_new N p, BCu) ;;
      l <- bc_result p N (Mat (snd s)) ;;
      Ok (Some l)
  end).

(** bc.hpp:661-806 *)
Definition bc_batch : res (option (list Qc)) :=
  let p := length src in
  let N := ncols A in
  bc_check (
  F <- build_or_throw (lil_new N p) src_cols ;;
  r <- mwhile n bc_more bc_body_src (F, F, []) ;;
  match r with
  | None => Ok None
  | Some (F, P, Sigmas) =>
      NspInv <- bc_inverse P ;;
      BCu <- bc_ones N p ;;
      s <- mdown (length Sigmas - 1) (bc_back_c P NspInv Sigmas) (lil_new N p, BCu) ;;
      l <- bc_result p N (Mat (snd s)) ;;
      Ok (Some l)
  end).

(** bc.hpp:836-984 *)
Definition bc_batch_old : res (option (list Qc)) :=
  let p := length src in
  let N := ncols A in
  bc_check (
  P <- build_or_throw (lil_new p N) src_rows ;;
  F <- extract_m btrue idc (NoAcc ti) mnomask MERGE (lil_new p N) (Mat A) (IdxArr src) AllIdx ;;
  r <- mwhile n bc_more bc_body_old (F, P, []) ;;
  match r with
  | None => Ok None
  | Some (F, P, Sigmas) =>
      U <- bc_ones p N ;;
      s <- mdown (length Sigmas - 1) (bc_back_old P Sigmas) (lil_new p N, U) ;;
      l <- bc_result p N (Trn (snd s)) ;;
      Ok (Some l)
  end).
End Batch.

Section All.
(** The numbers of [MatrixT::ScalarType]: [Plus], [Minus], [Times], [Div], [MultiplicativeInverse],
    the conversion of an index and the conversion to [bool]. *)
Context {T : Type} (add sub mul div : T -> T -> T) (inv : T -> T) (ofn : nat -> T) (tb : T -> bool).
Context (n : nat) (graph : lil T).

(** State of a search: [frontier], [n_shortest_paths], [search]. *)
Definition vbs : Type := bvec T * bvec T * list (bvec bool).

(** bc.hpp:1038-1063 *)
Definition vbc_body (s : vbs) : res vbs :=
  let '(frontier, nsp, search) := s in
  Sg <- vec_new false (nrows graph) ;;
  Sg <- apply_v tb btrue idc (NoAcc idc) vnomask MERGE Sg frontier ;;
  nsp <- eWiseAdd_v add idc idc btrue idc (NoAcc idc) vnomask MERGE nsp nsp frontier ;;
  frontier <- vxm add mul tb idc (NoAcc idc) (MComp nsp) REPLACE frontier frontier (Mat graph) ;;
  Ok (frontier, nsp, search ++ [Sg]).
(** 1081-1108; state [weights] and [update]. *)
Definition vbc_back (nsp inv_nsp : bvec T) (search : list (bvec bool)) (idx : nat) (s : bvec T * bvec T)
  : res (bvec T * bvec T) :=
  let '(weights, update) := s in
  Si <- sigma_at search idx ;;
  weights <- eWiseMult_v mul btrue idc (NoAcc idc) (MVal Si) REPLACE weights inv_nsp update ;;
  Sp <- sigma_at search (idx - 1) ;;
  weights <- mxv add mul mul btrue idc (NoAcc idc) (MVal Sp) REPLACE weights (Mat graph) weights ;;
  update <- eWiseMult_v mul btrue idc (Acc add idc idc) vnomask REPLACE update weights nsp ;;
  Ok (weights, update).
(** 1022-1115: the contribution of source [i]. *)
Definition vbc_source (i : nat) (bc_vec : bvec T) : res (option (bvec T)) :=
  let N := nrows graph in
  frontier <- vec_new (ofn 0) N ;;
  frontier <- extract_col btrue idc (NoAcc idc) vnomask REPLACE frontier (Trn graph) AllIdx i ;;
  nsp <- vec_new (ofn 0) N ;;
  nsp <- vec_setElement nsp i (ofn 1) ;;
  r <- mwhile n (fun s => has_vals (vnvals (fst (fst s)))) vbc_body (frontier, nsp, []) ;;
  match r with
  | None => Ok None
  | Some (frontier, nsp, search) =>
      inv_nsp <- vec_new (ofn 0) N ;;
      inv_nsp <- apply_v inv btrue idc (NoAcc idc) vnomask MERGE inv_nsp nsp ;;
      update <- vec_new (ofn 0) N ;;
      update <- assign_const_v idc btrue idc (NoAcc idc) vnomask MERGE update (ofn 1) AllIdx ;;
      weights <- vec_new (ofn 0) N ;;
      s <- mdown (length search - 1) (vbc_back nsp inv_nsp search) (weights, update) ;;
      bc_vec <- eWiseAdd_v add idc idc btrue idc (NoAcc idc) vnomask MERGE bc_vec bc_vec (snd s) ;;
      Ok (Some bc_vec)
  end.
(** bc.hpp:1004-1142.  [None]: some search has not ended. *)
Definition vertex_betweenness_centrality : res (option (list T)) :=
  let N := nrows graph in
  if negb (N =? ncols graph) then Throw DimensionException else
  bc_vec <- vec_new (ofn 0) N ;;
  r <- mfor (seq 0 N) (fun i o => match o with None => Ok None | Some w => vbc_source i w end) (Some bc_vec) ;;
  match r with
  | None => Ok None
  | Some bc_vec =>
      bias <- vec_new (ofn 0) N ;;
      bias <- assign_const_v idc btrue idc (NoAcc idc) vnomask MERGE bias (ofn N) AllIdx ;;
      bc_vec <- eWiseAdd_v sub idc idc btrue idc (NoAcc idc) vnomask REPLACE bc_vec bc_vec bias ;;
      l <- to_vector (ofn 0) N bc_vec ;;
      Ok (Some l)
  end.

(** ** [edge_betweenness_centrality], bc.hpp:1158-1297 *)

(** 1196-1225; the search starts with the root alone as [search[0]].  The numbers of paths are converted to [bool] directly; the
    conversion through [int32_t] is in ModelEbcTypes. *)
Definition ebc_body (s : vbs) : res vbs :=
  let '(frontier, nsp, search) := s in
  Sg <- vec_new false (nrows graph) ;;
  Sg <- apply_v tb btrue idc (NoAcc idc) vnomask MERGE Sg frontier ;;
  nsp <- eWiseAdd_v add idc idc btrue idc (NoAcc idc) vnomask REPLACE nsp nsp frontier ;;
  frontier <- vxm add mul tb idc (NoAcc idc) (MComp nsp) REPLACE frontier frontier (Mat graph) ;;
  Ok (frontier, nsp, search ++ [Sg]).
(** [diag(w)]: [extractTuples] then [build], 1246-1250 and 1267-1271. *)
Definition ebc_diag (w : bvec T) : res (lil T) :=
  ts <- vec_extractTuples w ;;
  build_or_throw (lil_new (nrows graph) (nrows graph)) (map (fun '(i, x) => (i, i, x)) ts).
(** 1227-1294; state [score], [update] and [flow]. *)
Definition ebc_back (nsp : bvec T) (search : list (bvec bool)) (depth : nat) (s : lil T * lil T * bvec T)
  : res (lil T * lil T * bvec T) :=
  let '(score, update, flow) := s in
  let N := nrows graph in
  weights <- vec_new (ofn 0) N ;;
  Sd <- sigma_at search depth ;;
  weights <- eWiseMult_v div btrue idc (NoAcc idc) (MVal Sd) MERGE weights flow nsp ;;
  weights <- eWiseAdd_v (fun x (b : bool) => add x (ofn (if b then 1 else 0))) idc
               (fun b : bool => ofn (if b then 1 else 0)) btrue idc (NoAcc idc) vnomask MERGE weights weights Sd ;;
  wmat <- ebc_diag weights ;;
  update <- mxm add mul mul idc idc btrue idc (NoAcc idc) mnomask MERGE update (Mat graph) (Mat wmat) ;;
  Sp <- sigma_at search (depth - 1) ;;
  weights <- apply_v idc btrue idc (NoAcc idc) (MVal Sp) REPLACE weights nsp ;;
  wmat <- ebc_diag weights ;;
  update <- mxm add mul mul idc idc btrue idc (NoAcc idc) mnomask MERGE update (Mat wmat) (Mat update) ;;
  score <- eWiseAdd add idc idc add idc idc btrue idc (NoAcc idc) mnomask MERGE score (Mat score) (Mat update) ;;
  flow <- reduce idc add add btrue idc (NoAcc idc) vnomask MERGE flow (Mat update) ;;
  Ok (score, update, flow).
(** 1174-1295: the contribution of one root. *)
Definition ebc_source (root : nat) (score : lil T) : res (option (lil T)) :=
  let N := nrows graph in
  frontier <- vec_new (ofn 0) N ;;
  frontier <- extract_col btrue idc (NoAcc idc) vnomask MERGE frontier (Trn graph) AllIdx root ;;
  nsp <- vec_new (ofn 0) N ;;
  nsp <- vec_setElement nsp root (ofn 1) ;;
  flow <- vec_new (ofn 0) N ;;
  S0 <- vec_new false N ;;
  S0 <- vec_setElement S0 root true ;;
  r <- mwhile n (fun s => has_vals (vnvals (fst (fst s)))) ebc_body (frontier, nsp, [S0]) ;;
  match r with
  | None => Ok None
  | Some (frontier, nsp, search) =>
      s <- mdown (length search - 1) (ebc_back nsp search) (score, lil_new N N, flow) ;;
      Ok (Some (fst (fst s)))
  end.
Definition edge_betweenness_centrality : res (option (lil T)) :=
  let N := nrows graph in
  if negb (N =? ncols graph) then Throw DimensionException else
  mfor (seq 0 N) (fun i o => match o with None => Ok None | Some w => ebc_source i w end) (Some (lil_new N N)).
End All.
