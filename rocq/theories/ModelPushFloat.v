(** Model of the push-relabel maximum flow algorithm over [float] and [double].
    /repo/src/algorithms/maxflow.hpp:40-250.  ModelPush is the same over the unbounded integers.
    [t] is the scalar type of the capacities, in which flows, excesses, heights and positions are kept too. *)
From Coq Require Import ZArith Floats.SpecFloat.
From Verif Require Import Base ModelLil ModelVec ModelHelpers ModelViews ModelMul ModelElem
  ModelIndex ModelAlgoBase ModelFlow ModelPush ModelAlgebra ModelOps ModelFloat ModelConv.

Section Push.
Context (t : ftype).

(** [std::numeric_limits<T>::max()] *)
Definition fmax : fval := S754_finite false (Z.to_pos (2 ^ prec t - 1)) (emax t - prec t).

(** [at], maxflow.hpp:41-46 and 48-54. *)
Definition fat_v (v : bvec fval) (i : nat) : res fval :=
  h <- vec_hasElement v i ;; if h : bool then vec_extractElement v i else Ok f0.
Definition fat_m (A : lil fval) (i j : nat) : res fval :=
  h <- lil_hasElement A i j ;; if h : bool then lil_extractElement A i j else Ok f0.

(** [at(C, u, v) - at(F, u, v)] *)
Definition fpr_residual (C F : lil fval) (u v : nat) : res fval :=
  c <- fat_m C u v ;; f <- fat_m F u v ;; Ok (FMinus t c f).

(** [push], maxflow.hpp:58-76: the new [F] and [excess]. *)
Definition fpr_push (C F : lil fval) (excess : bvec fval) (u v : nat) : res (lil fval * bvec fval) :=
  a <- fat_v excess u ;;
  b <- fpr_residual C F u v ;;
  let send := if SFltb b a then b else a in
  x <- fat_m F u v ;;
  F <- lil_setElement F u v (FPlus t x send) ;;
  x <- fat_m F v u ;;
  F <- lil_setElement F v u (FMinus t x send) ;;
  x <- fat_v excess u ;;
  excess <- vec_setElement excess u (FMinus t x send) ;;
  x <- fat_v excess v ;;
  excess <- vec_setElement excess v (FPlus t x send) ;;
  Ok (F, excess).

(** [relabel], maxflow.hpp:79-98: the new [height]. *)
Definition fpr_relabel (C F : lil fval) (height : bvec fval) (u : nat) : res (bvec fval) :=
  s <- mfor (seq 0 (nrows C)) (fun v '(height, min_height) =>
         r <- fpr_residual C F u v ;;
         if SFltb f0 r then
           a <- fat_v height v ;;
           let min_height := if SFltb a min_height then a else min_height in
           height <- vec_setElement height u (FPlus t min_height (f1 t)) ;;
           Ok (height, min_height)
         else Ok (height, min_height)) (height, fmax) ;;
  Ok (fst s).

(** The variables that [discharge] changes. *)
Record fpr_state := mkFpr { fpr_F : lil fval; fpr_excess : bvec fval; fpr_height : bvec fval; fpr_seen : bvec fval }.

(** The body of the loop of [discharge], maxflow.hpp:112-132.  The number of vertices is converted to [T] in
    113, and the position to [IndexType] in 115. *)
Definition fpr_step (C : lil fval) (u : nat) (x : fpr_state) : res fpr_state :=
  k <- fat_v (fpr_seen x) u ;;
  if SFltb k (of_int t (Z.of_nat (nrows C))) then
    i <- float_to_int (CInt false W64) k ;;
    let v := Z.to_nat i in
    r <- fpr_residual C (fpr_F x) u v ;;
    adm <- (if SFltb f0 r then
              hu <- fat_v (fpr_height x) u ;;
              hv <- fat_v (fpr_height x) v ;;
              Ok (SFltb hv hu)
            else Ok false) ;;
    if adm : bool then
      fe <- fpr_push C (fpr_F x) (fpr_excess x) u v ;;
      Ok (mkFpr (fst fe) (snd fe) (fpr_height x) (fpr_seen x))
    else
      seen <- vec_setElement (fpr_seen x) u (FPlus t k (f1 t)) ;;
      Ok (mkFpr (fpr_F x) (fpr_excess x) (fpr_height x) seen)
  else
    height <- fpr_relabel C (fpr_F x) (fpr_height x) u ;;
    seen <- vec_setElement (fpr_seen x) u f0 ;;
    Ok (mkFpr (fpr_F x) (fpr_excess x) height seen).

(** [discharge], maxflow.hpp:102-133, with at most [n] tests of the condition. *)
Definition fpr_discharge (n : nat) (C : lil fval) (u : nat) (x : fpr_state) : res (option fpr_state) :=
  mwhileM n (fun x => e <- fat_v (fpr_excess x) u ;; Ok (SFltb f0 e)) (fpr_step C u) x.

(** The main loop, maxflow.hpp:208-231, as in ModelPush. *)
Fixpoint fpr_main (n fuel : nat) (C : lil fval) (list : list nat) (p : nat) (x : fpr_state)
  : res (option fpr_state) :=
  match n with
  | O => Ok None
  | S n' =>
      if (Z.of_nat p <? pr_last (nrows C))%Z then
        match nth_error list p with
        | None => UB
        | Some u =>
            old_height <- fat_v (fpr_height x) u ;;
            o <- fpr_discharge fuel C u x ;;
            match o with
            | None => Ok None
            | Some x =>
                h <- fat_v (fpr_height x) u ;;
                if SFltb old_height h then
                  fpr_main n' fuel C (u :: firstn p list ++ skipn (p + 1) list) 0 x
                else fpr_main n' fuel C list (p + 1) x
            end
        end
      else Ok (Some x)
  end.

(** [maxflow_push_relabel], maxflow.hpp:172-250, with at most [n] tests of the condition of each loop. *)
Definition fmaxflow_push_relabel (n : nat) (capacity : lil fval) (source sink : nat) : res (option fval) :=
  let num_nodes := nrows capacity in
  height <- vec_new f0 num_nodes ;;
  excess <- vec_new f0 num_nodes ;;
  seen <- vec_new f0 num_nodes ;;
  let list := filter (fun i => negb (i =? source) && negb (i =? sink)) (seq 0 num_nodes) in
  height <- vec_setElement height source (of_int t (Z.of_nat num_nodes)) ;;
  excess <- vec_setElement excess source fmax ;;
  fe <- mfor (seq 0 num_nodes) (fun i '(F, excess) => fpr_push capacity F excess source i)
          (lil_new num_nodes (ncols capacity), excess) ;;
  o <- fpr_main n n capacity list 0 (mkFpr (fst fe) (snd fe) height seen) ;;
  match o with
  | None => Ok None
  | Some x =>
      flows <- vec_new f0 num_nodes ;;
      flows <- reduce idc (FPlus t) (FPlus t) btrue idc (NoAcc idc) vnomask MERGE flows (Mat (fpr_F x)) ;;
      r <- fat_v flows source ;;
      Ok (Some r)
  end.
End Push.
