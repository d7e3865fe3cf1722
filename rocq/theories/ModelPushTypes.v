(** Model of the push-relabel maximum flow algorithm over the built-in integer types.
    /repo/src/algorithms/maxflow.hpp:40-250.  ModelPush is the same over the unbounded integers.
    [t] is the scalar type of the capacities, in which flows, excesses, heights and positions are kept too.
    Sums and differences are computed in the promoted type (undefined if a signed one overflows) and
    converted to [t] where they are stored. *)
From Verif Require Import Base ModelLil ModelVec ModelHelpers ModelViews ModelMul ModelElem
  ModelIndex ModelAlgoBase ModelFlow ModelPush ModelAlgebra ModelOps ModelInts.

Section Push.
Context (t : ctype).

(** [at(C, u, v) - at(F, u, v)], in the promoted type. *)
Definition ipr_residual (C F : lil Z) (u v : nat) : res Z :=
  c <- at_m C u v ;; f <- at_m F u v ;; arith (promote t) (c - f).

(** [push], maxflow.hpp:58-76: the new [F] and [excess]. *)
Definition ipr_push (C F : lil Z) (excess : bvec Z) (u v : nat) : res (lil Z * bvec Z) :=
  a <- at_v excess u ;;
  b <- ipr_residual C F u v ;;
  let b := convert t b in
  let send := if (b <? a)%Z then b else a in
  x <- at_m F u v ;;
  y <- Plus t x send ;;
  F <- lil_setElement F u v y ;;
  x <- at_m F v u ;;
  y <- Minus t x send ;;
  F <- lil_setElement F v u y ;;
  x <- at_v excess u ;;
  y <- Minus t x send ;;
  excess <- vec_setElement excess u y ;;
  x <- at_v excess v ;;
  y <- Plus t x send ;;
  excess <- vec_setElement excess v y ;;
  Ok (F, excess).

(** [relabel], maxflow.hpp:79-98: the new [height]. *)
Definition ipr_relabel (C F : lil Z) (height : bvec Z) (u : nat) : res (bvec Z) :=
  s <- mfor (seq 0 (nrows C)) (fun v '(height, min_height) =>
         r <- ipr_residual C F u v ;;
         if (0 <? r)%Z then
           a <- at_v height v ;;
           let min_height := if (a <? min_height)%Z then a else min_height in
           y <- Plus t min_height 1%Z ;;
           height <- vec_setElement height u y ;;
           Ok (height, min_height)
         else Ok (height, min_height)) (height, tmax t) ;;
  Ok (fst s).

(** The body of the loop of [discharge], maxflow.hpp:112-132.  The position is converted to
    [IndexType] in 113 and 115. *)
Definition ipr_step (C : lil Z) (u : nat) (x : pr_state) : res pr_state :=
  k <- at_v (pr_seen x) u ;;
  if (convert (CInt false W64) k <? Z.of_nat (nrows C))%Z then
    let v := Z.to_nat (convert (CInt false W64) k) in
    r <- ipr_residual C (pr_F x) u v ;;
    adm <- (if (0 <? r)%Z then
              hu <- at_v (pr_height x) u ;;
              hv <- at_v (pr_height x) v ;;
              Ok (hv <? hu)%Z
            else Ok false) ;;
    if adm : bool then
      fe <- ipr_push C (pr_F x) (pr_excess x) u v ;;
      Ok (mkPr (fst fe) (snd fe) (pr_height x) (pr_seen x))
    else
      y <- Plus t k 1%Z ;;
      seen <- vec_setElement (pr_seen x) u y ;;
      Ok (mkPr (pr_F x) (pr_excess x) (pr_height x) seen)
  else
    height <- ipr_relabel C (pr_F x) (pr_height x) u ;;
    seen <- vec_setElement (pr_seen x) u 0%Z ;;
    Ok (mkPr (pr_F x) (pr_excess x) height seen).

(** [discharge], maxflow.hpp:102-133, with at most [n] tests of the condition. *)
Definition ipr_discharge (n : nat) (C : lil Z) (u : nat) (x : pr_state) : res (option pr_state) :=
  mwhileM n (fun x => e <- at_v (pr_excess x) u ;; Ok (0 <? e)%Z) (ipr_step C u) x.

(** The main loop, maxflow.hpp:208-231, as in ModelPush. *)
Fixpoint ipr_main (n fuel : nat) (C : lil Z) (list : list nat) (p : nat) (x : pr_state)
  : res (option pr_state) :=
  match n with
  | O => Ok None
  | S n' =>
      if (Z.of_nat p <? pr_last (nrows C))%Z then
        match nth_error list p with
        | None => UB
        | Some u =>
            old_height <- at_v (pr_height x) u ;;
            o <- ipr_discharge fuel C u x ;;
            match o with
            | None => Ok None
            | Some x =>
                h <- at_v (pr_height x) u ;;
                if (old_height <? h)%Z then
                  ipr_main n' fuel C (u :: firstn p list ++ skipn (p + 1) list) 0 x
                else ipr_main n' fuel C list (p + 1) x
            end
        end
      else Ok (Some x)
  end.

(** The sums of the rows of the flow, 242-244 ([reduce] with [Plus<T>]): an undefined sum makes the call
    undefined. *)
Definition ipr_flows (F : lil Z) : res (bvec ival) :=
  flows <- vec_new (Ok 0%Z : ival) (nrows F) ;;
  flows <- reduce (fun x : Z => Ok x : ival) (fun x y => Plus t x y) (fun s x => s <- s ;; Plus t s x) btrue idc
             (NoAcc idc) vnomask MERGE flows (Mat F) ;;
  defined_v flows.

(** [maxflow_push_relabel], maxflow.hpp:172-250, with at most [n] tests of the condition of each loop. *)
Definition imaxflow_push_relabel (n : nat) (capacity : lil Z) (source sink : nat) : res (option Z) :=
  let num_nodes := nrows capacity in
  height <- vec_new 0%Z num_nodes ;;
  excess <- vec_new 0%Z num_nodes ;;
  seen <- vec_new 0%Z num_nodes ;;
  let list := filter (fun i => negb (i =? source) && negb (i =? sink)) (seq 0 num_nodes) in
  height <- vec_setElement height source (convert t (Z.of_nat num_nodes)) ;;
  excess <- vec_setElement excess source (tmax t) ;;
  fe <- mfor (seq 0 num_nodes) (fun i '(F, excess) => ipr_push capacity F excess source i)
          (lil_new num_nodes (ncols capacity), excess) ;;
  o <- ipr_main n n capacity list 0 (mkPr (fst fe) (snd fe) height seen) ;;
  match o with
  | None => Ok None
  | Some x =>
      flows <- ipr_flows (pr_F x) ;;
      h <- vec_hasElement flows source ;;
      r <- (if h : bool then vec_extractElement flows source else Ok (Ok 0%Z)) ;;
      r <- r ;;
      Ok (Some r)
  end.
End Push.
