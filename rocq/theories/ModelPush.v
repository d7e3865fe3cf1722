(** Model of the push-relabel maximum flow algorithm.  /repo/src/algorithms/maxflow.hpp:40-250.
    The scalar type of the capacities, in which heights and positions are kept too, is the unbounded
    integers; [inf] is [std::numeric_limits<T>::max()]. *)
From Verif Require Import Base ModelLil ModelVec ModelHelpers ModelViews ModelMul ModelElem
  ModelIndex ModelAlgoBase ModelFlow.

(** [at], maxflow.hpp:41-46 and 48-54. *)
Definition at_v (v : bvec Z) (i : nat) : res Z :=
  h <- vec_hasElement v i ;; if h : bool then vec_extractElement v i else Ok 0%Z.
Definition at_m (A : lil Z) (i j : nat) : res Z :=
  h <- lil_hasElement A i j ;; if h : bool then lil_extractElement A i j else Ok 0%Z.

(** [at(C, u, v) - at(F, u, v)] *)
Definition pr_residual (C F : lil Z) (u v : nat) : res Z :=
  c <- at_m C u v ;; f <- at_m F u v ;; Ok (c - f)%Z.

(** [push], maxflow.hpp:58-76: the new [F] and [excess]. *)
Definition pr_push (C F : lil Z) (excess : bvec Z) (u v : nat) : res (lil Z * bvec Z) :=
  a <- at_v excess u ;;
  b <- pr_residual C F u v ;;
  let send := Z.min a b in
  x <- at_m F u v ;;
  F <- lil_setElement F u v (x + send)%Z ;;
  x <- at_m F v u ;;
  F <- lil_setElement F v u (x - send)%Z ;;
  x <- at_v excess u ;;
  excess <- vec_setElement excess u (x - send)%Z ;;
  x <- at_v excess v ;;
  excess <- vec_setElement excess v (x + send)%Z ;;
  Ok (F, excess).

(** [relabel], maxflow.hpp:79-98: the new [height]. *)
Definition pr_relabel (inf : Z) (C F : lil Z) (height : bvec Z) (u : nat) : res (bvec Z) :=
  s <- mfor (seq 0 (nrows C)) (fun v '(height, min_height) =>
         r <- pr_residual C F u v ;;
         if (0 <? r)%Z then
           a <- at_v height v ;;
           let min_height := Z.min min_height a in
           height <- vec_setElement height u (min_height + 1)%Z ;;
           Ok (height, min_height)
         else Ok (height, min_height)) (height, inf) ;;
  Ok (fst s).

(** The variables that [discharge] changes. *)
Record pr_state := mkPr { pr_F : lil Z; pr_excess : bvec Z; pr_height : bvec Z; pr_seen : bvec Z }.

(** The body of the loop of [discharge], maxflow.hpp:112-132. *)
Definition pr_step (inf : Z) (C : lil Z) (u : nat) (x : pr_state) : res pr_state :=
  k <- at_v (pr_seen x) u ;;
  if (k <? Z.of_nat (nrows C))%Z then
    let v := Z.to_nat k in
    r <- pr_residual C (pr_F x) u v ;;
    adm <- (if (0 <? r)%Z then
              hu <- at_v (pr_height x) u ;;
              hv <- at_v (pr_height x) v ;;
              Ok (hv <? hu)%Z
            else Ok false) ;;
    if adm : bool then
      fe <- pr_push C (pr_F x) (pr_excess x) u v ;;
      Ok (mkPr (fst fe) (snd fe) (pr_height x) (pr_seen x))
    else
      seen <- vec_setElement (pr_seen x) u (k + 1)%Z ;;
      Ok (mkPr (pr_F x) (pr_excess x) (pr_height x) seen)
  else
    height <- pr_relabel inf C (pr_F x) (pr_height x) u ;;
    seen <- vec_setElement (pr_seen x) u 0%Z ;;
    Ok (mkPr (pr_F x) (pr_excess x) height seen).

(** [discharge], maxflow.hpp:102-133, with at most [n] tests of the condition. *)
Definition pr_discharge (n : nat) (inf : Z) (C : lil Z) (u : nat) (x : pr_state)
  : res (option pr_state) :=
  mwhileM n (fun x => e <- at_v (pr_excess x) u ;; Ok (0 <? e)%Z) (pr_step inf C u) x.

(** [num_nodes - 2] on a 64 bit [IndexType]. *)
Definition pr_last (num_nodes : nat) : Z := ((Z.of_nat num_nodes - 2) mod 2 ^ 64)%Z.

(** The main loop, maxflow.hpp:208-231.  An access beyond the end of [list] is undefined. *)
Fixpoint pr_main (n fuel : nat) (inf : Z) (C : lil Z) (list : list nat) (p : nat) (x : pr_state)
  : res (option pr_state) :=
  match n with
  | O => Ok None
  | S n' =>
      if (Z.of_nat p <? pr_last (nrows C))%Z then
        match nth_error list p with
        | None => UB
        | Some u =>
            old_height <- at_v (pr_height x) u ;;
            o <- pr_discharge fuel inf C u x ;;
            match o with
            | None => Ok None
            | Some x =>
                h <- at_v (pr_height x) u ;;
                if (old_height <? h)%Z then
                  pr_main n' fuel inf C (u :: firstn p list ++ skipn (p + 1) list) 0 x
                else pr_main n' fuel inf C list (p + 1) x
            end
        end
      else Ok (Some x)
  end.

(** [maxflow_push_relabel], maxflow.hpp:172-250, with at most [n] tests of the condition of each loop. *)
Definition maxflow_push_relabel (inf : Z) (n : nat) (capacity : lil Z) (source sink : nat)
  : res (option Z) :=
  let num_nodes := nrows capacity in
  height <- vec_new 0%Z num_nodes ;;
  excess <- vec_new 0%Z num_nodes ;;
  seen <- vec_new 0%Z num_nodes ;;
  let list := filter (fun i => negb (i =? source) && negb (i =? sink)) (seq 0 num_nodes) in
  height <- vec_setElement height source (Z.of_nat num_nodes) ;;
  excess <- vec_setElement excess source inf ;;
  fe <- mfor (seq 0 num_nodes) (fun i '(F, excess) => pr_push capacity F excess source i)
          (lil_new num_nodes (ncols capacity), excess) ;;
  o <- pr_main n n inf capacity list 0 (mkPr (fst fe) (snd fe) height seen) ;;
  match o with
  | None => Ok None
  | Some x =>
      flows <- vec_new 0%Z num_nodes ;;
      flows <- reduce idc Z.add Z.add btrue idc (NoAcc idc) vnomask MERGE flows (Mat (pr_F x)) ;;
      r <- at_v flows source ;;
      Ok (Some r)
  end.

