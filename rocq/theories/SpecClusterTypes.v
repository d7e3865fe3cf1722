(** Peer pressure voting in [double], independently of the model. *)
From Coq Require Import ZArith QArith Qcanon Floats.SpecFloat.
From Verif Require Import Base ModelLil ModelFloat Spec SpecOps SpecFloats SpecRank SpecCluster SpecConv SpecRankTypes.
Local Open Scope nat_scope.

(** The votes of the members of cluster [i] for vertex [v], added in the order of the vertices with one rounding each;
    [w u v] is the vote of [u] for [v].  No value when no member votes for [v]. *)
Definition fvotes (N : nat) (w : nat -> nat -> option fval) (m : nat -> nat -> bool) (i v : nat) : option fval :=
  osum (FPlus CDouble) (map (fun u => if m i u then w u v else None) (seq 0 N)).
(** Cluster [i] wins [v]: it has the most votes; ties are won by the greatest cluster number. *)
Definition fwins (N : nat) (w : nat -> nat -> option fval) (m : nat -> nat -> bool) (i v : nat) : Prop :=
  exists x, fvotes N w m i v = Some x /\
    forall i' y, i' < N -> fvotes N w m i' v = Some y -> SFltb y x = true \/ (feq y x /\ i' <= i).
Definition fround (N : nat) (w : nat -> nat -> option fval) (m m' : nat -> nat -> bool) : Prop :=
  forall i v, i < N -> v < N -> (m' i v = true <-> fwins N w m i v).
Fixpoint frounds (N : nat) (w : nat -> nat -> option fval) (k : nat) (m m' : nat -> nat -> bool) : Prop :=
  match k with
  | O => forall i v, i < N -> v < N -> m' i v = m i v
  | S j => exists m1, fround N w m m1 /\ frounds N w j m1 m'
  end.

(** The weight of an edge, and the weight times the inverse of the sum of all weights that leave the vertex: one rounding for
    each addition, for the inverse and for the product. *)
Definition fweight {T : Type} (tr : T -> fval) (G : lil T) (u v : nat) : option fval := option_map tr (mget G u v).
Definition fshare {T : Type} (N : nat) (tr : T -> fval) (G : lil T) (u v : nat) : option fval :=
  match osum (FPlus CDouble) (map (fweight tr G u) (seq 0 N)), fweight tr G u v with
  | Some s, Some x => Some (FTimes CDouble (FDiv CDouble (f1 CDouble) s) x)
  | _, _ => None
  end.

(** Every winner of a round leads clearly: every other cluster has less than (1 - u)^[K] times its votes, where u = 2^-53. *)
Definition clear_round (N K : nat) (w : nat -> nat -> Qc) (m : nat -> nat -> bool) : Prop :=
  forall i i' v, i < N -> i' < N -> v < N -> i' <> i -> wins N w m i v ->
    (this (votes N w m i' v) < shrink CDouble K * this (votes N w m i v))%Q.
