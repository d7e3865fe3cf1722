(** Property C184: the maximum flow is the least capacity of a cut. *)
From Coq Require Import Lia ZArith Floats.SpecFloat.
From Verif Require Import Base ModelLil ModelVec ModelViews ModelAlgoBase ModelAlgebra ModelOps ModelFloat ModelConv ModelFlow ModelPush
  ModelPushTypes ModelPushFloat Spec SpecFlow SpecRel SpecFloats SpecIntPaths SpecPushTypes
  ProofLil ProofVec ProofViews ProofFlow ProofMinCut PropFlow PropPush PropPushTypes PropPushFloat.
Local Open Scope nat_scope.

(** No cut has less capacity than the result, and some cut has exactly this capacity: whoever wants
    to separate the source from the sink has to remove edges of this total capacity. *)
Theorem C184_push_relabel :
  forall (inf : Z) (G : lil Z) (N n source sink : nat),
    wfm G -> nrows G = N -> ncols G = N -> (Z.of_nat N < 2 ^ 64)%Z ->
    source < N -> sink < N -> source <> sink ->
    (forall i j c, mget G i j = Some c -> (0 <= c)%Z) ->
    (2 * Z.of_nat N <= inf)%Z -> (zsum N (fun v => capacity G source v) <= inf)%Z ->
    4 * (N + 1) * (N + 1) * (N + 1) <= n ->
    exists x, maxflow_push_relabel inf n G source sink = Ok (Some x) /\
      (exists S, is_cut N source sink S /\ cut_capacity N (capacity G) S = x) /\
      (forall S, is_cut N source sink S -> (x <= cut_capacity N (capacity G) S)%Z).
Proof.
  intros inf G N n source sink W A B NW Hs Ht Ne P I1 I2 Hn.
  destruct (C73_push_relabel_max inf G N n source sink) as (x & R & M); auto.
  exists x. split; [exact R|]. now apply max_flow_min_cut.
Qed.
Print Assumptions C184_push_relabel.

Theorem C184_push_relabel_types :
  forall (t : ctype) (G : lil Z) (N n source sink : nat),
    holds_negatives t -> wfm G -> nrows G = N -> ncols G = N -> (Z.of_nat N < 2 ^ 64)%Z ->
    source < N -> sink < N -> source <> sink ->
    (forall i j c, mget G i j = Some c -> (0 <= c)%Z) ->
    (2 * Z.of_nat N < tmax t)%Z ->
    (forall v, v < N -> (zsum N (fun j => capacity G v j + capacity G j v) <= tmax t)%Z) ->
    4 * (N + 1) * (N + 1) * (N + 1) <= n ->
    exists x, imaxflow_push_relabel t n G source sink = Ok (Some x) /\
      (exists S, is_cut N source sink S /\ cut_capacity N (capacity G) S = x) /\
      (forall S, is_cut N source sink S -> (x <= cut_capacity N (capacity G) S)%Z).
Proof.
  intros t G N n source sink Ty W A B NW Hs Ht Ne P I1 I2 Hn.
  destruct (C177_push_relabel_types t G N n source sink) as (x & R & M); auto.
  exists x. split; [exact R|]. now apply max_flow_min_cut.
Qed.
Print Assumptions C184_push_relabel_types.

Theorem C184_push_relabel_floats :
  forall (t : ftype) (G : lil Z) (G' : lil fval) (N n source sink : nat),
    mrel (fexactly t (2 ^ prec t)) G G' -> nrows G = N -> ncols G = N -> (Z.of_nat N < 2 ^ 64)%Z ->
    source < N -> sink < N -> source <> sink ->
    (forall i j c, mget G i j = Some c -> (0 <= c)%Z) ->
    (2 * Z.of_nat N + 1 <= 2 ^ prec t)%Z ->
    (forall v, v < N -> (zsum N (fun j => capacity G v j + capacity G j v) <= 2 ^ prec t)%Z) ->
    4 * (N + 1) * (N + 1) * (N + 1) <= n ->
    exists x x', fmaxflow_push_relabel t n G' source sink = Ok (Some x') /\ fexactly t (2 ^ prec t) x x' /\
      (exists S, is_cut N source sink S /\ cut_capacity N (capacity G) S = x) /\
      (forall S, is_cut N source sink S -> (x <= cut_capacity N (capacity G) S)%Z).
Proof.
  intros t G G' N n source sink HG A B NW Hs Ht Ne P I1 I2 Hn.
  destruct (C179_push_relabel_floats t G G' N n source sink) as (x & x' & R & X & M); auto.
  exists x, x'. split; [exact R|]. split; [exact X|]. now apply max_flow_min_cut.
Qed.
Print Assumptions C184_push_relabel_floats.

(** With capacities 1 the capacity of a cut is the number of edges across it: the other function
    returns the least number of edges that separate the source from the sink. *)
Theorem C184_ford_fulkerson_unit :
  forall (inf : Z) (G : lil Z) (N n source sink : nat),
    wfm G -> nrows G = N -> ncols G = N -> source < N -> sink < N -> source <> sink ->
    (1 <= inf)%Z -> (forall i j c, mget G i j = Some c -> c = 1%Z) ->
    N < n -> (nvals G < Z.of_nat n)%Z ->
    exists x, maxflow_ford_fulk inf n G source sink = Ok (Some x) /\
      (exists S, is_cut N source sink S /\ cut_capacity N (capacity G) S = x) /\
      (forall S, is_cut N source sink S -> (x <= cut_capacity N (capacity G) S)%Z).
Proof.
  intros inf G N n source sink W A B Hs Ht Ne I U Hn Hn2.
  destruct (C66_ford_fulkerson_unit inf G N n source sink) as (x & R & M); auto.
  exists x. split; [exact R|]. now apply max_flow_min_cut.
Qed.
Print Assumptions C184_ford_fulkerson_unit.

(** The network of C73: the source side 0, 1, 2, 4 is a cut of capacity 12 + 7 + 4. *)
Example C184_example :
  is_cut 6 0 5 (fun v => negb (v =? 3) && negb (v =? 5)) /\
  cut_capacity 6 (capacity epr_G) (fun v => negb (v =? 3) && negb (v =? 5)) = 23%Z /\
  cut_capacity 6 (capacity epr_G) (Nat.eqb 0) = 29%Z /\
  maxflow_push_relabel 2147483647 1372 epr_G 0 5 = Ok (Some 23%Z).
Proof. split; [split; reflexivity|]. do 2 (split; [vm_compute; reflexivity|]). vm_compute; reflexivity. Qed.
