(** Triangle counting over the built-in integer types and [bool]: C127, C128. *)
From Coq Require Import Lia ZArith.
From Verif Require Import Base ModelLil ModelVec ModelHelpers ModelViews ModelMul ModelElem ModelUtils ModelAlgoBase
  ModelAlgebra ModelInts ModelTriInts Spec SpecOps SpecGraph SpecTriangle SpecAlgebra SpecInts ProofLil ProofTriInts SpecRel.

(** ** C127: exact counts within range.  [G'] holds the values of [G] in the type [t]. *)
Theorem C127_triangle_count_exact :
  forall (t : ctype) (N : nat) (G : lil Z) (G' : lil ival),
    integer_type t -> simple_graph N G -> mrel (exactly t 1) G G' ->
    (Z.of_nat N <= tmax t)%Z -> (2 * Z.of_nat (triangles N (edge G)) <= tmax t)%Z ->
    itriangle_count t G' = Ok (Z.of_nat (triangles N (edge G))).
Proof. intros. apply itriangle_count_run; auto. Qed.
Print Assumptions C127_triangle_count_exact.

Theorem C127_triangle_count_masked_exact :
  forall (t : ctype) (N : nat) (G L U : lil Z) (L' U' : lil ival),
    integer_type t -> simple_graph N G ->
    (Z.of_nat N <= tmax t)%Z -> (Z.of_nat (triangles N (edge G)) <= tmax t)%Z ->
    mrel (exactly t 1) L L' -> nrows L = N -> ncols L = N -> (forall i j, mget L i j = lower (mget G) i j) ->
    itriangle_count_masked t L' = Ok (Z.of_nat (triangles N (edge G))) /\
    itriangle_count_masked_noT t L' = Ok (Z.of_nat (triangles N (edge G))) /\
    (mrel (exactly t 1) U U' -> nrows U = N -> ncols U = N -> (forall i j, mget U i j = upper (mget G) i j) ->
     itriangle_count_masked_LU t L' U' = Ok (Z.of_nat (triangles N (edge G)))).
Proof.
  intros t N G L U L' U' Ht SG HN HT HL RL CL GL. split; [|split; [|intros]].
  - eapply itriangle_count_masked_run; eauto.
  - eapply itriangle_count_masked_noT_run; eauto.
  - eapply itriangle_count_masked_LU_run with (L := L) (U := U); eauto.
Qed.
Print Assumptions C127_triangle_count_masked_exact.

(** [L] may be a transposed view. *)
Theorem C127_triangle_count_newGBTL_exact :
  forall (t : ctype) (N : nat) (G U : lil Z) (U' : lil ival) (L : mview Z) (L' : mview ival),
    integer_type t -> simple_graph N G ->
    (Z.of_nat N <= tmax t)%Z -> (2 * Z.of_nat (triangles N (edge G)) <= tmax t)%Z ->
    viewrel (exactly t 1) L L' -> vrows L = N -> vcols L = N -> (forall i j, sview L i j = lower (mget G) i j) ->
    mrel (exactly t 1) U U' -> nrows U = N -> ncols U = N -> (forall i j, mget U i j = upper (mget G) i j) ->
    itriangle_count_newGBTL t L' U' = Ok (Z.of_nat (triangles N (edge G))).
Proof. intros. eapply itriangle_count_newGBTL_run with (L := L) (U := U); eauto. Qed.
Print Assumptions C127_triangle_count_newGBTL_exact.

(** The complete graphs and the parts below the diagonal, over any scalars. *)
Definition e127_K {T : Type} (one : T) (n : nat) : lil T :=
  mkLil n n (Z.of_nat (n * (n - 1)))
    (map (fun i => map (fun j => (j, one)) (filter (fun j => negb (j =? i)) (seq 0 n))) (seq 0 n)).
Definition e127_L {T : Type} (one : T) (n : nat) : lil T :=
  mkLil n n (Z.of_nat (n * (n - 1) / 2)) (map (fun i => map (fun j => (j, one)) (seq 0 i)) (seq 0 n)).

(** Checks of the hypotheses by computation. *)
Lemma e127_simple N (G : lil Z) : wfm G -> nrows G = N -> ncols G = N ->
  forallb (fun i => forallb (fun j =>
    match mget G i j, mget G j i with None, None => true | Some v, Some w => ((v =? 1) && (w =? 1))%Z && negb (i =? j) | _, _ => false end)
    (seq 0 N)) (seq 0 N) = true -> simple_graph N G.
Proof.
  intros W R C H.
  assert (Q : forall i j, match mget G i j, mget G j i with
      None, None => True | Some v, Some w => v = 1%Z /\ w = 1%Z /\ i <> j | _, _ => False end).
  { intros i j. destruct (Nat.lt_ge_cases i N) as [Hi|Hi]; [destruct (Nat.lt_ge_cases j N) as [Hj|Hj]|].
    - rewrite forallb_forall in H. specialize (H i). rewrite in_seq in H. specialize (H ltac:(lia)).
      rewrite forallb_forall in H. specialize (H j). rewrite in_seq in H. specialize (H ltac:(lia)).
      destruct (mget G i j), (mget G j i); try discriminate; auto.
      apply andb_prop in H. destruct H as [H1 H2]. apply andb_prop in H1. destruct H1 as [H0 H1].
      apply Z.eqb_eq in H0, H1. apply Bool.negb_true_iff, Nat.eqb_neq in H2. auto.
    - rewrite !(mget_oob G) by (auto; lia). exact I.
    - rewrite !(mget_oob G) by (auto; lia). exact I. }
  split; [auto|]. split; [auto|]. split; [auto|]. split; [|split].
  - intros i j v E. specialize (Q i j). rewrite E in Q. destruct (mget G j i); tauto.
  - intros i j. specialize (Q i j). destruct (mget G i j), (mget G j i); try tauto. destruct Q as (-> & -> & _). auto.
  - intros i. specialize (Q i i). destruct (mget G i i); tauto.
Qed.
Lemma e127_rel t N (G : lil Z) (G' : lil ival) : wfm G -> wfm G' -> nrows G = N -> ncols G = N -> nrows G' = N -> ncols G' = N ->
  inty t 1 ->
  forallb (fun i => forallb (fun j =>
    match mget G i j, mget G' i j with None, None => true | Some v, Some (Ok w) => ((v =? 1) && (w =? 1))%Z | _, _ => false end)
    (seq 0 N)) (seq 0 N) = true -> mrel (exactly t 1) G G'.
Proof.
  intros W W' R C R' C' I1 H. split; [auto|]. split; [auto|]. split; [congruence|]. split; [congruence|]. intros i j.
  destruct (Nat.lt_ge_cases i N) as [Hi|Hi]; [destruct (Nat.lt_ge_cases j N) as [Hj|Hj]|].
  - rewrite forallb_forall in H. specialize (H i). rewrite in_seq in H. specialize (H ltac:(lia)).
    rewrite forallb_forall in H. specialize (H j). rewrite in_seq in H. specialize (H ltac:(lia)).
    destruct (mget G i j) as [v|], (mget G' i j) as [[w| |]|]; try discriminate; [|exact I].
    apply andb_prop in H. destruct H as [H1 H2]. apply Z.eqb_eq in H1, H2. subst. split; [auto|]. split; [auto|]. vm_compute. discriminate.
  - rewrite (mget_oob G), (mget_oob G') by (auto; lia). exact I.
  - rewrite (mget_oob G), (mget_oob G') by (auto; lia). exact I.
Qed.
Ltac e127_wf := split; [split; [reflexivity|repeat (constructor; [simpl; repeat split; lia|]); constructor]|vm_compute; reflexivity].
Ltac e127_in := split; vm_compute; discriminate.

(** The complete graph on 8 vertices over [int8_t]: 56 triangles. *)
Example C127_example :
  let t := CInt true W8 in
  integer_type t /\ simple_graph 8 (e127_K 1%Z 8) /\ mrel (exactly t 1) (e127_K 1%Z 8) (e127_K (Ok 1%Z) 8) /\
  mrel (exactly t 1) (e127_L 1%Z 8) (e127_L (Ok 1%Z) 8) /\
  triangles 8 (edge (e127_K 1%Z 8)) = 56 /\ itriangle_count t (e127_K (Ok 1%Z) 8) = Ok 56%Z /\
  itriangle_count_masked t (e127_L (Ok 1%Z) 8) = Ok 56%Z.
Proof.
  split; [exists true, W8; reflexivity|].
  split; [apply e127_simple; [e127_wf|reflexivity|reflexivity|vm_compute; reflexivity]|].
  split; [apply (e127_rel _ 8); [e127_wf|e127_wf|reflexivity|reflexivity|reflexivity|reflexivity|e127_in|vm_compute; reflexivity]|].
  split; [apply (e127_rel _ 8); [e127_wf|e127_wf|reflexivity|reflexivity|reflexivity|reflexivity|e127_in|vm_compute; reflexivity]|].
  vm_compute. auto.
Qed.

(** ** C128: beyond that the counts are wrong.  The complete graph on 9 vertices over [int8_t] has 84 triangles, which the type
    can hold, but their double wraps around. *)
Theorem C128_triangle_count_wraps_refuted :
  exists (N : nat) (G : lil Z) (G' : lil ival), let t := CInt true W8 in
    simple_graph N G /\ mrel (exactly t 1) G G' /\ inty t (Z.of_nat (triangles N (edge G))) /\
    triangles N (edge G) = 84 /\ itriangle_count t G' = Ok (-44)%Z.
Proof.
  exists 9, (e127_K 1%Z 9), (e127_K (Ok 1%Z) 9). cbv zeta.
  split; [apply e127_simple; [e127_wf|reflexivity|reflexivity|vm_compute; reflexivity]|].
  split; [apply (e127_rel _ 9); [e127_wf|e127_wf|reflexivity|reflexivity|reflexivity|reflexivity|e127_in|vm_compute; reflexivity]|].
  split; [e127_in|]. vm_compute. auto.
Qed.
Print Assumptions C128_triangle_count_wraps_refuted.

(** Over [bool] every graph with a triangle has the count 1. *)
Theorem C128_triangle_count_bool_refuted :
  exists (N : nat) (G : lil Z) (G' : lil ival),
    simple_graph N G /\ mrel (exactly CBool 1) G G' /\ triangles N (edge G) = 4 /\ itriangle_count CBool G' = Ok 1%Z.
Proof.
  exists 4, (e127_K 1%Z 4), (e127_K (Ok 1%Z) 4).
  split; [apply e127_simple; [e127_wf|reflexivity|reflexivity|vm_compute; reflexivity]|].
  split; [apply (e127_rel _ 4); [e127_wf|e127_wf|reflexivity|reflexivity|reflexivity|reflexivity|e127_in|vm_compute; reflexivity]|].
  vm_compute. auto.
Qed.
Print Assumptions C128_triangle_count_bool_refuted.
