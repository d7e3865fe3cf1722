(** Properties C54, C63 and C64: trusses. *)
From Coq Require Import Lia Sorted.
From Verif Require Import Base ModelLil ModelVec ModelViews ModelMul ModelElem ModelIndex ModelAlgoBase
  ModelTruss Spec SpecOps SpecGraph SpecTriangle SpecTruss ProofTruss ProofKtruss PropTriangle.

(** ** C54: [k_truss2] *)
Theorem C54_k_truss2 :
  forall (N k n : nat) (G : lil Z),
    simple_graph N G -> 3 <= k -> (nvals G < Z.of_nat n)%Z ->
    exists H, k_truss2 n G k = Ok (Some H) /\ simple_graph N H /\
      largest_supported N (k - 2) (edge H) (edge G).
Proof.
  intros N k n G SG K Hn. destruct (k_truss2_ok N k G) with (n := n) as (H & E & SH & L); auto; [lia|].
  exists H. replace (k - 2) with (Nat.max 1 (k - 2)) by lia. auto.
Qed.
Print Assumptions C54_k_truss2.

(** For [k = 2] every graph is its own truss, but [k_truss2] removes the edges that lie in no
    triangle: it returns the 3-truss. *)
Theorem C64_k_truss2_two_partial :
  forall (N n : nat) (G : lil Z),
    simple_graph N G -> (nvals G < Z.of_nat n)%Z ->
    exists H, k_truss2 n G 2 = Ok (Some H) /\ simple_graph N H /\
      largest_supported N 1 (edge H) (edge G).
Proof. intros N n G SG Hn. exact (k_truss2_ok N 2 G (le_n 2) n SG Hn). Qed.
Print Assumptions C64_k_truss2_two_partial.

(** One edge. *)
Definition ek_G1 : lil Z := mkLil 2 2 2%Z [[(1, et_o)]; [(0, et_o)]].
Theorem C64_k_truss2_two_refuted :
  exists (N n : nat) (G H : lil Z),
    simple_graph N G /\ (nvals G < Z.of_nat n)%Z /\ k_truss2 n G 2 = Ok (Some H) /\
    ~ largest_supported N (2 - 2) (edge H) (edge G).
Proof.
  exists 2, 5, ek_G1, (mkLil 2 2 0%Z [[]; []]). split.
  { split; [repeat split; try reflexivity; repeat constructor|]. do 2 (split; [reflexivity|]).
    split; [|split].
    - intros i j v H. destruct i as [|[|[|i]]]; destruct j as [|[|j]]; vm_compute in H; congruence.
    - intros [|[|[|i]]] [|[|[|j]]]; reflexivity.
    - intros [|[|[|i]]]; reflexivity. }
  split; [vm_compute; reflexivity|]. split; [vm_compute; reflexivity|].
  intros (_ & _ & _ & M).
  specialize (M (edge ek_G1) (fun u v H => H)).
  enough (F : edge (mkLil 2 2 0%Z [[]; []] : lil Z) 0 1 = true) by discriminate F.
  apply M.
  - intros [|[|[|i]]] [|[|[|j]]]; reflexivity.
  - intros u v _. lia.
  - reflexivity.
Qed.
Print Assumptions C64_k_truss2_two_refuted.

(** The complete graph on 0..3 and a vertex 4 connected to 0: the 4-truss drops the last edge. *)
Example C54_example :
  simple_graph 5 et_G /\ (nvals et_G < Z.of_nat 15)%Z /\
  k_truss2 15 et_G 4 =
    Ok (Some (mkLil 5 5 12%Z [[(1, et_o); (2, et_o); (3, et_o)]; [(0, et_o); (2, et_o); (3, et_o)];
                              [(0, et_o); (1, et_o); (3, et_o)]; [(0, et_o); (1, et_o); (2, et_o)]; []])).
Proof.
  split; [apply C46_example|]. split; vm_compute; reflexivity.
Qed.

(** ** C63: [k_truss] *)
Theorem C63_k_truss :
  forall (N k n : nat) (E : lil Z),
    incidence N E -> 0 < nrows E -> 2 <= k -> nrows E < n ->
    exists H, k_truss n E k = Ok (Some H) /\ incidence N H /\ some_rows H E /\
      largest_supported N (k - 2) (joined H) (joined E).
Proof. intros. apply k_truss_ok; auto. Qed.
Print Assumptions C63_k_truss.

(** The edges 01, 02, 12, 03, 34 with [k = 3]: the triangle remains. *)
Definition ek_row (a b : nat) : list (nat * Z) := [(a, et_o); (b, et_o)].
Definition ek_E : lil Z :=
  mkLil 5 5 10%Z [ek_row 0 1; ek_row 0 2; ek_row 3 4; ek_row 1 2; ek_row 0 3].
Example C63_example :
  incidence 5 ek_E /\ 0 < nrows ek_E /\
  k_truss 6 ek_E 3 = Ok (Some (mkLil 3 5 6%Z [ek_row 0 1; ek_row 0 2; ek_row 1 2])) /\
  k_truss 6 ek_E 2 = Ok (Some ek_E) /\
  k_truss 6 ek_E 4 = Ok (Some (mkLil 0 5 0%Z [])).
Proof.
  split; [|repeat split; try (simpl; lia); vm_compute; reflexivity].
  assert (EP : forall a b e, a < b -> nth e (data ek_E) [] = ek_row a b -> endpoints ek_E e a b).
  { intros a b e L H. split; auto. intro v. unfold mget. rewrite H. simpl.
    destruct (Nat.eqb_spec a v), (Nat.eqb_spec b v); simpl; split; intuition (subst; try lia; try discriminate). }
  split; [repeat split; try reflexivity; repeat constructor|]. split; [reflexivity|]. split; [|split].
  - intros e v x H. unfold mget in H.
    do 5 (destruct e as [|e]; [destruct v as [|[|[|[|[|v]]]]]; vm_compute in H; congruence|]).
    rewrite nth_overflow in H by (simpl; lia). discriminate H.
  - intros e He. simpl in He.
    do 5 (destruct e as [|e]; [eexists; eexists; apply EP; [|reflexivity]; lia|]). lia.
  - intros e f He Hf H. simpl in He, Hf.
    do 5 (destruct e as [|e];
      [do 5 (destruct f as [|f];
         [first [reflexivity | exfalso;
            first [discriminate (H 0) | discriminate (H 1) | discriminate (H 2) | discriminate (H 3)]]|]); lia|]).
    lia.
Qed.

(** ** C64: a graph without edges, for instance the result of an earlier call *)
Theorem C64_k_truss_no_edges_refuted :
  exists (N k : nat) (E : lil Z),
    incidence N E /\ 2 <= k /\ forall n, k_truss n E k = Throw InvalidValueException.
Proof.
  exists 5, 5, (mkLil 0 5 0%Z []). split.
  { split; [repeat split; try reflexivity; repeat constructor|]. split; [reflexivity|].
    split; [|split].
    - intros [|e] v x H; discriminate H.
    - intros e He. simpl in He. lia.
    - intros e f He. simpl in He. lia. }
  split; [lia|]. intro n. vm_compute. reflexivity.
Qed.
Print Assumptions C64_k_truss_no_edges_refuted.
