(** Properties C165 to C168: the demonstration programs. *)
From Coq Require Import Lia Permutation Sorted.
From Verif Require Import Base ModelLil ModelVec ModelViews ModelTriangle ModelTruss ModelDemo
  Spec SpecOps SpecGraph SpecTriangle SpecTruss SpecDemo ProofDemo PropTriangle PropTruss.
Local Open Scope nat_scope.

(** ** C165: triangle_count_demo, every edge listed in both directions *)
Theorem C165_triangle_demo :
  forall (sort : list (nat * nat) -> list (nat * nat)) (lines : list (nat * nat)) (N : nat),
    (forall l, Permutation (sort l) l) -> lines <> [] ->
    (forall u v, In (u, v) lines -> In (v, u) lines) ->
    (forall u v, In (u, v) lines -> u < N /\ v < N) ->
    triangle_count_demo sort lines = Ok (repeat (Z.of_nat (triangles N (file_edge lines))) 5).
Proof. exact triangle_demo_ok. Qed.
Print Assumptions C165_triangle_demo.

(** Two triangles, 0 1 2 and 1 2 3, a loop and a repeated line; the vertices are renumbered. *)
Definition ex_lines : list (nat * nat) :=
  [(0, 1); (1, 0); (0, 2); (2, 0); (1, 2); (2, 1); (3, 3); (1, 3); (3, 1); (2, 3); (3, 2); (3, 2)].
Example C165_example :
  (forall u v, In (u, v) ex_lines -> In (v, u) ex_lines) /\
  (forall u v, In (u, v) ex_lines -> u < 4 /\ v < 4) /\
  (forall l : list (nat * nat), Permutation (rev l) l) /\
  triangles 4 (file_edge ex_lines) = 2 /\
  triangle_count_demo (@rev (nat * nat)) ex_lines = Ok [2%Z; 2%Z; 2%Z; 2%Z; 2%Z] /\
  triangle_count_demo (fun l => l) ex_lines = Ok [2%Z; 2%Z; 2%Z; 2%Z; 2%Z].
Proof.
  split; [|split; [|split]].
  - intros u v H. simpl in H. repeat (destruct H as [H|H]; [injection H as <- <-; simpl; tauto|]). destruct H.
  - intros u v H. simpl in H. repeat (destruct H as [H|H]; [injection H as <- <-; lia|]). destruct H.
  - intros l. apply Permutation_sym, Permutation_rev.
  - repeat split; vm_compute; reflexivity.
Qed.

(** ** C166: triangle_count_demo, any file *)
(** A triangle, each edge once: the five counts are not the same. *)
Theorem C166_triangle_demo_one_direction_refuted :
  exists (lines : list (nat * nat)) (N : nat),
    lines <> [] /\ NoDup lines /\ (forall u v, In (u, v) lines -> u < N /\ v < u) /\
    triangles N (fun u v => (file_edge lines u v || file_edge lines v u)%bool) = 1 /\
    forall sort, (forall l, Permutation (sort l) l) ->
      triangle_count_demo sort lines = Ok [0%Z; 0%Z; 1%Z; 1%Z; 0%Z].
Proof.
  exists [(1, 0); (2, 0); (2, 1)], 3. split; [discriminate|]. split; [repeat constructor; simpl; intuition congruence|].
  split; [intros u v H; simpl in H; repeat (destruct H as [H|H]; [injection H as <- <-; lia|]); destruct H|].
  split; [vm_compute; reflexivity|]. intros sort P.
  specialize (P [(0, 0); (1, 1); (3, 2)]). unfold triangle_count_demo. cbn [read_loop bind].
  change (degrees _ _) with [(0, 0); (1, 1); (3, 2)].
  destruct (perm3 _ _ _ _ P) as [E|[E|[E|[E|[E|E]]]]]; rewrite E; vm_compute; reflexivity.
Qed.

Print Assumptions C166_triangle_demo_one_direction_refuted.

(** An empty file: the program uses variables that have no value. *)
Theorem C166_triangle_demo_empty_refuted :
  exists lines : list (nat * nat), forall sort, triangle_count_demo sort lines = UB.
Proof. exists []. reflexivity. Qed.
Print Assumptions C166_triangle_demo_empty_refuted.

(** ** C167: louvain_demo *)
(** What the program makes of its file: the graph of the file, but for one element.  The body of
    the loop is executed once more after the last line, [(s, d, w)] (vertices are numbered from 1 in
    the file), and stores an element at row [s - 2] and column [d - 2]. *)
Theorem C167_louvain_demo_partial :
  forall (lines : list (Z * Z * Z)) (n : nat) (s d w : Z),
    (forall s d w, In (s, d, w) lines -> 1 <= s <= Z.of_nat n /\ 1 <= d <= Z.of_nat n)%Z -> (Z.of_nat n < 2 ^ 64)%Z ->
    (exists s d w, In (s, d, w) lines /\ (s = Z.of_nat n \/ d = Z.of_nat n)) ->
    (forall z, last lines z = (s, d, w)) -> (2 <= s)%Z -> (2 <= d)%Z ->
    exists M, louvain_demo_graph lines = Ok M /\ wfm M /\ nrows M = n /\ ncols M = n /\
      mget M (Z.to_nat (s - 2)) (Z.to_nat (d - 2)) = Some w /\
      forall i j, (Z.of_nat i, Z.of_nat j) <> (s - 2, d - 2)%Z -> mget M i j = file_weight lines i j.
Proof. exact louvain_demo_graph_ok. Qed.
Print Assumptions C167_louvain_demo_partial.

Definition ex_louvain : list (Z * Z * Z) := [(2, 3, 1); (3, 1, 5); (1, 3, 5); (3, 2, 1)]%Z.
Example C167_example :
  (forall s d w, In (s, d, w) ex_louvain -> 1 <= s <= Z.of_nat 3 /\ 1 <= d <= Z.of_nat 3)%Z /\
  louvain_demo_graph ex_louvain =
    Ok (mkLil 3 3 5%Z [[(2, 5%Z)]; [(0, 1%Z); (2, 1%Z)]; [(0, 5%Z); (1, 1%Z)]]).
Proof.
  split; [|vm_compute; reflexivity].
  intros s d w H. simpl in H. repeat (destruct H as [H|H]; [injection H as <- <- <-; lia|]). destruct H.
Qed.

(** An edge between 2 and 3, in both directions; the program also stores one from 2 to 1. *)
Theorem C167_louvain_demo_refuted :
  exists (lines : list (Z * Z * Z)) (M : lil Z),
    (forall s d w, In (s, d, w) lines -> 2 <= s <= 3 /\ 2 <= d <= 3)%Z /\
    louvain_demo_graph lines = Ok M /\
    exists i j, mget M i j <> file_weight lines i j.
Proof.
  exists [(2, 3, 1); (3, 2, 1)]%Z, (mkLil 3 3 3%Z [[]; [(0, 1%Z); (2, 1%Z)]; [(1, 1%Z)]]).
  split; [|split; [vm_compute; reflexivity|]].
  - intros s d w H. simpl in H. repeat (destruct H as [H|H]; [injection H as <- <- <-; lia|]). destruct H.
  - exists 1, 0. discriminate.
Qed.
Print Assumptions C167_louvain_demo_refuted.

(** A file whose last line starts at vertex 1 is not read at all. *)
Theorem C167_louvain_demo_vertex_one_refuted :
  exists (lines : list (Z * Z * Z)) (e : exn),
    (forall s d w, In (s, d, w) lines -> 1 <= s <= 2 /\ 1 <= d <= 2)%Z /\ lines <> [] /\
    louvain_demo_graph lines = Throw e.
Proof.
  destruct (louvain_demo_vertex_one [(2, 1, 1); (1, 2, 1)]%Z 2 1) as (e & E).
  - intros s d w H. simpl in H. repeat (destruct H as [H|H]; [injection H as <- <- <-; lia|]). destruct H.
  - discriminate.
  - reflexivity.
  - exists [(2, 1, 1); (1, 2, 1)]%Z, e. split; [|split; [discriminate|exact E]].
    intros s d w H. simpl in H. repeat (destruct H as [H|H]; [injection H as <- <- <-; lia|]). destruct H.
Qed.
Print Assumptions C167_louvain_demo_vertex_one_refuted.

(** ** C168: trusses of trusses *)
Theorem C168_k_truss_demo :
  forall (ps : list (nat * nat)) (ks : list nat) (n : nat),
    NoDup (filter (fun '(a, b) => a <? b) ps) -> filter (fun '(a, b) => a <? b) ps <> [] ->
    Forall (fun k => 2 <= k) ks -> StronglySorted le ks -> length ps < n ->
    exists N E, demo_incidence ps = Ok E /\ incidence N E /\
      (forall u v, joined E u v = true <-> (u < v /\ In (u, v) ps) \/ (v < u /\ In (v, u) ps)) /\
      ((exists Fs, truss_chain n E ks = Ok (Some Fs) /\ Forall2 (truss_of N E) ks Fs) \/
       (truss_chain n E ks = Throw InvalidValueException /\
        exists k F, In k ks /\ truss_of N E k F /\ nrows F = 0)).
Proof. exact k_truss_demo_ok. Qed.
Print Assumptions C168_k_truss_demo.

(** The same for [k_truss2], where no call fails: the [k]-truss of the [j]-truss is the [k]-truss. *)
Theorem C168_k_truss2_of_truss :
  forall (N j k n : nat) (G : lil Z),
    simple_graph N G -> 3 <= j <= k -> (nvals G < Z.of_nat n)%Z ->
    exists H, k_truss2 n G j = Ok (Some H) /\
      forall m, (nvals H < Z.of_nat m)%Z ->
        exists K, k_truss2 m H k = Ok (Some K) /\ simple_graph N K /\
          largest_supported N (k - 2) (edge K) (edge G).
Proof.
  intros N j k n G SG HK Hn. destruct (C54_k_truss2 N j n G) as (H & EH & SH & LH); auto; [lia|].
  exists H. split; [exact EH|]. intros m Hm. destruct (C54_k_truss2 N k m H) as (K & EK & SK & LK); auto; [lia|].
  exists K. split; [exact EK|]. split; [exact SK|]. apply (largest_nest N (j - 2) (k - 2) (edge H)); auto. lia.
Qed.
Print Assumptions C168_k_truss2_of_truss.

(** The complete graph on 0..3 and the triangle 3 4 5: first both, then the complete graph, then
    nothing; a further call fails. *)
Definition ex_pairs : list (nat * nat) :=
  [(0, 1); (1, 0); (0, 2); (0, 3); (1, 2); (1, 3); (2, 3); (3, 4); (3, 5); (4, 5); (5, 6); (6, 5)].
Example C168_example :
  NoDup (filter (fun '(a, b) => a <? b) ex_pairs) /\
  exists E F3 F4 F5, demo_incidence ex_pairs = Ok E /\ truss_chain 13 E [3; 4; 5] = Ok (Some [F3; F4; F5]) /\
    nrows E = 10 /\ nrows F3 = 9 /\ nrows F4 = 6 /\ nrows F5 = 0 /\
    truss_chain 13 E [3; 4; 5; 6] = Throw InvalidValueException.
Proof.
  split; [vm_compute; repeat constructor; simpl; intuition congruence|].
  do 4 eexists. split; [vm_compute; reflexivity|]. split; [vm_compute; reflexivity|]. repeat split.
Qed.
