(** What more edges, lower weights or larger capacities do to the specifications of the algorithms. *)
From Coq Require Import Lia.
From Verif Require Import Base ModelLil ModelVec ModelAlgoBase Spec SpecOps SpecGraph SpecPaths SpecTriangle SpecTruss SpecFlow SpecMst SpecMonotone
  ProofBase ProofLil ProofViews ProofVis ProofPaths ProofRelabelMst.
Local Open Scope nat_scope.

(** Walks. *)
Lemma more_walks (e e' : nat -> nat -> bool) (R : nat -> Prop) k v :
  subgraph e e' -> walks e R k v -> walks e' R k v.
Proof.
  intros S. revert v. induction k as [|k IH]; simpl; intros v; auto. intros (u & W & E). exists u. auto.
Qed.
Lemma more_reachable (e e' : nat -> nat -> bool) (R : nat -> Prop) v :
  subgraph e e' -> reachable e R v -> reachable e' R v.
Proof. intros S (k & W). exists k. eapply more_walks; eauto. Qed.

(** Triangles. *)
Lemma filter_more {A : Type} (f g : A -> bool) l :
  (forall x, In x l -> f x = true -> g x = true) -> length (filter f l) <= length (filter g l).
Proof.
  induction l as [|x l IH]; simpl; intros H; auto.
  assert (L : length (filter f l) <= length (filter g l)) by (apply IH; auto).
  destruct (f x) eqn:E; [rewrite (H x (or_introl eq_refl) E); simpl; lia|destruct (g x); simpl; lia].
Qed.
Lemma more_triangles N (e e' : nat -> nat -> bool) : subgraph e e' -> triangles N e <= triangles N e'.
Proof.
  intros S. apply filter_more. intros [[i j] k] _ H.
  apply Bool.andb_true_iff in H. destruct H as (H & H3). apply Bool.andb_true_iff in H. destruct H as (H & H2).
  apply Bool.andb_true_iff in H. destruct H as (H & H1). rewrite H, (S _ _ H1), (S _ _ H2), (S _ _ H3). reflexivity.
Qed.

(** Trusses. *)
Lemma more_truss N t h h' e e' :
  subgraph e e' -> largest_supported N t h e -> largest_supported N t h' e' -> subgraph h h'.
Proof.
  intros S (A & B & C & _) (_ & _ & _ & D). apply D; auto. intros u v H. apply S, A, H.
Qed.
Lemma less_truss N t t' h h' e :
  t <= t' -> largest_supported N t h e -> largest_supported N t' h' e -> subgraph h' h.
Proof.
  intros L (_ & _ & _ & D) (A & B & C & _). apply D; auto. intros u v H. specialize (C u v H). lia.
Qed.

(** Flows. *)
Lemma more_flow N (cap cap' : nat -> nat -> Z) s t x x' :
  (forall u v, u < N -> v < N -> (cap u v <= cap' u v)%Z) ->
  is_max_flow N cap s t x -> is_max_flow N cap' s t x' -> (x <= x')%Z.
Proof.
  intros L ((f & (A & B & C) & E) & _) (_ & M). rewrite <- E. apply M. split; [exact A|]. split; [|exact C].
  intros u v Hu Hv. specialize (B u v Hu Hv). specialize (L u v Hu Hv). lia.
Qed.

(** Spanning trees. *)
Lemma cheaper_tree N w w' es es' :
  no_dearer w w' -> minimum_spanning_tree N w es -> minimum_spanning_tree N w' es' ->
  (tree_weight w' es' <= tree_weight w es)%Z.
Proof.
  intros L ((A & B & C) & _) (_ & M).
  assert (S : spanning_tree N w' es).
  { split; [exact A|]. split; [|exact C]. intros a b I. destruct (B a b I) as (Ha & Hb & X).
    destruct (w a b) as [g|] eqn:E; [|congruence]. destruct (L a b g E) as (g' & E' & _). rewrite E'.
    split; [exact Ha|]. split; [exact Hb|discriminate]. }
  apply M in S. transitivity (tree_weight w' es); [exact S|].
  assert (X : forall a b, In (a, b) es -> w a b <> None) by (intros a b I; apply (B a b I)).
  clear - L X. induction es as [|(a, b) es IH]; [apply Z.le_refl|].
  assert (L1 : (tree_weight w' es <= tree_weight w es)%Z) by (apply IH; intros; apply X; now right).
  specialize (X a b (or_introl eq_refl)). unfold tree_weight in *. simpl.
  destruct (w a b) as [g|] eqn:E; [|congruence]. destruct (L a b g E) as (g' & -> & G). lia.
Qed.

(** Weighted walks. *)
Lemma cheaper_walk w w' u v k c :
  no_dearer w w' -> wwalk w u v k c -> exists c', wwalk w' u v k c' /\ (c' <= c)%Z.
Proof.
  intros L. induction 1 as [|v t k c g _ (c' & W & LC) E].
  - exists 0%Z. split; [constructor|lia].
  - destruct (L v t g E) as (g' & E' & G). exists (c' + g')%Z. split; [econstructor; eauto|lia].
Qed.
Lemma cheaper_from w w' D D' k v x :
  no_dearer w w' -> no_later D D' -> walk_from w D k v x ->
  exists x', walk_from w' D' k v x' /\ (x' <= x)%Z.
Proof.
  intros L LD (u & a & c & E & W & ->). destruct (LD u a E) as (a' & E' & A).
  destruct (cheaper_walk w w' u v k c L W) as (c' & W' & C).
  exists (a' + c')%Z. split; [|lia]. exists u, a', c'. auto.
Qed.
Lemma cheaper_negative w w' D D' :
  no_dearer w w' -> no_later D D' -> negative_cycle w D -> negative_cycle w' D'.
Proof.
  intros L LD (k & v & x & m & c & F & W & C).
  destruct (cheaper_from w w' D D' k v x L LD F) as (x' & F' & _).
  destruct (cheaper_walk w w' v v m c L W) as (c' & W' & C').
  exists k, v, x', m, c'. split; [exact F'|]. split; [exact W'|lia].
Qed.

(** Without negative cycles shortest walks exist. *)
Section Exist.
Context (N : nat) (w : nat -> nat -> option Z) (D : nat -> option Z).
Context (w_bound : forall u v g, w u v = Some g -> u < N /\ v < N).
Context (D_bound : forall v x, D v = Some x -> v < N).

Fixpoint least (k : nat) : nat -> option Z :=
  match k with O => D | S k => fun v => oadd zmin (least k v) (candidates N w (least k) v) end.
Lemma least_ok k : covers w D k (least k) /\ sound w D k (least k) /\ forall v, N <= v -> least k v = None.
Proof.
  induction k as [|k (C & S & O)].
  - split; [|split].
    + intros j v y Hj H. replace j with 0 in H by lia. apply walk_from_0 in H. exists y. split; [auto|lia].
    + intros v x H. exists 0. split; [auto|]. apply walk_from_0. auto.
    + intros v Hv. cbn. destruct (D v) as [a|] eqn:E; auto. apply D_bound in E. lia.
  - assert (O' : forall v, N <= v -> least (Datatypes.S k) v = None).
    { intros v Hv. cbn. rewrite O by auto. cbn. destruct (candidates N w (least k) v) as [x|] eqn:E; auto.
      apply candidates_sound in E. destruct E as (u & y & g & _ & E & _). apply w_bound in E. lia. }
    split; [|split]; auto.
    + apply (relax_covers N w w_bound D D_bound k (least k)); auto.
    + apply (relax_sound N w D k (least k)); auto.
Qed.
Lemma cut_down k v x : ~ negative_cycle w D -> walk_from w D k v x ->
  exists k' x', k' < N /\ walk_from w D k' v x' /\ (x' <= x)%Z.
Proof.
  intros NC. revert x. induction k as [k IH] using lt_wf_ind. intros x H.
  destruct (Nat.lt_ge_cases k N) as [Hk|Hk]; [exists k, x; split; [auto|split; [auto|lia]]|].
  destruct H as (u & a & c & H1 & H2 & ->).
  destruct (walk_cycle N w w_bound u v k c) as (t & i & m & l & c1 & c2 & c3 & W1 & W2 & W3 & -> & ->); eauto.
  assert (P : (0 <= c2)%Z).
  { destruct (Z.le_gt_cases 0 c2) as [|B]; auto. exfalso. apply NC.
    exists i, t, (a + c1)%Z, (S m), c2. split; [exists u, a, c1; auto|]. split; [exact W2|lia]. }
  destruct (IH (i + l) ltac:(lia) (a + (c1 + c3))%Z) as (k' & x' & Hk' & F & L).
  - exists u, a, (c1 + c3)%Z. split; [auto|]. split; [|auto]. eapply wwalk_app; eauto.
  - exists k', x'. split; [auto|]. split; [auto|lia].
Qed.
Lemma least_walk k v x : ~ negative_cycle w D -> walk_from w D k v x -> exists d, shortest w D v d.
Proof.
  intros NC H. destruct (least_ok N) as (C & S & _). destruct (cut_down k v x NC H) as (k' & x' & Hk & F & _).
  destruct (C k' v x' ltac:(lia) F) as (d & E & _). exists d. split.
  - destruct (S v d E) as (j & _ & Fj). eauto.
  - intros j y Hj. destruct (cut_down j v y NC Hj) as (j' & y' & Hj' & Fj' & L).
    destruct (C j' v y' ltac:(lia) Fj') as (d' & E' & L'). rewrite E in E'. inversion E'. lia.
Qed.
End Exist.

(** Shorter distances. *)
Lemma cheaper_shortest N w w' D D' v x :
  (forall u v g, w' u v = Some g -> u < N /\ v < N) -> (forall v x, D' v = Some x -> v < N) ->
  no_dearer w w' -> no_later D D' -> ~ negative_cycle w' D' -> shortest w D v x ->
  exists x', shortest w' D' v x' /\ (x' <= x)%Z.
Proof.
  intros WB DB L LD NC ((k & F) & _). destruct (cheaper_from w w' D D' k v x L LD F) as (y & F' & Y).
  destruct (least_walk N w' D' WB DB k v y NC F') as (d & S). exists d. split; [exact S|].
  destruct S as (_ & S). specialize (S k y F'). lia.
Qed.
Lemma mget_bound (G : lil Z) N u v g :
  wfm G -> nrows G = N -> ncols G = N -> mget G u v = Some g -> u < N /\ v < N.
Proof.
  intros W A B E. destruct (Nat.lt_ge_cases u N), (Nat.lt_ge_cases v N); auto;
    rewrite mget_oob in E by (auto; lia); discriminate.
Qed.
