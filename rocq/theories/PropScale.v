(** Property C185: multiplying all weights by a positive number multiplies the results, and reversing
    all edges reverses them. *)
From Coq Require Import Lia.
From Verif Require Import Base ModelLil ModelVec ModelViews ModelAlgoBase ModelSssp ModelPush ModelMst
  Spec SpecGraph SpecPaths SpecMetrics SpecFlow SpecMst
  ProofLil ProofVec ProofViews ProofAgree ProofScale PropSssp PropPush PropMst.
Local Open Scope nat_scope.

(** [G'] stores [c * w] where [G] stores [w]. *)
Theorem C185_sssp_scaled :
  forall (c : Z) (G G' : lil Z) (dist dist' : bvec Z) (N : nat),
    (0 < c)%Z -> wfm G -> nrows G = N -> ncols G = N -> wfm G' -> nrows G' = N -> ncols G' = N -> N <> 0 ->
    wfv dist -> vsize dist = N -> wfv dist' -> vsize dist' = N ->
    (forall u v, mget G' u v = option_map (Z.mul c) (mget G u v)) ->
    (forall v, vget dist' v = option_map (Z.mul c) (vget dist v)) ->
    exists b d d', sssp G dist = Ok (b, d) /\ sssp G' dist' = Ok (b, d') /\
      (b = true -> forall v, vget d' v = option_map (Z.mul c) (vget d v)).
Proof.
  intros c G G' dist dist' N Hc W A B W' A' B' Z0 WD SD WD' SD' E ED.
  destruct (C43_sssp G dist N) as (b & d & R1 & _ & _ & T1 & F1 & P1); auto.
  destruct (C43_sssp G' dist' N) as (b' & d' & R2 & _ & _ & T2 & F2 & P2); auto.
  pose proof (scale_negative c Hc (mget G) (mget G') E (vget dist) (vget dist') ED) as SN.
  assert (b' = b) as ->.
  { destruct b, b'; auto; exfalso.
    - apply (proj1 T1); auto. now apply SN, F2.
    - apply (proj1 T2); auto. now apply SN, F1. }
  exists b, d, d'. split; [exact R1|]. split; [exact R2|]. intros Eb v.
  apply (same_option _ _ (shortest (mget G') (vget dist') v)); intro y; [now apply P2|].
  split.
  - intros Y. destruct (vget d v) as [x|] eqn:X; [|discriminate]. injection Y as <-. apply P1 in X; auto.
    now apply (scale_shortest c Hc (mget G) (mget G') E (vget dist) (vget dist') ED).
  - intros Y. apply (scale_shortest_back c Hc (mget G) (mget G') E (vget dist) (vget dist') ED) in Y.
    destruct Y as (x & -> & X). apply P1 in X; auto. now rewrite X.
Qed.
Print Assumptions C185_sssp_scaled.

Theorem C185_apsp_scaled :
  forall (c : Z) (G G' : lil Z) (N : nat),
    (0 < c)%Z -> wfm G -> nrows G = N -> ncols G = N -> wfm G' -> nrows G' = N -> ncols G' = N ->
    (forall u v, mget G' u v = option_map (Z.mul c) (mget G u v)) ->
    no_negative_cycle (mget G) ->
    exists D D', apsp G = Ok D /\ apsp G' = Ok D' /\
      forall u v, u <> v -> mget D' u v = option_map (Z.mul c) (mget D u v).
Proof.
  intros c G G' N Hc W A B W' A' B' E NC.
  destruct (C45_apsp G N W A B NC) as (D & R1 & _ & _ & _ & P1 & _).
  destruct (C45_apsp G' N W' A' B' (scale_no_negative c Hc (mget G) (mget G') E NC)) as (D' & R2 & _ & _ & _ & P2 & _).
  exists D, D'. split; [exact R1|]. split; [exact R2|]. intros u v Ne.
  apply (same_option _ _ (distance (mget G') u v)); intro y; [now apply P2|]. split.
  - intros Y. destruct (mget D u v) as [x|] eqn:X; [|discriminate]. injection Y as <-. apply P1 in X; auto.
    now apply (scale_distance c Hc (mget G) (mget G') E).
  - intros Y. apply (scale_distance_back c Hc (mget G) (mget G') E) in Y.
    destruct Y as (x & -> & X). apply P1 in X; auto. now rewrite X.
Qed.
Print Assumptions C185_apsp_scaled.

Theorem C185_mst_scaled :
  forall (c : Z) (G G' : lil Z) (N n : nat) (parents parents' : bvec nat),
    (0 < c)%Z -> wfm G -> nrows G = N -> ncols G = N -> wfm G' -> nrows G' = N -> ncols G' = N -> N <> 0 ->
    (forall i j, mget G i j = mget G j i) ->
    (forall v, v < N -> reachable (edge G) (fun u => u = 0) v) ->
    (forall u v, mget G' u v = option_map (Z.mul c) (mget G u v)) ->
    wfv0 parents -> vsize parents = N -> wfv0 parents' -> vsize parents' = N -> N < n ->
    exists x r r', mst n G parents = Ok (Some (x, r)) /\ mst n G' parents' = Ok (Some ((c * x)%Z, r')).
Proof.
  intros c G G' N n parents parents' Hc W A B W' A' B' Z0 S C E WP SP WP' SP' Hn.
  destruct (C65_mst G N n parents) as (x & r & R1 & _ & _ & _ & _ & M1 & X1); auto.
  destruct (C65_mst G' N n parents') as (x' & r' & R2 & _ & _ & _ & _ & M2 & X2); auto.
  { intros i j. now rewrite !E, S. }
  { intros v Hv. destruct (C v Hv) as (k & K). exists k. clear Hv. revert v K.
    induction k as [|k IH]; simpl; intros v; auto. intros (u & K & X). exists u. split; [now apply IH|].
    unfold edge in *. rewrite E. now destruct (mget G u v). }
  exists x, r, r'. split; [exact R1|]. rewrite R2, X2, X1.
  now rewrite (scale_tree c Hc (mget G) (mget G') E N _ _ M1 M2).
Qed.
Print Assumptions C185_mst_scaled.

Theorem C185_max_flow_scaled :
  forall (c inf : Z) (G G' : lil Z) (N n source sink : nat),
    (0 < c)%Z -> wfm G -> nrows G = N -> ncols G = N -> wfm G' -> nrows G' = N -> ncols G' = N ->
    (Z.of_nat N < 2 ^ 64)%Z -> source < N -> sink < N -> source <> sink ->
    (forall i j x, mget G i j = Some x -> (0 <= x)%Z) ->
    (forall u v, mget G' u v = option_map (Z.mul c) (mget G u v)) ->
    (2 * Z.of_nat N <= inf)%Z -> (zsum N (fun v => capacity G source v) <= inf)%Z ->
    (zsum N (fun v => capacity G' source v) <= inf)%Z ->
    4 * (N + 1) * (N + 1) * (N + 1) <= n ->
    exists x, maxflow_push_relabel inf n G source sink = Ok (Some x) /\
      maxflow_push_relabel inf n G' source sink = Ok (Some (c * x)%Z).
Proof.
  intros c inf G G' N n s t Hc W A B W' A' B' NW Hs Ht Ne P E I1 I2 I3 Hn.
  destruct (C73_push_relabel_max inf G N n s t) as (x & R1 & M1); auto.
  destruct (C73_push_relabel_max inf G' N n s t) as (x' & R2 & M2); auto.
  { intros i j y. rewrite E. destruct (mget G i j) as [z|] eqn:X; [|discriminate]. intros Y. injection Y as <-.
    apply P in X. lia. }
  exists x. split; [exact R1|]. rewrite R2. do 2 f_equal.
  apply (scale_flow c Hc N (capacity G) (capacity G') s t); auto.
  intros u v. unfold capacity. rewrite E. destruct (mget G u v); simpl; lia.
Qed.
Print Assumptions C185_max_flow_scaled.

(** [G'] stores every edge in the opposite direction. *)
Theorem C185_apsp_reversed :
  forall (G G' : lil Z) (N : nat),
    wfm G -> nrows G = N -> ncols G = N -> wfm G' -> nrows G' = N -> ncols G' = N ->
    (forall u v, mget G' u v = mget G v u) -> no_negative_cycle (mget G) ->
    exists D D', apsp G = Ok D /\ apsp G' = Ok D' /\
      forall u v, u <> v -> mget D' u v = mget D v u.
Proof.
  intros G G' N W A B W' A' B' E NC.
  destruct (C45_apsp G N W A B NC) as (D & R1 & _ & _ & _ & P1 & _).
  assert (E' : forall u v, mget G u v = mget G' v u) by auto.
  destruct (C45_apsp G' N W' A' B') as (D' & R2 & _ & _ & _ & P2 & _).
  { intros v k y Y. apply (NC v k y). now apply (reverse_walk (mget G') (mget G)). }
  exists D, D'. split; [exact R1|]. split; [exact R2|]. intros u v Ne.
  apply (same_option _ _ (distance (mget G') u v)); intro y; [now apply P2|].
  rewrite P1 by auto. split; intros Y.
  - now apply (reverse_distance (mget G) (mget G')).
  - now apply (reverse_distance (mget G') (mget G)).
Qed.
Print Assumptions C185_apsp_reversed.

Theorem C185_max_flow_reversed :
  forall (inf : Z) (G G' : lil Z) (N n source sink : nat),
    wfm G -> nrows G = N -> ncols G = N -> wfm G' -> nrows G' = N -> ncols G' = N ->
    (Z.of_nat N < 2 ^ 64)%Z -> source < N -> sink < N -> source <> sink ->
    (forall i j x, mget G i j = Some x -> (0 <= x)%Z) ->
    (forall u v, mget G' u v = mget G v u) ->
    (2 * Z.of_nat N <= inf)%Z -> (zsum N (fun v => capacity G source v) <= inf)%Z ->
    (zsum N (fun v => capacity G v sink) <= inf)%Z ->
    4 * (N + 1) * (N + 1) * (N + 1) <= n ->
    exists x, maxflow_push_relabel inf n G source sink = Ok (Some x) /\
      maxflow_push_relabel inf n G' sink source = Ok (Some x).
Proof.
  intros inf G G' N n s t W A B W' A' B' NW Hs Ht Ne P E I1 I2 I3 Hn.
  assert (EC : forall u v, capacity G' u v = capacity G v u) by (intros; unfold capacity; now rewrite E).
  destruct (C73_push_relabel_max inf G N n s t) as (x & R1 & M1); auto.
  destruct (C73_push_relabel_max inf G' N n t s) as (x' & R2 & M2); auto.
  { intros i j y. rewrite E. apply P. }
  { replace (zsum N (fun v => capacity G' t v)) with (zsum N (fun v => capacity G v t)); [exact I3|].
    unfold zsum. f_equal. apply map_ext. auto. }
  exists x. split; [exact R1|]. rewrite R2. do 2 f_equal. apply Z.le_antisymm.
  - apply (reverse_flow_le N (capacity G') (capacity G) t s); auto.
  - apply (reverse_flow_le N (capacity G) (capacity G') s t); auto.
Qed.
Print Assumptions C185_max_flow_reversed.

(** The network of C73, tripled and reversed. *)
Definition esc_G : lil Z :=
  mkLil 6 6 12%Z
    [[(1, 48%Z); (2, 39%Z)]; [(0, 9%Z); (1, 15%Z); (3, 36%Z)]; [(1, 12%Z); (4, 42%Z)];
     [(2, 27%Z); (5, 60%Z)]; [(2, 0%Z); (3, 21%Z); (5, 12%Z)]; []].
Definition esc_R : lil Z :=
  mkLil 6 6 12%Z
    [[(1, 3%Z)]; [(0, 16%Z); (1, 5%Z); (2, 4%Z)]; [(0, 13%Z); (3, 9%Z); (4, 0%Z)];
     [(1, 12%Z); (4, 7%Z)]; [(2, 14%Z)]; [(3, 20%Z); (4, 4%Z)]].
Example C185_example :
  wfm esc_G /\ wfm esc_R /\
  (forall u v, mget esc_G u v = option_map (Z.mul 3) (mget epr_G u v)) /\
  (forall u v, mget esc_R u v = mget epr_G v u) /\
  maxflow_push_relabel 2147483647 1372 epr_G 0 5 = Ok (Some 23%Z) /\
  maxflow_push_relabel 2147483647 1372 esc_G 0 5 = Ok (Some 69%Z) /\
  maxflow_push_relabel 2147483647 1372 esc_R 5 0 = Ok (Some 23%Z) /\
  (exists D D' R, apsp epr_G = Ok D /\ apsp esc_G = Ok D' /\ apsp esc_R = Ok R /\
     mget D 0 5 = Some 31%Z /\ mget D' 0 5 = Some 93%Z /\ mget R 5 0 = Some 31%Z).
Proof.
  assert (W : wfm epr_G) by wf_mat. assert (W1 : wfm esc_G) by wf_mat. assert (W2 : wfm esc_R) by wf_mat.
  split; [exact W1|]. split; [exact W2|]. split; [|split].
  - intros u v. destruct (Nat.lt_ge_cases u 6), (Nat.lt_ge_cases v 6).
    2, 3, 4: rewrite !mget_oob by (auto; simpl; lia); reflexivity.
    do 6 (destruct u as [|u]; [do 6 (destruct v as [|v]; [reflexivity|]); lia|]). lia.
  - intros u v. destruct (Nat.lt_ge_cases u 6), (Nat.lt_ge_cases v 6).
    2, 3, 4: rewrite !mget_oob by (auto; simpl; lia); reflexivity.
    do 6 (destruct u as [|u]; [do 6 (destruct v as [|v]; [reflexivity|]); lia|]). lia.
  - do 3 (split; [vm_compute; reflexivity|]). do 3 eexists. do 3 (split; [vm_compute; reflexivity|]). repeat split.
Qed.
