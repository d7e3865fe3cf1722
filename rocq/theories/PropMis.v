(** Property C47: maximal independent sets. *)
From Coq Require Import Lia.
From Verif Require Import Base ModelLil ModelVec ModelViews ModelAlgoBase ModelMis Spec SpecGraph SpecMis
  ProofLil ProofMis.

(** [R] is the type of the random numbers and of the degrees.  The hypotheses on it hold for
    [float] as long as no value is NaN: [rlt] is a strict weak order, and the values computed for
    degrees and drawn at random are positive ([pos]), so that they count as [true]. *)
Theorem C47_mis :
  forall (T R : Type) (tb : T -> bool) (tr : T -> R) (r0 : R) (rplus : R -> R -> R)
    (rlt : R -> R -> bool) (rb : R -> bool) (draw : nat -> nat -> R -> R) (pos : R -> Prop)
    (G : lil T) (N n : nat) (initial : bvec bool),
    (forall x y, rlt x y = true -> rlt y x = false) ->
    (forall x y z, rlt x z = true -> rlt x y = true \/ rlt y z = true) ->
    (forall x, pos x -> rb x = true) ->
    (forall x y, pos x -> pos y -> pos (rplus x y)) ->
    (forall t i d, pos d -> pos (draw t i d)) ->
    wfm G -> nrows G = N -> ncols G = N -> N <> 0 ->
    (forall i j v, mget G i j = Some v -> tb v = true /\ pos (tr v)) ->
    (forall i j, edge G i j = edge G j i) -> (forall i, edge G i i = false) ->
    wfv0 initial -> vsize initial = N ->
    exists o, mis tb tr r0 rplus rlt rb draw n G initial = Ok o /\
      forall r, o = Some r ->
        wfv r /\ vsize r = N /\ (forall v x, vget r v = Some x -> x = true) /\
        maximal_independent N (edge G) (fun v => vget r v = Some true).
Proof.
  intros. eapply (mis_ok tb tr r0 rplus rlt rb draw G N); eauto; intros i j v E; eapply H8; eauto.
Qed.
Print Assumptions C47_mis.

(** The loop ends, after at most [N] iterations, when neighbours never draw the same number. *)
Theorem C47_mis_terminates :
  forall (T R : Type) (tb : T -> bool) (tr : T -> R) (r0 : R) (rplus : R -> R -> R)
    (rlt : R -> R -> bool) (rb : R -> bool) (draw : nat -> nat -> R -> R) (pos : R -> Prop)
    (G : lil T) (N n : nat) (initial : bvec bool),
    (forall x y, rlt x y = true -> rlt y x = false) ->
    (forall x y z, rlt x z = true -> rlt x y = true \/ rlt y z = true) ->
    (forall x, pos x -> rb x = true) ->
    (forall x y, pos x -> pos y -> pos (rplus x y)) ->
    (forall t i d, pos d -> pos (draw t i d)) ->
    wfm G -> nrows G = N -> ncols G = N -> N <> 0 ->
    (forall i j v, mget G i j = Some v -> tb v = true /\ pos (tr v)) ->
    (forall i j, edge G i j = edge G j i) -> (forall i, edge G i i = false) ->
    wfv0 initial -> vsize initial = N -> N < n ->
    (forall t u v du dv, edge G u v = true -> pos du -> pos dv ->
       rlt (draw t u du) (draw t v dv) = true \/ rlt (draw t v dv) (draw t u du) = true) ->
    exists r, mis tb tr r0 rplus rlt rb draw n G initial = Ok (Some r).
Proof.
  intros. eapply (mis_terminates tb tr r0 rplus rlt rb draw G N); eauto;
    intros i j v E; eapply H8; eauto.
Qed.
Print Assumptions C47_mis_terminates.

Theorem C47_get_vertex_IDs :
  forall (T : Type) (w : bvec T),
    wfv w -> get_vertex_IDs w = Ok (filter (fun v => is_some (vget w v)) (seq 0 (vsize w))).
Proof. exact @get_vertex_IDs_ok. Qed.
Print Assumptions C47_get_vertex_IDs.

(** The path 0 - 1 - 2 - 3 and the isolated vertex 4; the number of vertex [i] is [i + 1]. *)
Definition emis_G : lil Z :=
  mkLil 5 5 6%Z [[(1, 1%Z)]; [(0, 1%Z); (2, 1%Z)]; [(1, 1%Z); (3, 1%Z)]; [(2, 1%Z)]; []].
Definition emis_draw (t i : nat) (d : Z) : Z := Z.of_nat (S i).
Definition emis_run (draw : nat -> nat -> Z -> Z) (n : nat) : res (option (list nat)) :=
  r <- mis ztrue idc 0%Z Z.add Z.ltb ztrue draw n emis_G
         (mkVec 5 1%Z (repeat true 5) [true; false; false; false; false]) ;;
  match r with Some r => ids <- get_vertex_IDs r ;; Ok (Some ids) | None => Ok None end.

Lemma emis_sym : forall i j, edge emis_G i j = edge emis_G j i.
Proof.
  assert (B : forall i j, 5 <= i \/ 5 <= j -> edge emis_G i j = false).
  { intros i j H. unfold edge. rewrite mget_oob; [reflexivity| |exact H].
    repeat split; try reflexivity; repeat constructor. }
  intros i j. destruct (Nat.lt_ge_cases i 5) as [Hi|Hi].
  2: { rewrite !B by auto. reflexivity. }
  destruct (Nat.lt_ge_cases j 5) as [Hj|Hj].
  2: { rewrite !B by auto. reflexivity. }
  do 5 (destruct i as [|i]; [do 5 (destruct j as [|j]; [reflexivity|]); lia|]). lia.
Qed.

Example C47_example :
  wfm emis_G /\ (forall i j, edge emis_G i j = edge emis_G j i) /\
  emis_run emis_draw 6 = Ok (Some [1; 3; 4]) /\
  emis_run (fun t i d => Z.of_nat (9 - i)) 6 = Ok (Some [0; 2; 4]) /\
  (* with equal numbers no vertex of the path is selected *)
  emis_run (fun t i d => 1%Z) 6 = Ok None.
Proof.
  split; [repeat split; try reflexivity; repeat constructor|]. split; [exact emis_sym|].
  repeat split; vm_compute; reflexivity.
Qed.

(** The hypotheses of the theorems hold for this graph and these numbers. *)
Example C47_example_theorems :
  exists r, mis ztrue idc 0%Z Z.add Z.ltb ztrue emis_draw 6 emis_G
              (mkVec 5 0%Z (repeat false 5) (repeat false 5)) = Ok (Some r).
Proof.
  assert (W : wfm emis_G) by (repeat split; try reflexivity; repeat constructor).
  apply (C47_mis_terminates Z Z ztrue idc 0%Z Z.add Z.ltb ztrue emis_draw (fun z => 0 < z)%Z emis_G 5 6).
  - intros x y H. apply Z.ltb_lt in H. apply Z.ltb_ge. lia.
  - intros x y z H. apply Z.ltb_lt in H. rewrite !Z.ltb_lt. lia.
  - intros x H. unfold ztrue. destruct (Z.eqb_spec x 0); [lia|reflexivity].
  - intros; lia.
  - intros. unfold emis_draw. lia.
  - exact W.
  - reflexivity.
  - reflexivity.
  - lia.
  - assert (V : forall i j v, mget emis_G i j = Some v -> v = 1%Z).
    { intros i j v H. destruct (Nat.lt_ge_cases i 5) as [Hi|Hi].
      2: { rewrite mget_oob in H; [discriminate|exact W|simpl; lia]. }
      destruct (Nat.lt_ge_cases j 5) as [Hj|Hj].
      2: { rewrite mget_oob in H; [discriminate|exact W|simpl; lia]. }
      do 5 (destruct i as [|i]; [do 5 (destruct j as [|j]; [vm_compute in H; congruence|]); lia|]). lia. }
    intros i j v H. apply V in H. subst. split; [reflexivity|unfold idc; lia].
  - exact emis_sym.
  - intro i. unfold edge. destruct (Nat.lt_ge_cases i 5) as [Hi|Hi].
    2: { rewrite mget_oob; [reflexivity|exact W|simpl; lia]. }
    do 5 (destruct i as [|i]; [reflexivity|]). lia.
  - split; reflexivity.
  - reflexivity.
  - lia.
  - intros t u v du dv H _ _. unfold emis_draw. destruct (Nat.lt_trichotomy u v) as [L|[->|L]].
    + left. apply Z.ltb_lt. lia.
    + unfold edge in H. exfalso. destruct (Nat.lt_ge_cases v 5) as [Hi|Hi].
      * do 5 (destruct v as [|v]; [discriminate H|]). lia.
      * rewrite mget_oob in H; [discriminate|exact W|simpl; lia].
    + right. apply Z.ltb_lt. lia.
Qed.
