(** Property C46: triangle counting. *)
From Coq Require Import Lia.
From Verif Require Import Base ModelLil ModelViews ModelMul ModelElem ModelUtils ModelAlgoBase
  ModelTriangle Spec SpecOps SpecGraph SpecTriangle ProofTriangle.

Theorem C46_triangle_count :
  forall (N : nat) (G : lil Z),
    simple_graph N G -> triangle_count G = Ok (Z.of_nat (triangles N (edge G))).
Proof. exact triangle_count_ok. Qed.
Print Assumptions C46_triangle_count.

Theorem C46_triangle_count_masked :
  forall (N : nat) (G L U : lil Z),
    simple_graph N G ->
    wfm L -> nrows L = N -> ncols L = N -> (forall i j, mget L i j = lower (mget G) i j) ->
    wfm U -> nrows U = N -> ncols U = N -> (forall i j, mget U i j = upper (mget G) i j) ->
    triangle_count_masked_LU L U = Ok (Z.of_nat (triangles N (edge G))) /\
    triangle_count_masked L = Ok (Z.of_nat (triangles N (edge G))) /\
    triangle_count_masked_noT L = Ok (Z.of_nat (triangles N (edge G))).
Proof.
  intros N G L U SG WL RL CL GL WU RU CU GU. split; [|split].
  - apply triangle_count_masked_LU_ok; auto.
  - eapply triangle_count_masked_ok; eauto.
  - eapply triangle_count_masked_noT_ok; eauto.
Qed.
Print Assumptions C46_triangle_count_masked.

(** [L] may be a transposed view. *)
Theorem C46_triangle_count_newGBTL :
  forall (N : nat) (G U : lil Z) (L : mview Z),
    simple_graph N G ->
    wfview L -> vrows L = N -> vcols L = N -> (forall i j, sview L i j = lower (mget G) i j) ->
    wfm U -> nrows U = N -> ncols U = N -> (forall i j, mget U i j = upper (mget G) i j) ->
    triangle_count_newGBTL L U = Ok (Z.of_nat (triangles N (edge G))).
Proof. intros. apply triangle_count_newGBTL_ok; auto. Qed.
Print Assumptions C46_triangle_count_newGBTL.

(** The complete graph on 0..3 and a vertex 4 connected to 0. *)
Definition et_o : Z := 1%Z.
Definition et_G : lil Z :=
  mkLil 5 5 14%Z [[(1, et_o); (2, et_o); (3, et_o); (4, et_o)]; [(0, et_o); (2, et_o); (3, et_o)];
                  [(0, et_o); (1, et_o); (3, et_o)]; [(0, et_o); (1, et_o); (2, et_o)]; [(0, et_o)]].
Definition et_L : lil Z :=
  mkLil 5 5 7%Z [[]; [(0, et_o)]; [(0, et_o); (1, et_o)]; [(0, et_o); (1, et_o); (2, et_o)]; [(0, et_o)]].
Definition et_U : lil Z :=
  mkLil 5 5 7%Z [[(1, et_o); (2, et_o); (3, et_o); (4, et_o)]; [(2, et_o); (3, et_o)]; [(3, et_o)]; []; []].
Example C46_example :
  simple_graph 5 et_G /\ triangles 5 (edge et_G) = 4 /\
  wfm et_L /\ wfm et_U /\ (forall i j, mget et_L i j = lower (mget et_G) i j) /\
  triangle_count et_G = Ok 4%Z /\ triangle_count_masked et_L = Ok 4%Z /\
  triangle_count_newGBTL (Trn et_U) et_U = Ok 4%Z.
Proof.
  assert (B : forall (M : lil Z), length (data M) = 5 -> forall i j,
            5 <= i -> mget M i j = None).
  { intros M HM i j Hi. unfold mget. rewrite nth_overflow by lia. reflexivity. }
  assert (D : forall (P : nat -> Prop), (forall i, 5 <= i -> P i) -> (forall k, k < 5 -> P k) -> forall i, P i).
  { intros P H1 H2 i. destruct (Nat.lt_ge_cases i 5); auto. }
  assert (Q : forall i j, 5 <= j -> mget et_G i j = None).
  { intros i j Hj. destruct (Nat.lt_ge_cases i 5); [|apply B; auto].
    unfold mget. do 5 (destruct i as [|i]; [simpl nth; unfold rget; simpl; 
      repeat (let H := fresh in destruct (Nat.eqb_spec _ j) as [H|H]; [exfalso; lia|]);
      destruct j as [|[|[|[|[|]]]]]; try lia; reflexivity|]). lia. }
  split.
  { split; [repeat split; try reflexivity; repeat constructor|]. do 2 (split; [reflexivity|]).
    split; [|split].
    - intros i j v. unfold mget. intro H. destruct (Nat.lt_ge_cases i 5) as [Hi|Hi].
      + do 5 (destruct i as [|i]; [destruct j as [|[|[|[|[|j]]]]]; vm_compute in H; congruence|]). lia.
      + rewrite nth_overflow in H by exact Hi. discriminate H.
    - intros i j. destruct (Nat.lt_ge_cases i 5) as [Hi|Hi].
      2: { rewrite (Q j i Hi). apply B; auto. }
      destruct (Nat.lt_ge_cases j 5) as [Hj|Hj].
      2: { rewrite (Q i j Hj). symmetry. apply B; auto. }
      do 5 (destruct i as [|i]; [do 5 (destruct j as [|j]; [reflexivity|]); lia|]). lia.
    - intros i. destruct (Nat.lt_ge_cases i 5); [|apply Q; auto].
      do 5 (destruct i as [|i]; [reflexivity|]). lia. }
  split; [vm_compute; reflexivity|].
  do 2 (split; [repeat split; try reflexivity; repeat constructor|]).
  split; [|repeat split; vm_compute; reflexivity].
  intros i j. destruct (Nat.lt_ge_cases i 5).
  - do 5 (destruct i as [|i]; [do 5 (destruct j as [|j]; [reflexivity|]); unfold lower;
      replace (_ <? _) with false by (symmetry; apply Nat.ltb_ge; lia); reflexivity|]). lia.
  - rewrite B by auto. unfold lower. rewrite B by auto. destruct (j <? i); reflexivity.
Qed.
