(** Property theorems: triangle counting over [float] and [double] (C181). *)
From Coq Require Import Lia ZArith Floats.SpecFloat.
From Verif Require Import Base ModelLil ModelVec ModelHelpers ModelViews ModelAlgoBase ModelFloat ModelTriFloat Spec SpecOps SpecGraph
  SpecTriangle SpecFloats SpecIntPaths ProofLil ProofTriFloat SpecRel PropTriInts.

(** [G'] holds the ones of [G] as numbers of the type [t]; [2 ^ prec t] is [2^24] for [float] and [2^53] for [double]. *)
Theorem C181_triangle_count_exact :
  forall (t : ftype) (N : nat) (G : lil Z) (G' : lil fval),
    simple_graph N G -> mrel (fexactly t 1) G G' -> (2 * Z.of_nat (triangles N (edge G)) <= 2 ^ prec t)%Z ->
    exists x, ftriangle_count t G' = Ok x /\ fexactly t (2 ^ prec t) (Z.of_nat (triangles N (edge G))) x.
Proof. intros. apply ftriangle_count_run; auto. Qed.
Print Assumptions C181_triangle_count_exact.

Theorem C181_triangle_count_masked_exact :
  forall (t : ftype) (N : nat) (G L U : lil Z) (L' U' : lil fval),
    simple_graph N G -> (Z.of_nat (triangles N (edge G)) <= 2 ^ prec t)%Z ->
    mrel (fexactly t 1) L L' -> nrows L = N -> ncols L = N -> (forall i j, mget L i j = lower (mget G) i j) ->
    (exists x, ftriangle_count_masked t L' = Ok x /\ fexactly t (2 ^ prec t) (Z.of_nat (triangles N (edge G))) x) /\
    (exists x, ftriangle_count_masked_noT t L' = Ok x /\ fexactly t (2 ^ prec t) (Z.of_nat (triangles N (edge G))) x) /\
    (mrel (fexactly t 1) U U' -> nrows U = N -> ncols U = N -> (forall i j, mget U i j = upper (mget G) i j) ->
     exists x, ftriangle_count_masked_LU t L' U' = Ok x /\ fexactly t (2 ^ prec t) (Z.of_nat (triangles N (edge G))) x).
Proof.
  intros t N G L U L' U' SG HT HL RL CL GL. split; [|split; [|intros]].
  - eapply ftriangle_count_masked_run; eauto.
  - eapply ftriangle_count_masked_noT_run; eauto.
  - eapply ftriangle_count_masked_LU_run with (L := L) (U := U); eauto.
Qed.
Print Assumptions C181_triangle_count_masked_exact.

(** [L] may be a transposed view. *)
Theorem C181_triangle_count_newGBTL_exact :
  forall (t : ftype) (N : nat) (G U : lil Z) (U' : lil fval) (L : mview Z) (L' : mview fval),
    simple_graph N G -> (2 * Z.of_nat (triangles N (edge G)) <= 2 ^ prec t)%Z ->
    viewrel (fexactly t 1) L L' -> vrows L = N -> vcols L = N -> (forall i j, sview L i j = lower (mget G) i j) ->
    mrel (fexactly t 1) U U' -> nrows U = N -> ncols U = N -> (forall i j, mget U i j = upper (mget G) i j) ->
    exists x, ftriangle_count_newGBTL t L' U' = Ok x /\ fexactly t (2 ^ prec t) (Z.of_nat (triangles N (edge G))) x.
Proof. intros. eapply ftriangle_count_newGBTL_run with (L := L) (U := U); eauto. Qed.
Print Assumptions C181_triangle_count_newGBTL_exact.

(** The hypothesis on the values, by computation. *)
Definition e181_same (x y : fval) : bool :=
  match x, y with S754_finite false m e, S754_finite false m' e' => Pos.eqb m m' && Z.eqb e e' | _, _ => false end.
Lemma e181_same_eq x y : e181_same x y = true -> x = y.
Proof.
  destruct x as [s|s| |[|] m e], y as [s'|s'| |[|] m' e']; try discriminate. simpl. intro H. apply andb_prop in H. destruct H as [H1 H2].
  apply Pos.eqb_eq in H1. apply Z.eqb_eq in H2. subst. reflexivity.
Qed.
Lemma e181_rel t N (G : lil Z) (G' : lil fval) : wfm G -> wfm G' -> nrows G = N -> ncols G = N -> nrows G' = N -> ncols G' = N ->
  forallb (fun i => forallb (fun j =>
    match mget G i j, mget G' i j with None, None => true | Some v, Some w => (v =? 1)%Z && e181_same w (f1 t) | _, _ => false end)
    (seq 0 N)) (seq 0 N) = true -> mrel (fexactly t 1) G G'.
Proof.
  intros W W' R C R' C' H. split; [auto|]. split; [auto|]. split; [congruence|]. split; [congruence|]. intros i j.
  destruct (Nat.lt_ge_cases i N) as [Hi|Hi]; [destruct (Nat.lt_ge_cases j N) as [Hj|Hj]|].
  - rewrite forallb_forall in H. specialize (H i). rewrite in_seq in H. specialize (H ltac:(lia)).
    rewrite forallb_forall in H. specialize (H j). rewrite in_seq in H. specialize (H ltac:(lia)).
    destruct (mget G i j) as [v|], (mget G' i j) as [w|]; try discriminate; [|exact I].
    apply andb_prop in H. destruct H as [H1 H2]. apply Z.eqb_eq in H1. apply e181_same_eq in H2. subst. split; [|vm_compute; discriminate].
    destruct t; split; try (split; [vm_compute; reflexivity|discriminate]); vm_compute; reflexivity.
  - rewrite (mget_oob G), (mget_oob G') by (auto; lia). exact I.
  - rewrite (mget_oob G), (mget_oob G') by (auto; lia). exact I.
Qed.

(** The complete graph on 7 vertices over [float]: 35 triangles. *)
Example C181_example :
  let t := CFloat in
  simple_graph 7 (e127_K 1%Z 7) /\ mrel (fexactly t 1) (e127_K 1%Z 7) (e127_K (f1 t) 7) /\
  mrel (fexactly t 1) (e127_L 1%Z 7) (e127_L (f1 t) 7) /\
  triangles 7 (edge (e127_K 1%Z 7)) = 35 /\ (2 * 35 <= 2 ^ prec t)%Z /\
  ftriangle_count t (e127_K (f1 t) 7) = Ok (of_int t 35) /\
  ftriangle_count_masked t (e127_L (f1 t) 7) = Ok (of_int t 35) /\
  ftriangle_count_masked_noT t (e127_L (f1 t) 7) = Ok (of_int t 35).
Proof.
  split; [apply e127_simple; [e127_wf|reflexivity|reflexivity|vm_compute; reflexivity]|].
  split; [apply (e181_rel _ 7); [e127_wf|e127_wf|reflexivity|reflexivity|reflexivity|reflexivity|vm_compute; reflexivity]|].
  split; [apply (e181_rel _ 7); [e127_wf|e127_wf|reflexivity|reflexivity|reflexivity|reflexivity|vm_compute; reflexivity]|].
  split; [vm_compute; reflexivity|]. split; [vm_compute; discriminate|].
  split; [vm_compute; reflexivity|]. split; vm_compute; reflexivity.
Qed.
