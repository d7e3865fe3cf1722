(** The batch betweenness centrality with [int32_t] numbers of paths: C118, C119. *)
From Coq Require Import Lia ZArith QArith Qcanon.
From Verif Require Import Base ModelLil ModelVec ModelHelpers ModelViews ModelUtils ModelIndex ModelAlgoBase ModelRank ModelInts
  ModelBc ModelBc32 Spec SpecOps SpecRank SpecBc ProofBase ProofLil ProofViews ProofIndex ProofKron ProofBc ProofBc32 PropBc.
Local Open Scope nat_scope.

(** ** C118: as long as the number of all shortest paths from each source fits in an [int32_t], nothing overflows and the
    functions compute the betweenness; the one that stops after ten levels, under the condition of C78. *)
Theorem C118_betweenness_int32 :
  forall (T : Type) (ti : T -> Z) (tq : T -> Qc) (A : lil T) (src : list nat) (N n : nat),
    wfm A -> nrows A = N -> ncols A = N -> src <> [] -> Forall (fun s => s < N) src ->
    (forall u v x, mget A u v = Some x -> ti x = 1%Z /\ tq x = 1%Qc) -> S N < n ->
    let edge := fun u v => is_some (mget A u v) in
    Forall (fun s => (Z.of_nat (list_sum (map (fun v => length (shortest_paths N edge s v)) (seq 0 N))) <= 2147483647)%Z) src ->
    let result := Ok (Some (map (betweenness N edge src) (seq 0 N))) in
    bc32_batch_alt_trans ti tq n A src = result /\ bc32_batch_alt ti tq n A src = result /\
    bc32_batch ti tq n A src = result /\ bc32_batch_old ti tq n A src = result /\
    (10 < n -> shallow N edge 10 src -> bc32_batch_alt_trans_v2 ti tq n A src = result).
Proof.
  intros T ti tq A src N n WA RA CA Hp Hs H1 Hn edge HF. cbv zeta. split; [|split; [|split; [|split]]].
  - apply bc32_alt_trans_ok; auto.
  - apply bc32_alt_ok; auto.
  - apply bc32_batch_ok; auto.
  - apply bc32_old_ok; auto.
  - intros. apply bc32_v2_ok; auto.
Qed.
Print Assumptions C118_betweenness_int32.

(** The graph of the repository's tests: the 8 vertices are reached by 19 shortest paths from vertex 0. *)
Example C118_example :
  wfm (ebc_g 1%Z) /\ (forall u v x, mget (ebc_g 1%Z) u v = Some x -> idc x = 1%Z /\ zq x = 1%Qc) /\
  list_sum (map (fun v => length (shortest_paths 8 (fun u v => is_some (mget (ebc_g 1%Z) u v)) 0 v)) (seq 0 8)) = 19 /\
  match bc32_batch_alt_trans idc zq 10 (ebc_g 1%Z) [0; 4; 0] with
  | Ok (Some l) => map (fun q => this q) l = map (fun q => this (Q2Qc q)) [0; 8 # 3; 8 # 3; 8 # 3; 6; 3 # 2; 3 # 2; 0]%Q
  | _ => False
  end.
Proof.
  split; [apply ebc_g_wf|]. split; [|split; vm_compute; reflexivity].
  intros u v x E. rewrite (ebc_g_one _ u v x E). split; reflexivity.
Qed.

(** ** C119: in other graphs the numbers of paths overflow. *)

(** Vertex 0, nine layers of eleven vertices, vertex 100; the edges go from each vertex to all of the next layer.  There are
    11^9 = 2357947691 shortest paths from vertex 0 to vertex 100. *)
Definition layer (v : nat) : nat := (v + 10) / 11.
Definition layers : lil Z :=
  mkLil 101 101 990%Z
    (map (fun u => map (fun v => (v, 1%Z)) (filter (fun v => layer v =? S (layer u)) (seq 0 101))) (seq 0 101)).

Fixpoint wfrowb {T} (lo hi : nat) (r : row T) : bool :=
  match r with [] => true | (j, _) :: r' => (lo <=? j) && (j <? hi) && wfrowb (S j) hi r' end.
Lemma wfrowb_ok {T} hi (r : row T) : forall lo, wfrowb lo hi r = true -> wfrow lo hi r.
Proof.
  induction r as [|[j x] r IH]; intros lo H; [exact Logic.I|]. simpl in *. apply andb_prop in H. destruct H as (H & H').
  apply andb_prop in H. destruct H as (A & B). apply Nat.leb_le in A. apply Nat.ltb_lt in B. split; [lia|auto].
Qed.
Lemma layers_wf : wfm layers.
Proof.
  split; [split; [reflexivity|]|vm_compute; reflexivity].
  apply Forall_forall. intros r Hr. apply wfrowb_ok.
  assert (E : forallb (wfrowb 0 101) (data layers) = true) by (vm_compute; reflexivity).
  rewrite forallb_forall in E. exact (E r Hr).
Qed.
Lemma layers_one u v x : mget layers u v = Some x -> x = 1%Z.
Proof.
  intro E. apply (In_mget layers u v x layers_wf) in E.
  assert (F : forallb (fun r => forallb (fun e : nat * Z => (snd e =? 1)%Z) r) (data layers) = true) by (vm_compute; reflexivity).
  rewrite forallb_forall in F. destruct (nth_in_or_default u (data layers) []) as [I|I]; [|rewrite I in E; destruct E].
  specialize (F _ I). rewrite forallb_forall in F. apply Z.eqb_eq. exact (F _ E).
Qed.

(** Every function is undefined although the graph meets all conditions of C76. *)
Theorem C119_betweenness_int32_overflow_refuted :
  exists (A : lil Z) (src : list nat) (N n : nat),
    wfm A /\ nrows A = N /\ ncols A = N /\ src <> [] /\ Forall (fun s => s < N) src /\
    (forall u v x, mget A u v = Some x -> idc x = 1%Z /\ zq x = 1%Qc) /\ S N < n /\
    bc32_batch_alt_trans idc zq n A src = UB /\ bc32_batch_alt idc zq n A src = UB /\
    bc32_batch idc zq n A src = UB /\ bc32_batch_old idc zq n A src = UB /\ bc32_batch_alt_trans_v2 idc zq n A src = UB.
Proof.
  exists layers, [0], 101, 103. split; [apply layers_wf|]. split; [auto|]. split; [auto|]. split; [discriminate|].
  split; [repeat constructor; lia|]. split; [|split; [lia|]].
  - intros u v x E. rewrite (layers_one u v x E). split; reflexivity.
  - repeat split; vm_compute; reflexivity.
Qed.
Print Assumptions C119_betweenness_int32_overflow_refuted.
