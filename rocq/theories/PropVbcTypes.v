(** Property theorem: [vertex_betweenness_centrality] over [float] and [double] (C158). *)
From Coq Require Import ZArith QArith Qabs Qcanon Lia Lqa Floats.SpecFloat.
From Verif Require Import Base ModelLil ModelVec ModelViews ModelAlgoBase ModelRank ModelInts ModelFloat ModelFsssp ModelConv ModelBc ModelBcTypes
  Spec SpecOps SpecRank SpecBc SpecFloats SpecFpaths SpecConv SpecNormalize
  ProofBase ProofLil ProofConv ProofBcPaths ProofBc ProofBcVert ProofBcFloat ProofVbcFloat PropBc.
Local Open Scope nat_scope.

(** The graph has [N] vertices and every stored value is 1; the shortest paths from each vertex are at most 2^24 in all for [float],
    2^53 for [double], and so is 18 N.  The function ends with a finite number for each vertex, which differs from the betweenness by
    at most (18 N + 2) u (betweenness + N), where u = 2^-24 or 2^-53. *)
Theorem C158_vertex_betweenness_float :
  forall (t : ftype) (graph : lil fval) (N n : nat),
    wfm graph -> nrows graph = N -> ncols graph = N -> N <> 0 -> N < n ->
    (forall u v x, mget graph u v = Some x -> x = f1 t) ->
    let edge := fun u v => is_some (mget graph u v) in
    (forall s, s < N -> (Z.of_nat (list_sum (map (fun v => length (shortest_paths N edge s v)) (seq 0 N))) <= 2 ^ prec t)%Z) ->
    (18 * Z.of_nat N <= 2 ^ prec t)%Z ->
    exists l, fvertex_bc t n graph = Ok (Some l) /\ length l = N /\ forall v, v < N -> exists x, nth_error l v = Some x /\ finite x /\
      let B := this (betweenness N edge (seq 0 N) v) in
      (Qabs (real x - B) <= (18 * inject_Z (Z.of_nat N) + 2) * unit_roundoff t * (B + inject_Z (Z.of_nat N)))%Q.
Proof.
  intros t graph N n WA RA CA HN Hn H1 edge HF HK.
  assert (H1' : forall u v x, mget graph u v = Some x -> x = fnat t 1) by (intros u v x E; rewrite (H1 u v x E); destruct t; reflexivity).
  assert (HF' : forall s, s < N -> (Z.of_nat (nsum N (fun v => length (shortest_paths N (gedge graph) s v))) <= 2 ^ prec t)%Z).
  { intros s Hs. rewrite <- nsum_list. exact (HF s Hs). }
  destruct (fvertex_bc_ok t graph N WA RA CA HN H1' HF' ltac:(lia) n Hn) as (l & E & L & G).
  exists l. split; [exact E|]. split; [exact L|]. intros v Hv. destruct (G v Hv) as (x & Ex & Fx & Bx). exists x. split; [exact Ex|]. split; [exact Fx|].
  cbv zeta. change (ProofBc.edge graph) with edge in Bx. unfold bc_bound in Bx. rewrite seq_length in Bx.
  assert (EK : (2 * inject_Z (Z.of_nat (8 * N + N)) == 18 * inject_Z (Z.of_nat N))%Q).
  { replace (Z.of_nat (8 * N + N)) with (9 * Z.of_nat N)%Z by lia. rewrite inject_Z_mult. change (inject_Z 9) with 9%Q. ring. }
  rewrite EK in Bx. exact Bx.
Qed.
Print Assumptions C158_vertex_betweenness_float.

(** The graph of the repository's tests over [float] and [double]. *)
Example C158_example :
  (18 * Z.of_nat 8 <= 2 ^ prec CFloat)%Z /\ wfm (ebc_g (f1 CFloat)) /\
  (forall u v x, mget (ebc_g (f1 CFloat)) u v = Some x -> x = f1 CFloat) /\
  forallb (fun s => (Z.of_nat (list_sum (map (fun v => length (shortest_paths 8 (fun u v => is_some (mget (ebc_g (f1 CFloat)) u v)) s v)) (seq 0 8))) <=? 2 ^ prec CFloat)%Z) (seq 0 8) = true /\
  match fvertex_bc CFloat 10 (ebc_g (f1 CFloat)), fvertex_bc CDouble 10 (ebc_g (f1 CDouble)) with
  | Ok (Some l), Ok (Some l') =>
      map (fun x => Qred (real x)) l = [0; 699051 # 524288; 699051 # 524288; 699051 # 524288; 12; 5 # 2; 5 # 2; 0]%Q /\ map (fun x => Qeq_bool (real x) (4 # 3)) l' = repeat false 8
  | _, _ => False
  end.
Proof.
  split; [vm_compute; discriminate|]. split; [apply ebc_g_wf|]. split; [apply ebc_g_one|]. split; [vm_compute; reflexivity|].
  vm_compute. repeat split.
Qed.
