(** Property theorems: [edge_betweenness_centrality] with the built-in types of C++ (C159, C160). *)
From Coq Require Import ZArith QArith Lia Floats.SpecFloat.
From Verif Require Import Base ModelLil ModelVec ModelViews ModelAlgoBase ModelAlgebra ModelOps ModelInts ModelBc32 ModelFloat ModelFsssp ModelConv ModelBc ModelEbcTypes
  Spec SpecOps SpecBc SpecFloats SpecConv ProofBase ProofLil ProofKron ProofGraph ProofRc ProofBcPaths ProofBc ProofBcVert ProofEbc ProofVbcFloat ProofEbcBound ProofEbcTypes PropBc PropBc32.
Local Open Scope nat_scope.

(** The shortest paths from [s] to all vertices. *)
Definition paths_from (N : nat) (edge : nat -> nat -> bool) (s : nat) : Z :=
  Z.of_nat (list_sum (map (fun v => length (shortest_paths N edge s v)) (seq 0 N))).

(** ** C159: the numbers fit *)

(** An integer type other than [bool]: the scores are those of C80 if the numbers of shortest paths from each vertex and the scores fit
    in the type and there are fewer than 2^31 shortest paths from any vertex to any other. *)
Theorem C159_edge_betweenness_int :
  forall (t : ctype) (graph : lil ival) (N n : nat),
    t <> CBool -> wfm graph -> nrows graph = N -> ncols graph = N -> N < n ->
    (forall u v x, mget graph u v = Some x -> x = Ok 1%Z) -> (forall v, v < N -> mget graph v v = None) ->
    let edge := fun u v => is_some (mget graph u v) in
    (forall s, s < N -> (paths_from N edge s <= tmax t)%Z) ->
    (forall s v, s < N -> v < N -> (Z.of_nat (length (shortest_paths N edge s v)) < 2 ^ 31)%Z) ->
    (forall u v, u < N -> v < N -> (Z.of_nat (edge_uses N edge u v) <= tmax t)%Z) ->
    exists M, iedge_betweenness t n graph = Ok (Some M) /\ wfm M /\ nrows M = N /\ ncols M = N /\
      forall u v, u < N -> v < N ->
        mget M u v = let c := edge_uses N edge u v in if c =? 0 then None else Some (Ok (Z.of_nat c)).
Proof.
  intros t graph N n TB WA RA CA Hn H1 Hl edge HF HI HU. pose proof (tmax_2 t TB) as T2.
  assert (HF' : forall s, s < N -> (Z.of_nat (total N (gedge graph) s) <= tmax t)%Z).
  { intros s Hs. unfold total. rewrite <- nsum_list. exact (HF s Hs). }
  destruct (xedge_ok is_ok (op2 Plus t) (op2 Times t) (op2 (fun t => Div t t t) t) (inat t) itrue i_int32_bool graph N (tmax t) (Z.min (tmax t) 2147483647)
    WA RA CA) with (n := n) as (M & E & W & R & C & G); auto; try (intros; reflexivity).
  - apply inat_plus.
  - intros. apply inat_times; auto.
  - intros a Ha. rewrite inat_times by (rewrite ?Nat.mul_1_r; auto; lia). rewrite Nat.mul_1_r. reflexivity.
  - intros. apply inat_div; auto.
  - apply inat_true.
  - apply inat_int32.
  - intros u v x E. rewrite (H1 u v x E), inat_eq by lia. reflexivity.
  - intros v Hv. unfold gedge. rewrite Hl; auto.
  - intros s v Hs Hv. apply Z.min_glb; [|specialize (HI s v Hs Hv); cbn in HI; unfold edge in HI; unfold gedge; lia].
    specialize (HF' s Hs). unfold total in HF'. pose proof (nsum_ge N (fun v => length (shortest_paths N (gedge graph) s v)) v Hv). lia.
  - exists M. split; [exact E|]. split; [exact W|]. split; [exact R|]. split; [exact C|]. intros u v Hu Hv. rewrite G by auto. unfold ocnt. cbv zeta.
    change (gedge graph) with edge. destruct (edge_uses N edge u v =? 0); [reflexivity|]. rewrite inat_eq by auto. reflexivity.
Qed.
Print Assumptions C159_edge_betweenness_int.

(** [float] and [double]: the scores are exact if the numbers of shortest paths from each vertex and the scores are at most 2^24 or
    2^53 and there are fewer than 2^31 shortest paths from any vertex to any other. *)
Theorem C159_edge_betweenness_float :
  forall (t : ftype) (graph : lil fval) (N n : nat),
    wfm graph -> nrows graph = N -> ncols graph = N -> N < n ->
    (forall u v x, mget graph u v = Some x -> x = f1 t) -> (forall v, v < N -> mget graph v v = None) ->
    let edge := fun u v => is_some (mget graph u v) in
    (forall s, s < N -> (paths_from N edge s <= 2 ^ prec t)%Z) ->
    (forall s v, s < N -> v < N -> (Z.of_nat (length (shortest_paths N edge s v)) < 2 ^ 31)%Z) ->
    (forall u v, u < N -> v < N -> (Z.of_nat (edge_uses N edge u v) <= 2 ^ prec t)%Z) ->
    exists M, fedge_betweenness t n graph = Ok (Some M) /\ wfm M /\ nrows M = N /\ ncols M = N /\
      forall u v, u < N -> v < N ->
        mget M u v = let c := edge_uses N edge u v in if c =? 0 then None else Some (of_int t (Z.of_nat c)).
Proof.
  intros t graph N n WA RA CA Hn H1 Hl edge HF HI HU. pose proof (prec_M t) as (T2 & _).
  assert (HF' : forall s, s < N -> (Z.of_nat (total N (gedge graph) s) <= 2 ^ prec t)%Z).
  { intros s Hs. unfold total. rewrite <- nsum_list. exact (HF s Hs). }
  destruct (xedge_ok (fun _ => true) (FPlus t) (FTimes t) (FDiv t) (fnat t) ftrue f_int32_bool graph N (2 ^ prec t) (Z.min (2 ^ prec t) 2147483647)
    WA RA CA) with (n := n) as (M & E & W & R & C & G); auto; try (intros; reflexivity).
  - apply fnat_plus.
  - intros. apply fnat_mul; auto.
  - apply fnat_times.
  - intros. apply fnat_div; auto.
  - apply fnat_true.
  - intros. apply fnat_int32; lia.
  - intros v Hv. unfold gedge. rewrite Hl; auto.
  - intros s v Hs Hv. apply Z.min_glb; [|specialize (HI s v Hs Hv); change (2 ^ 31)%Z with 2147483648%Z in HI; unfold edge in HI; unfold gedge; lia].
    specialize (HF' s Hs). unfold total in HF'. pose proof (nsum_ge N (fun v => length (shortest_paths N (gedge graph) s v)) v Hv). lia.
  - exists M. split; [exact E|]. split; [exact W|]. split; [exact R|]. split; [exact C|]. intros u v Hu Hv. rewrite G by auto. reflexivity.
Qed.
Print Assumptions C159_edge_betweenness_float.

(** The graph of the repository's tests with [uint8_t] and [float]. *)
Example C159_example :
  wfm (ebc_g (Ok 1%Z)) /\ (forall v, v < 8 -> mget (ebc_g (Ok 1%Z)) v v = None) /\
  (let edge := fun u v => is_some (mget (ebc_g (Ok 1%Z)) u v) in
   forallb (fun s => (paths_from 8 edge s <=? tmax (CInt false W8))%Z) (seq 0 8) = true /\
   forallb (fun u => forallb (fun v => (Z.of_nat (edge_uses 8 edge u v) <=? tmax (CInt false W8))%Z) (seq 0 8)) (seq 0 8) = true) /\
  match iedge_betweenness (CInt false W8) 10 (ebc_g (Ok 1%Z)), fedge_betweenness CFloat 10 (ebc_g (f1 CFloat)) with
  | Ok (Some M), Ok (Some M') => mget M 1 4 = Some (Ok 10%Z) /\ mget M 4 5 = Some (Ok 14%Z) /\ mget M 5 4 = None /\ mget M' 4 5 = Some (of_int CFloat 14)
  | _, _ => False
  end.
Proof.
  split; [apply ebc_g_wf|]. split; [intros v Hv; do 8 (destruct v as [|v]; [reflexivity|]); lia|].
  split; [split; vm_compute; reflexivity|]. vm_compute. auto.
Qed.

(** ** C160: the numbers of paths are converted to [int32_t] *)

(** Vertex 0, sixteen layers of four vertices, vertex 65; the edges go from each vertex to all of the next layer.  There are
    4^16 = 2^32 shortest paths from vertex 0 to vertex 65. *)
Definition layer4 (v : nat) : nat := (v + 3) / 4.
Definition layers4 : lil ival :=
  mkLil 66 66 248%Z (map (fun u => map (fun v => (v, Ok 1%Z)) (filter (fun v => layer4 v =? S (layer4 u)) (seq 0 66))) (seq 0 66)).
Lemma layers4_wf : wfm layers4.
Proof.
  split; [split; [reflexivity|]|vm_compute; reflexivity].
  apply Forall_forall. intros r Hr. apply wfrowb_ok.
  assert (E : forallb (wfrowb 0 66) (data layers4) = true) by (vm_compute; reflexivity).
  rewrite forallb_forall in E. exact (E r Hr).
Qed.
Lemma layers4_one u v x : mget layers4 u v = Some x -> x = Ok 1%Z.
Proof.
  intro E. apply (In_mget _ u v x layers4_wf) in E.
  destruct (nth_in_or_default u (data layers4) []) as [I|I]; [|rewrite I in E; destruct E].
  unfold layers4 in I, E. cbn [data] in I, E. apply in_map_iff in I. destruct I as (w & I & _). rewrite <- I in E. apply in_map_iff in E.
  destruct E as (k & E & _). injection E as _ E. auto.
Qed.
Lemma layers4_loop v : v < 66 -> mget layers4 v v = None.
Proof.
  intro Hv. assert (F : forallb (fun v => negb (is_some (mget layers4 v v))) (seq 0 66) = true) by (vm_compute; reflexivity).
  rewrite forallb_forall in F. specialize (F v ltac:(apply in_seq; lia)). destruct (mget layers4 v v); [discriminate|reflexivity].
Qed.

(** Unbounded integers for C80. *)
Definition un2 (f : Z -> Z -> Z) (x y : ival) : ival := match x, y with Ok a, Ok b => Ok (f a b) | _, _ => x end.
Definition un_nat (a : nat) : ival := Ok (Z.of_nat a).
Definition uns : res (option (lil ival)) := edge_betweenness_centrality (un2 Z.add) (un2 Z.mul) (un2 Z.quot) un_nat itrue 68 layers4.
Local Notation uses := (edge_uses 66 (fun u v => is_some (mget layers4 u v))).
Lemma uns_ok : exists M, uns = Ok (Some M) /\ forall u v, u < 66 -> v < 66 -> mget M u v = if uses u v =? 0 then None else Some (un_nat (uses u v)).
Proof.
  destruct (C80_edge_betweenness ival (un2 Z.add) (un2 Z.mul) (un2 Z.quot) un_nat itrue layers4 66 68) as (M & E & _ & _ & _ & G); try reflexivity; try lia.
  - apply layers4_wf.
  - intros a b. unfold un2, un_nat. rewrite Nat2Z.inj_add. reflexivity.
  - intros a b. unfold un2, un_nat. rewrite Nat2Z.inj_mul. reflexivity.
  - intro x. destruct x; auto. cbn. rewrite Z.mul_1_r. reflexivity.
  - intros a b Hb. unfold un2, un_nat. f_equal. rewrite Nat2Z.inj_mul, Z.mul_comm. apply Z.quot_mul. lia.
  - intro a. destruct a; reflexivity.
  - apply layers4_one.
  - apply layers4_loop.
  - exists M. split; [exact E|]. exact G.
Qed.
Definition small_at (M : lil ival) (u v : nat) : bool := match mget M u v with None => true | Some (Ok z) => (z <=? tmax (CInt false W64))%Z | _ => false end.
Lemma uns_small : match uns with Ok (Some M) =>
    forallb (fun u => forallb (small_at M u) (seq 0 66)) (seq 0 66) && match mget M 64 65 with Some (Ok z) => (z =? 2505397589)%Z | _ => false end
  | _ => false end = true.
Proof. vm_compute. reflexivity. Qed.

Definition answer (p : lil ival -> bool) (r : res (option (lil ival))) : bool := match r with Ok (Some M) => p M | _ => false end.
Lemma answer_some p r : answer p r = true -> exists M, r = Ok (Some M) /\ p M = true.
Proof. destruct r as [[M|]| |]; try discriminate. intro H. exists M. auto. Qed.
Definition score_is (z : Z) (M : lil ival) : bool := match mget M 64 65 with Some (Ok z') => (z' =? z)%Z | _ => false end.
Lemma ebc_u64 : answer (score_is 1431655765) (iedge_betweenness (CInt false W64) 68 layers4) = true.
Proof. vm_compute. reflexivity. Qed.

(** All scores fit in [uint64_t], but one of them is wrong: the paths from vertex 0 are not counted. *)
Theorem C160_edge_betweenness_int32_refuted :
  exists (graph M : lil ival) (N n : nat),
    wfm graph /\ nrows graph = N /\ ncols graph = N /\ N < n /\
    (forall u v x, mget graph u v = Some x -> x = Ok 1%Z) /\ (forall v, v < N -> mget graph v v = None) /\
    let edge := fun u v => is_some (mget graph u v) in
    (forall u v, u < N -> v < N -> (Z.of_nat (edge_uses N edge u v) <= tmax (CInt false W64))%Z) /\
    iedge_betweenness (CInt false W64) n graph = Ok (Some M) /\
    exists u v, u < N /\ v < N /\ mget M u v = Some (Ok 1431655765%Z) /\ Z.of_nat (edge_uses N edge u v) = 2505397589%Z.
Proof.
  destruct (answer_some _ _ ebc_u64) as (M & E & R).
  exists layers4, M, 66, 68. split; [apply layers4_wf|]. split; [reflexivity|]. split; [reflexivity|]. split; [lia|].
  split; [apply layers4_one|]. split; [apply layers4_loop|]. cbv zeta.
  destruct uns_ok as (M' & E' & G). pose proof uns_small as B. rewrite E' in B. apply andb_prop in B. destruct B as (B1 & B2). rewrite forallb_forall in B1.
  split; [|split; [exact E|]].
  - intros u v Hu Hv. specialize (B1 u ltac:(apply in_seq; lia)). rewrite forallb_forall in B1. specialize (B1 v ltac:(apply in_seq; lia)).
    unfold small_at in B1. rewrite (G u v Hu Hv) in B1. destruct (Nat.eqb_spec (uses u v) 0) as [Q|Q]; [rewrite Q; discriminate|].
    unfold un_nat in B1. apply Z.leb_le in B1. exact B1.
  - exists 64, 65. split; [lia|]. split; [lia|]. split.
    + clear - R. unfold score_is in R. destruct (mget M 64 65) as [[z| |]|]; try discriminate. apply Z.eqb_eq in R. rewrite R. reflexivity.
    + clear - B2 G. rewrite (G 64 65) in B2 by lia. revert B2. generalize (edge_uses 66 (fun u v => is_some (mget layers4 u v)) 64 65). intros c B2. destruct (c =? 0); [discriminate|]. unfold un_nat in B2. apply Z.eqb_eq in B2. exact B2.
Qed.
Print Assumptions C160_edge_betweenness_int32_refuted.
