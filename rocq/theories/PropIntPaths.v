(** Batch, filtered and all-pairs shortest paths, and the metrics derived from distances, over the built-in integer types
    (C129, C130) and over [float] and [double] with integer weights (C131, C132).  In each case the graph [G] of integers tells
    what the values in the graph [G'] of machine values are. *)
From Coq Require Import Lia ZArith Floats.SpecFloat.
From Verif Require Import Base ModelLil ModelVec ModelHelpers ModelViews ModelAlgoBase ModelSssp ModelMetrics ModelAlgebra ModelFloat ModelFsssp
  ModelInts ModelIntPaths Spec SpecOps SpecAlgebra SpecFloats SpecFpaths SpecPaths SpecMetrics SpecInts SpecIntPaths
  ProofPaths ProofSssp ProofRound ProofFloat ProofInts ProofExact ProofIntPaths PropFsssp PropInts SpecRel.

Lemma fexact_pos t : (0 <= 2 ^ prec t)%Z.
Proof. pose proof (P_pos t). lia. Qed.
Lemma int_holds t K P o : holds (ex (IR t) K) P o -> holds (exactly t K) P o.
Proof. destruct o; simpl; auto. intros (x & Hx & HP). exists x. split; [apply IR_ex; auto|auto]. Qed.
Lemma float_holds t K P o : (K <= 2 ^ prec t)%Z -> holds (ex (FR t) K) P o -> holds (fexactly t K) P o.
Proof. intro HK. destruct o; simpl; auto. intros (x & Hx & HP). exists x. split; [apply FR_ex; auto|auto]. Qed.
Ltac int_facts t T := pose proof (IR_min t); pose proof (IR_max t); pose proof (IR_plus t T); pose proof (IR_eqb t); pose proof (IR_ltb t);
  pose proof (IR_true t); pose proof (IR_0 t T); pose proof (tmax_nonneg t T); pose proof (IR_low t T); pose proof (IR_high t T);
  pose proof (IR_chkv t); pose proof (IR_chkm t); pose proof (IR_defined t); pose proof (proj1 (inty_0 t T)).
Ltac float_facts t := pose proof (FR_min t); pose proof (FR_max t); pose proof (FR_plus t); pose proof (FR_eqb t); pose proof (FR_ltb t);
  pose proof (FR_true t); pose proof (FR_0 t); pose proof (fexact_pos t); pose proof (FR_low t); pose proof (FR_high t).

(** ** C129: built-in integer types; weights and initial distances of absolute value at most [M] on [N] vertices. *)
Theorem C129_batch_sssp :
  forall (t : ctype) (G : lil Z) (G' : lil ival) (dists : lil Z) (dists' : lil ival) (N : nat) (M : Z), integer_type t ->
    mrel (exactly t M) G G' -> nrows G = N -> ncols G = N -> mrel (exactly t M) dists dists' -> ncols dists = N -> N <> 0 ->
    (0 <= M)%Z -> (M * (Z.of_nat N + 1) <= tmax t)%Z ->
    exists b d', ibatch_sssp t G' dists' = Ok (b, d') /\ wfm d' /\ nrows d' = nrows dists /\ ncols d' = N /\
      (b = false <-> exists r, r < nrows dists /\ negative_cycle (mget G) (mget dists r)) /\
      (b = true -> forall r v, holds (exactly t (M * Z.of_nat N)) (shortest (mget G) (mget dists r) v) (mget d' r v)).
Proof.
  intros t G G' dists dists' N M T HG RG CG HD SD N0 M0 HM. int_facts t T. apply (IR_m t) in HG. apply (IR_m t) in HD.
  edestruct (batch_walks (IR t) (tmax t)) with (chkm := defined_m)  (G := G) (G' := G') (N := N) (M := M) as (b & d' & E & W & R1 & R2 & Hb & Hd); eauto. rewrite <- ibatch_h in E.
  exists b, d'. repeat (split; [tauto|]). intros Eb r v. apply int_holds. apply Hd. auto.
Qed.
Print Assumptions C129_batch_sssp.

(** [filtered_sssp] drops vertices reached at distance 0 (C44): here no walk with an edge has length 0. *)
Theorem C129_filtered_sssp :
  forall (t : ctype) (G : lil Z) (G' : lil ival) (dist : bvec Z) (dist' : bvec ival) (N : nat) (M : Z), integer_type t ->
    mrel (exactly t M) G G' -> nrows G = N -> ncols G = N -> vrel (exactly t M) dist dist' -> vsize dist = N -> N <> 0 ->
    (0 <= M)%Z -> (M * (Z.of_nat N + 1) <= tmax t)%Z ->
    (forall k v x, walk_from (mget G) (vget dist) (S k) v x -> x <> 0%Z) ->
    exists b d', ifiltered_sssp t G' dist' = Ok (b, d') /\ wfv d' /\ vsize d' = N /\
      (b = false <-> negative_cycle (mget G) (vget dist)) /\
      (b = true -> forall v, holds (exactly t (M * (Z.of_nat N + 1))) (shortest (mget G) (vget dist) v) (vget d' v)).
Proof.
  intros t G G' dist dist' N M T HG RG CG HD SD N0 M0 HM NZ. int_facts t T. apply (IR_m t) in HG. apply (IR_v t) in HD.
  edestruct (filtered_walks (IR t) (tmax t)) with (chkv := defined_v)  (G := G) (G' := G') (N := N) (M := M) (dist := dist) as (b & d' & E & W & R1 & Hb & Hd); eauto. rewrite <- ifiltered_h in E.
  exists b, d'. repeat (split; [tauto|]). intros Eb v. apply int_holds. apply Hd. auto.
Qed.
Print Assumptions C129_filtered_sssp.

Theorem C129_apsp :
  forall (t : ctype) (G : lil Z) (G' : lil ival) (N : nat) (M : Z), integer_type t ->
    mrel (exactly t M) G G' -> nrows G = N -> ncols G = N -> N <> 0 ->
    (0 <= M)%Z -> (2 * (M * Z.of_nat N) <= tmax t)%Z -> no_negative_cycle (mget G) ->
    exists A', iapsp t G' = Ok A' /\ wfm A' /\ nrows A' = N /\ ncols A' = N /\
      (forall i j, i <> j -> holds (exactly t (M * Z.of_nat N)) (distance (mget G) i j) (mget A' i j)) /\
      (forall i, i < N -> (forall g, mget G i i = Some g -> (g <= 0)%Z) ->
         exists y, mget A' i i = Some y /\ exactly t (M * Z.of_nat N) 0 y).
Proof.
  intros t G G' N M T HG RG CG N0 M0 HM NN. int_facts t T. apply (IR_m t) in HG.
  edestruct (apsp_walks (IR t) (tmax t)) with (chkm := defined_m)  (G := G) (G' := G') (N := N) (M := M) as (A' & E & W & R1 & R2 & Hd & Hi); eauto. rewrite <- iapsp_h in E.
  exists A'. repeat (split; [tauto|]). split.
  - intros i j Hij. apply int_holds. auto.
  - intros i Hi1 Hi2. destruct (Hi i Hi1 Hi2) as (y & Ey & Hy). exists y. split; [auto|]. apply IR_ex; auto.
Qed.
Print Assumptions C129_apsp.

(** [signed char]: 0 -4-> 1, 0 -2-> 2, 2 -(-1)-> 1 (C116); weights up to 4 on 4 vertices. *)
Lemma e129_no_negative_cycle : no_negative_cycle (mget e116_G).
Proof.
  set (h := fun v => nth v [0; 1; 2; 0]%Z 0%Z).
  enough (H : forall u v m c, wwalk (mget e116_G) u v m c -> (h v <= h u + c)%Z) by (intros v k c Hw; apply H in Hw; lia).
  intros u v m c. induction 1 as [|v t k c g _ IH E]; [lia|].
  do 4 (destruct v as [|v]; [do 4 (destruct t as [|t]; [first [discriminate|injection E as <-; unfold h in *; simpl in *; lia]|]); discriminate|]).
  destruct v; discriminate.
Qed.
Definition entries {T} (n : nat) (r : res (lil T)) : list (list (option T)) :=
  match r with Ok A => map (fun i => map (mget A i) (seq 0 n)) (seq 0 n) | _ => [] end.
Example C129_example :
  mrel (exactly i8 4) e116_G e116_G' /\ vrel (exactly i8 4) e116_d e116_d' /\ no_negative_cycle (mget e116_G) /\
  (4 * (Z.of_nat 4 + 1) <= tmax i8)%Z /\ (2 * (4 * Z.of_nat 4) <= tmax i8)%Z /\
  distances (ifiltered_sssp i8 e116_G' e116_d') = Some (true, [Some (Ok 0%Z); Some (Ok 1%Z); Some (Ok 2%Z); None]) /\
  match ibatch_sssp i8 e116_G' (mkLil 2 4 2%Z [[(0, Ok 0%Z)]; [(2, Ok 3%Z)]]) with
  | Ok (b, d) => b = true /\ map (mget d 1) (seq 0 4) = [None; Some (Ok 2%Z); Some (Ok 3%Z); None]
  | _ => False
  end /\
  entries 4 (iapsp i8 e116_G') =
    [[Some (Ok 0%Z); Some (Ok 1%Z); Some (Ok 2%Z); None]; [None; Some (Ok 0%Z); None; None];
     [None; Some (Ok (-1)%Z); Some (Ok 0%Z); None]; [None; None; None; Some (Ok 0%Z)]].
Proof.
  destruct C116_example as (H1 & H2 & _). split; [exact H1|]. split; [exact H2|]. split; [exact e129_no_negative_cycle|].
  split; [vm_compute; discriminate|]. split; [vm_compute; discriminate|]. vm_compute. auto.
Qed.

(** No walk with an edge from vertex 0 has length 0. *)
Example C129_filtered_example : forall k v x, walk_from (mget e116_G) (vget e116_d) (S k) v x -> x <> 0%Z.
Proof.
  assert (H : forall k v c, wwalk (mget e116_G) 0 v k c ->
    v = 0 /\ k = 0 /\ c = 0%Z \/ v = 1 /\ (c = 4%Z \/ c = 1%Z) \/ v = 2 /\ c = 2%Z).
  { intros k v c Hw. remember 0 as s. revert Heqs. induction Hw as [|v t k c g _ IH E]; intros ->; [auto|].
    specialize (IH eq_refl).
    destruct IH as [(-> & -> & ->)|[(-> & IH)|(-> & ->)]]; do 4 (destruct t as [|t]; [first [discriminate|injection E as <-; simpl; lia]|]); discriminate. }
  intros k v x (u & a & c & Hu & Hw & ->). destruct u as [|[|[|[|u]]]]; try discriminate; [|destruct u; discriminate].
  injection Hu as <-. apply H in Hw. lia.
Qed.

(** ** C130: the metrics over the built-in integer types. *)
Theorem C130_graph_distance :
  forall (t : ctype) (G : lil Z) (G' : lil ival) (sid : nat) (result : bvec ival) (N : nat) (M : Z), integer_type t ->
    mrel (exactly t M) G G' -> nrows G = N -> ncols G = N -> (0 <= M)%Z -> (M * (Z.of_nat N + 1) <= tmax t)%Z -> no_negative_cycle (mget G) ->
    sid < N -> wfv0 result -> vsize result = N ->
    exists d', igraph_distance t G' sid result = Ok d' /\ wfv d' /\ vsize d' = N /\
      forall v, holds (exactly t (M * Z.of_nat N)) (distance (mget G) sid v) (vget d' v).
Proof.
  intros t G G' sid result N M T HG RG CG M0 HM NN Hs W S. assert (N0 : N <> 0) by lia. int_facts t T. apply (IR_m t) in HG.
  edestruct (distance_walks (IR t) (tmax t)) with (chkv := defined_v)  (G := G) (G' := G') (N := N) (M := M) (w0 := result) as (d' & E & Wd & Sd & Hd); eauto.
  exists d'. split; [exact E|]. split; [auto|]. split; [auto|]. intro v. apply int_holds. auto.
Qed.
Print Assumptions C130_graph_distance.

Theorem C130_graph_distance_matrix :
  forall (t : ctype) (G : lil Z) (G' : lil ival) (result : lil ival) (N : nat) (M : Z), integer_type t ->
    mrel (exactly t M) G G' -> nrows G = N -> ncols G = N -> N <> 0 -> (0 <= M)%Z -> (M * (Z.of_nat N + 1) <= tmax t)%Z ->
    no_negative_cycle (mget G) -> nrows result = N -> ncols result = N ->
    exists d', igraph_distance_matrix t G' result = Ok d' /\ wfm d' /\ nrows d' = N /\ ncols d' = N /\
      forall u v, u < N -> holds (exactly t (M * Z.of_nat N)) (distance (mget G) u v) (mget d' u v).
Proof.
  intros t G G' result N M T HG RG CG N0 M0 HM NN R C. int_facts t T. apply (IR_m t) in HG.
  edestruct (distance_matrix_walks (IR t) (tmax t)) with (chkm := defined_m)  (G := G) (G' := G') (N := N) (M := M) (C := result) as (d' & E & Wd & Rd & Cd & Hd); eauto.
  exists d'. split; [exact E|]. split; [auto|]. split; [auto|]. split; [auto|]. intros u v Hu. apply int_holds. auto.
Qed.
Print Assumptions C130_graph_distance_matrix.

Theorem C130_vertex_eccentricity :
  forall (t : ctype) (G : lil Z) (G' : lil ival) (vid N : nat) (M : Z), integer_type t ->
    mrel (exactly t M) G G' -> nrows G = N -> ncols G = N -> (0 <= M)%Z -> (M * (Z.of_nat N + 1) <= tmax t)%Z ->
    no_negative_cycle (mget G) -> vid < N ->
    exists e y, ivertex_eccentricity t G' vid = Ok y /\ exactly t (M * Z.of_nat N) e y /\ eccentricity (mget G) vid e.
Proof.
  intros t G G' vid N M T HG RG CG M0 HM NN Hs. assert (N0 : N <> 0) by lia. int_facts t T. apply (IR_m t) in HG.
  edestruct (eccentricity_walks (IR t) (tmax t)) with (chkv := defined_v) (defined := idefined) (lowest := Ok (tmin t)) (G := G) (G' := G') (N := N) (M := M) as (e & y & E & He & Hd); eauto.
  exists e, y. split; [exact E|]. split; [apply IR_ex; auto|auto].
Qed.
Print Assumptions C130_vertex_eccentricity.

Theorem C130_graph_radius :
  forall (t : ctype) (G : lil Z) (G' : lil ival) (N : nat) (M : Z), integer_type t ->
    mrel (exactly t M) G G' -> nrows G = N -> ncols G = N -> N <> 0 -> (0 <= M)%Z -> (M * (Z.of_nat N + 1) <= tmax t)%Z ->
    no_negative_cycle (mget G) ->
    exists r y, igraph_radius t G' = Ok y /\ exactly t (M * Z.of_nat N) r y /\ radius (mget G) N r.
Proof.
  intros t G G' N M T HG RG CG N0 M0 HM NN. int_facts t T. apply (IR_m t) in HG.
  edestruct (radius_walks (IR t) (tmax t)) with (chkm := defined_m) (defined := idefined) (highest := Ok (tmax t)) (G := G) (G' := G') (N := N) (M := M) as (e & y & E & He & Hd); eauto.
  exists e, y. split; [exact E|]. split; [apply IR_ex; auto|auto].
Qed.
Print Assumptions C130_graph_radius.

Theorem C130_graph_diameter :
  forall (t : ctype) (G : lil Z) (G' : lil ival) (N : nat) (M : Z), integer_type t ->
    mrel (exactly t M) G G' -> nrows G = N -> ncols G = N -> N <> 0 -> (0 <= M)%Z -> (M * (Z.of_nat N + 1) <= tmax t)%Z ->
    no_negative_cycle (mget G) ->
    exists d y, igraph_diameter t G' = Ok y /\ exactly t (M * Z.of_nat N) d y /\ diameter (mget G) N d.
Proof.
  intros t G G' N M T HG RG CG N0 M0 HM NN. int_facts t T. apply (IR_m t) in HG.
  edestruct (diameter_walks (IR t) (tmax t)) with (chkm := defined_m) (defined := idefined) (lowest := Ok (tmin t)) (G := G) (G' := G') (N := N) (M := M) as (e & y & E & He & Hd); [..|exists e, y; split; [exact E|]; split; [apply IR_ex; auto|exact Hd]]; eauto; lia.
Qed.
Print Assumptions C130_graph_diameter.

(** What is called closeness centrality is the sum of the distances from the vertex (C61). *)
Theorem C130_closeness_centrality :
  forall (t : ctype) (G : lil Z) (G' : lil ival) (Ds : nat -> option Z) (vid N : nat) (M : Z), integer_type t ->
    mrel (exactly t M) G G' -> nrows G = N -> ncols G = N -> (0 <= M)%Z -> (M * (Z.of_nat N + 1) <= tmax t)%Z ->
    (M * Z.of_nat N * Z.of_nat N <= tmax t)%Z -> no_negative_cycle (mget G) -> vid < N ->
    (forall v x, Ds v = Some x <-> distance (mget G) vid v x) ->
    exists y, icloseness_centrality t G' vid = Ok y /\ exactly t (M * Z.of_nat N * Z.of_nat N) (sum_values N Ds) y.
Proof.
  intros t G G' Ds vid N M T HG RG CG M0 HM HM2 NN Hs HDs. assert (N0 : N <> 0) by lia. int_facts t T. apply (IR_m t) in HG.
  edestruct (closeness_walks (IR t) (tmax t)) with (chkv := defined_v) (defined := idefined)  (G := G) (G' := G') (N := N) (M := M) as (y & E & He); eauto.
  exists y. split; [exact E|]. apply IR_ex; auto.
Qed.
Print Assumptions C130_closeness_centrality.

Example C130_example :
  mrel (exactly i8 4) e116_G e116_G' /\ no_negative_cycle (mget e116_G) /\
  (4 * (Z.of_nat 4 + 1) <= tmax i8)%Z /\ (4 * Z.of_nat 4 * Z.of_nat 4 <= tmax i8)%Z /\
  ivertex_eccentricity i8 e116_G' 0 = Ok (Ok 2%Z) /\ igraph_radius i8 e116_G' = Ok (Ok 0%Z) /\
  igraph_diameter i8 e116_G' = Ok (Ok 2%Z) /\ icloseness_centrality i8 e116_G' 0 = Ok (Ok 3%Z) /\
  entries 4 (igraph_distance_matrix i8 e116_G' (lil_new 4 4)) =
    [[Some (Ok 0%Z); Some (Ok 1%Z); Some (Ok 2%Z); None]; [None; Some (Ok 0%Z); None; None];
     [None; Some (Ok (-1)%Z); Some (Ok 0%Z); None]; [None; None; None; Some (Ok 0%Z)]] /\
  match igraph_distance i8 e116_G' 2 e116_d' with
  | Ok d => map (vget d) (seq 0 4) = [None; Some (Ok (-1)%Z); Some (Ok 0%Z); None]
  | _ => False
  end.
Proof.
  destruct C116_example as (H1 & _). split; [exact H1|]. split; [exact e129_no_negative_cycle|].
  split; [vm_compute; discriminate|]. split; [vm_compute; discriminate|]. vm_compute. auto 10.
Qed.

(** ** C131: [float] and [double]; the weights are integers of absolute value at most [M]. *)
Theorem C131_batch_sssp :
  forall (t : ftype) (G : lil Z) (G' : lil fval) (dists : lil Z) (dists' : lil fval) (N : nat) (M : Z), 
    mrel (fexactly t M) G G' -> nrows G = N -> ncols G = N -> mrel (fexactly t M) dists dists' -> ncols dists = N -> N <> 0 ->
    (0 <= M)%Z -> (M * (Z.of_nat N + 1) <= 2 ^ prec t)%Z ->
    exists b d', fbatch_sssp t G' dists' = Ok (b, d') /\ wfm d' /\ nrows d' = nrows dists /\ ncols d' = N /\
      (b = false <-> exists r, r < nrows dists /\ negative_cycle (mget G) (mget dists r)) /\
      (b = true -> forall r v, holds (fexactly t (M * Z.of_nat N)) (shortest (mget G) (mget dists r) v) (mget d' r v)).
Proof.
  intros t G G' dists dists' N M HG RG CG HD SD N0 M0 HM. float_facts t. apply (FR_m t) in HG; [|nia]. apply (FR_m t) in HD; [|nia].
  edestruct (batch_walks (FR t) (2 ^ prec t)) with (chkm := @Ok (lil fval))  (G := G) (G' := G') (N := N) (M := M) as (b & d' & E & W & R1 & R2 & Hb & Hd); eauto. rewrite <- fbatch_h in E.
  exists b, d'. repeat (split; [tauto|]). intros Eb r v. apply float_holds; [nia|]. apply Hd. auto.
Qed.
Print Assumptions C131_batch_sssp.

(** [filtered_sssp] drops vertices reached at distance 0 (C44): here no walk with an edge has length 0. *)
Theorem C131_filtered_sssp :
  forall (t : ftype) (G : lil Z) (G' : lil fval) (dist : bvec Z) (dist' : bvec fval) (N : nat) (M : Z), 
    mrel (fexactly t M) G G' -> nrows G = N -> ncols G = N -> vrel (fexactly t M) dist dist' -> vsize dist = N -> N <> 0 ->
    (0 <= M)%Z -> (M * (Z.of_nat N + 1) <= 2 ^ prec t)%Z ->
    (forall k v x, walk_from (mget G) (vget dist) (S k) v x -> x <> 0%Z) ->
    exists b d', ffiltered_sssp t G' dist' = Ok (b, d') /\ wfv d' /\ vsize d' = N /\
      (b = false <-> negative_cycle (mget G) (vget dist)) /\
      (b = true -> forall v, holds (fexactly t (M * (Z.of_nat N + 1))) (shortest (mget G) (vget dist) v) (vget d' v)).
Proof.
  intros t G G' dist dist' N M HG RG CG HD SD N0 M0 HM NZ. float_facts t. apply (FR_m t) in HG; [|nia]. apply (FR_v t) in HD; [|nia].
  edestruct (filtered_walks (FR t) (2 ^ prec t)) with (chkv := @Ok (bvec fval))  (G := G) (G' := G') (N := N) (M := M) (dist := dist) as (b & d' & E & W & R1 & Hb & Hd); eauto. rewrite <- ffiltered_h in E.
  exists b, d'. repeat (split; [tauto|]). intros Eb v. apply float_holds; [nia|]. apply Hd. auto.
Qed.
Print Assumptions C131_filtered_sssp.

Theorem C131_apsp :
  forall (t : ftype) (G : lil Z) (G' : lil fval) (N : nat) (M : Z), 
    mrel (fexactly t M) G G' -> nrows G = N -> ncols G = N -> N <> 0 ->
    (0 <= M)%Z -> (2 * (M * Z.of_nat N) <= 2 ^ prec t)%Z -> no_negative_cycle (mget G) ->
    exists A', fapsp t G' = Ok A' /\ wfm A' /\ nrows A' = N /\ ncols A' = N /\
      (forall i j, i <> j -> holds (fexactly t (M * Z.of_nat N)) (distance (mget G) i j) (mget A' i j)) /\
      (forall i, i < N -> (forall g, mget G i i = Some g -> (g <= 0)%Z) ->
         exists y, mget A' i i = Some y /\ fexactly t (M * Z.of_nat N) 0 y).
Proof.
  intros t G G' N M HG RG CG N0 M0 HM NN. float_facts t. apply (FR_m t) in HG; [|nia].
  edestruct (apsp_walks (FR t) (2 ^ prec t)) with (chkm := @Ok (lil fval))  (G := G) (G' := G') (N := N) (M := M) as (A' & E & W & R1 & R2 & Hd & Hi); eauto. rewrite <- fapsp_h in E.
  exists A'. repeat (split; [tauto|]). split.
  - intros i j Hij. apply float_holds; [nia|]. auto.
  - intros i Hi1 Hi2. destruct (Hi i Hi1 Hi2) as (y & Ey & Hy). exists y. split; [auto|]. apply FR_ex; [nia|auto].
Qed.
Print Assumptions C131_apsp.

Example C131_example :
  mrel (fexactly CFloat 4) e111_G e111_FG /\ vrel (fexactly CFloat 4) e111_d e110_d /\ no_negative_cycle (mget e111_G) /\
  (4 * (Z.of_nat 4 + 1) <= 2 ^ prec CFloat)%Z /\ (2 * (4 * Z.of_nat 4) <= 2 ^ prec CFloat)%Z /\
  e110_vals (ffiltered_sssp CFloat e111_FG e110_d) =
    Some (true, [Some f0; Some (of_int CFloat 1); Some (of_int CFloat 2); None]) /\
  match fbatch_sssp CFloat e111_FG (mkLil 2 4 2%Z [[(0, f0)]; [(2, of_int CFloat 3)]]) with
  | Ok (b, d) => b = true /\ map (mget d 1) (seq 0 4) = [None; Some (of_int CFloat 2); Some (of_int CFloat 3); None]
  | _ => False
  end /\
  entries 4 (fapsp CFloat e111_FG) =
    [[Some f0; Some (of_int CFloat 1); Some (of_int CFloat 2); None]; [None; Some f0; None; None];
     [None; Some (of_int CFloat (-1)); Some f0; None]; [None; None; None; Some f0]].
Proof.
  split; [|split; [|split; [exact e129_no_negative_cycle|split; [vm_compute; discriminate|split; [vm_compute; discriminate|vm_compute; auto]]]]].
  - split; [repeat split; repeat constructor|]. split; [repeat split; repeat constructor|]. split; [auto|]. split; [auto|]. intros u v.
    do 4 (destruct u as [|u]; [do 4 (destruct v as [|v]; [try exact I; vm_compute; repeat split; discriminate|]); exact I|]).
    unfold mget. simpl. destruct u; exact I.
  - split; [repeat split|]. split; [repeat split|]. split; [auto|].
    intros [|[|[|[|v]]]]; try exact I; [vm_compute; repeat split; discriminate|]. unfold vget. simpl. destruct v; exact I.
Qed.

(** ** C132: the metrics over [float] and [double] with integer weights. *)
Theorem C132_graph_distance :
  forall (t : ftype) (G : lil Z) (G' : lil fval) (sid : nat) (result : bvec fval) (N : nat) (M : Z), 
    mrel (fexactly t M) G G' -> nrows G = N -> ncols G = N -> (0 <= M)%Z -> (M * (Z.of_nat N + 1) <= 2 ^ prec t)%Z -> no_negative_cycle (mget G) ->
    sid < N -> wfv0 result -> vsize result = N ->
    exists d', fgraph_distance t G' sid result = Ok d' /\ wfv d' /\ vsize d' = N /\
      forall v, holds (fexactly t (M * Z.of_nat N)) (distance (mget G) sid v) (vget d' v).
Proof.
  intros t G G' sid result N M HG RG CG M0 HM NN Hs W S. assert (N0 : N <> 0) by lia. float_facts t. apply (FR_m t) in HG; [|nia].
  edestruct (distance_walks (FR t) (2 ^ prec t)) with (chkv := @Ok (bvec fval))  (G := G) (G' := G') (N := N) (M := M) (w0 := result) as (d' & E & Wd & Sd & Hd); eauto.
  exists d'. split; [rewrite fgraph_distance_h; exact E|]. split; [auto|]. split; [auto|]. intro v. apply float_holds; [nia|]. auto.
Qed.
Print Assumptions C132_graph_distance.

Theorem C132_graph_distance_matrix :
  forall (t : ftype) (G : lil Z) (G' : lil fval) (result : lil fval) (N : nat) (M : Z), 
    mrel (fexactly t M) G G' -> nrows G = N -> ncols G = N -> N <> 0 -> (0 <= M)%Z -> (M * (Z.of_nat N + 1) <= 2 ^ prec t)%Z ->
    no_negative_cycle (mget G) -> nrows result = N -> ncols result = N ->
    exists d', fgraph_distance_matrix t G' result = Ok d' /\ wfm d' /\ nrows d' = N /\ ncols d' = N /\
      forall u v, u < N -> holds (fexactly t (M * Z.of_nat N)) (distance (mget G) u v) (mget d' u v).
Proof.
  intros t G G' result N M HG RG CG N0 M0 HM NN R C. float_facts t. apply (FR_m t) in HG; [|nia].
  edestruct (distance_matrix_walks (FR t) (2 ^ prec t)) with (chkm := @Ok (lil fval))  (G := G) (G' := G') (N := N) (M := M) (C := result) as (d' & E & Wd & Rd & Cd & Hd); eauto.
  exists d'. split; [rewrite fgraph_distance_matrix_h; exact E|]. split; [auto|]. split; [auto|]. split; [auto|]. intros u v Hu. apply float_holds; [nia|]. auto.
Qed.
Print Assumptions C132_graph_distance_matrix.

Theorem C132_vertex_eccentricity :
  forall (t : ftype) (G : lil Z) (G' : lil fval) (vid N : nat) (M : Z), 
    mrel (fexactly t M) G G' -> nrows G = N -> ncols G = N -> (0 <= M)%Z -> (M * (Z.of_nat N + 1) <= 2 ^ prec t)%Z ->
    no_negative_cycle (mget G) -> vid < N ->
    exists e y, fvertex_eccentricity t G' vid = Ok y /\ fexactly t (M * Z.of_nat N) e y /\ eccentricity (mget G) vid e.
Proof.
  intros t G G' vid N M HG RG CG M0 HM NN Hs. assert (N0 : N <> 0) by lia. float_facts t. apply (FR_m t) in HG; [|nia].
  edestruct (eccentricity_walks (FR t) (2 ^ prec t)) with (chkv := @Ok (bvec fval)) (defined := @Ok fval) (lowest := fninf) (G := G) (G' := G') (N := N) (M := M) as (e & y & E & He & Hd); eauto.
  exists e, y. split; [rewrite fvertex_eccentricity_h; exact E|]. split; [apply FR_ex; [nia|auto]|auto].
Qed.
Print Assumptions C132_vertex_eccentricity.

Theorem C132_graph_radius :
  forall (t : ftype) (G : lil Z) (G' : lil fval) (N : nat) (M : Z), 
    mrel (fexactly t M) G G' -> nrows G = N -> ncols G = N -> N <> 0 -> (0 <= M)%Z -> (M * (Z.of_nat N + 1) <= 2 ^ prec t)%Z ->
    no_negative_cycle (mget G) ->
    exists r y, fgraph_radius t G' = Ok y /\ fexactly t (M * Z.of_nat N) r y /\ radius (mget G) N r.
Proof.
  intros t G G' N M HG RG CG N0 M0 HM NN. float_facts t. apply (FR_m t) in HG; [|nia].
  edestruct (radius_walks (FR t) (2 ^ prec t)) with (chkm := @Ok (lil fval)) (defined := @Ok fval) (highest := finf) (G := G) (G' := G') (N := N) (M := M) as (e & y & E & He & Hd); eauto.
  exists e, y. split; [rewrite fgraph_radius_h; exact E|]. split; [apply FR_ex; [nia|auto]|auto].
Qed.
Print Assumptions C132_graph_radius.

Theorem C132_graph_diameter :
  forall (t : ftype) (G : lil Z) (G' : lil fval) (N : nat) (M : Z), 
    mrel (fexactly t M) G G' -> nrows G = N -> ncols G = N -> N <> 0 -> (0 <= M)%Z -> (M * (Z.of_nat N + 1) <= 2 ^ prec t)%Z ->
    no_negative_cycle (mget G) ->
    exists d y, fgraph_diameter t G' = Ok y /\ fexactly t (M * Z.of_nat N) d y /\ diameter (mget G) N d.
Proof.
  intros t G G' N M HG RG CG N0 M0 HM NN. float_facts t. apply (FR_m t) in HG; [|nia].
  edestruct (diameter_walks (FR t) (2 ^ prec t)) with (chkm := @Ok (lil fval)) (defined := @Ok fval) (lowest := fninf) (G := G) (G' := G') (N := N) (M := M) as (e & y & E & He & Hd); [..|exists e, y; split; [rewrite fgraph_diameter_h; exact E|]; split; [apply FR_ex; [nia|auto]|exact Hd]]; eauto; nia.
Qed.
Print Assumptions C132_graph_diameter.

(** What is called closeness centrality is the sum of the distances from the vertex (C61). *)
Theorem C132_closeness_centrality :
  forall (t : ftype) (G : lil Z) (G' : lil fval) (Ds : nat -> option Z) (vid N : nat) (M : Z), 
    mrel (fexactly t M) G G' -> nrows G = N -> ncols G = N -> (0 <= M)%Z -> (M * (Z.of_nat N + 1) <= 2 ^ prec t)%Z ->
    (M * Z.of_nat N * Z.of_nat N <= 2 ^ prec t)%Z -> no_negative_cycle (mget G) -> vid < N ->
    (forall v x, Ds v = Some x <-> distance (mget G) vid v x) ->
    exists y, fcloseness_centrality t G' vid = Ok y /\ fexactly t (M * Z.of_nat N * Z.of_nat N) (sum_values N Ds) y.
Proof.
  intros t G G' Ds vid N M HG RG CG M0 HM HM2 NN Hs HDs. assert (N0 : N <> 0) by lia. float_facts t. apply (FR_m t) in HG; [|nia].
  edestruct (closeness_walks (FR t) (2 ^ prec t)) with (chkv := @Ok (bvec fval)) (defined := @Ok fval)  (G := G) (G' := G') (N := N) (M := M) as (y & E & He); eauto.
  exists y. split; [rewrite fcloseness_centrality_h; exact E|]. apply FR_ex; [nia|auto].
Qed.
Print Assumptions C132_closeness_centrality.

Example C132_example :
  (4 * Z.of_nat 4 * Z.of_nat 4 <= 2 ^ prec CFloat)%Z /\
  fvertex_eccentricity CFloat e111_FG 0 = Ok (of_int CFloat 2) /\ fgraph_radius CFloat e111_FG = Ok f0 /\
  fgraph_diameter CFloat e111_FG = Ok (of_int CFloat 2) /\ fcloseness_centrality CFloat e111_FG 0 = Ok (of_int CFloat 3) /\
  entries 4 (fgraph_distance_matrix CFloat e111_FG (lil_new 4 4)) =
    [[Some f0; Some (of_int CFloat 1); Some (of_int CFloat 2); None]; [None; Some f0; None; None];
     [None; Some (of_int CFloat (-1)); Some f0; None]; [None; None; None; Some f0]] /\
  match fgraph_distance CFloat e111_FG 2 e110_d with
  | Ok d => map (vget d) (seq 0 4) = [None; Some (of_int CFloat (-1)); Some f0; None]
  | _ => False
  end.
Proof. split; [vm_compute; discriminate|]. vm_compute. auto 10. Qed.
