(** Proofs about the graph metrics. *)
From Coq Require Import Lia.
From Verif Require Import Base ModelLil ModelVec ModelHelpers ModelViews ModelMul ModelElem
  ModelIndex ModelUtils ModelAlgoBase ModelSssp ModelMetrics Spec SpecOps SpecIndex SpecPaths
  SpecMetrics ProofBase ProofRow ProofLil ProofVec ProofViews ProofReduce ProofIndex ProofUtils
  ProofElem ProofGraph ProofPaths ProofSssp.

(** ** Degrees *)
Section Degree.
Context {T : Type} (dflt : T) (ofcount : Z -> T) (tplus : T -> T -> T).

Lemma count_col (A : mview T) n col :
  wfview A -> n <> 0 -> col < vcols A ->
  exists w, (w <- vec_new dflt n ;;
             extract_col btrue idc (NoAcc idc) vnomask MERGE w A AllIdx col) = Ok w /\
    vnvals w = Z.of_nat (vcount n (fun i => sview A i col)).
Proof.
  intros WA Hn Hc. destruct (vec_new_ok dflt n Hn) as (w0 & -> & W0 & S0 & G0). cbn [bind].
  destruct (extract_col_ok btrue idc (NoAcc idc) vnomask MERGE w0 A AllIdx col)
    as (w & -> & W & S & G); auto.
  - apply W0.
  - exact Logic.I.
  - repeat split; auto.
  - exists w. split; auto. destruct W as [_ N]. rewrite N, S, S0. f_equal. apply vcount_ext.
    intros i Hi. rewrite G by lia. simpl. unfold idc. rewrite !option_map_id'. reflexivity.
Qed.

Lemma in_degree_ok (G : lil T) vid :
  wfm G -> nrows G <> 0 -> vid < ncols G ->
  vertex_in_degree dflt ofcount G vid =
    Ok (ofcount (Z.of_nat (vcount (nrows G) (fun i => mget G i vid)))).
Proof.
  intros W Hn Hv. unfold vertex_in_degree. destruct (Nat.leb_spec (ncols G) vid); [lia|].
  destruct (count_col (Mat G) (nrows G) vid W Hn Hv) as (w & E & N).
  destruct (vec_new dflt (nrows G)); cbn [bind] in *; try discriminate.
  rewrite E. cbn [bind]. rewrite N. reflexivity.
Qed.

Lemma out_degree_ok (G : lil T) vid :
  wfm G -> vid < nrows G ->
  vertex_out_degree dflt ofcount G vid =
    Ok (ofcount (Z.of_nat (vcount (nrows G) (fun j => mget G vid j)))).
Proof.
  intros W Hv. unfold vertex_out_degree. destruct (Nat.leb_spec (nrows G) vid); [lia|].
  destruct (count_col (Trn G) (nrows G) vid W) as (w & E & N); [lia|exact Hv|].
  destruct (vec_new dflt (nrows G)); cbn [bind] in *; try discriminate.
  rewrite E. cbn [bind]. rewrite N. reflexivity.
Qed.

(** Beyond the columns nothing is stored. *)
Lemma vcount_more (u : svec T) n m :
  n <= m -> (forall j, n <= j -> u j = None) -> vcount m u = vcount n u.
Proof.
  intros H Hu. unfold vcount. replace m with (n + (m - n)) by lia.
  rewrite seq_app, filter_app, app_length. simpl.
  replace (filter (fun i => is_some (u i)) (seq n (m - n))) with (@nil nat); [simpl; lia|].
  symmetry. assert (K : forall k lo, n <= lo -> filter (fun i => is_some (u i)) (seq lo k) = []).
  { induction k; intros lo Hl; simpl; auto. rewrite Hu by lia. simpl. apply IHk. lia. }
  apply K. lia.
Qed.
End Degree.

(** ** The largest and the smallest present value *)
Section Extremum.
Context (op : Z -> Z -> Z) (le : Z -> Z -> Prop).
Hypothesis le_refl : forall a, le a a.
Hypothesis le_trans : forall a b c, le a b -> le b c -> le a c.
Hypothesis op_l : forall a b, le a (op a b).
Hypothesis op_r : forall a b, le b (op a b).
Hypothesis op_sel : forall a b, op a b = a \/ op a b = b.

Lemma ofold_bound l :
  (ofold idc op l = None /\ forall x, ~ In (Some x) l) \/
  exists m, ofold idc op l = Some m /\ In (Some m) l /\ forall x, In (Some x) l -> le x m.
Proof.
  unfold ofold.
  assert (K : forall l s, exists m,
    fold_left (fun acc x => match acc, x with
                            | None, Some v => Some (idc v)
                            | Some a, Some v => Some (op a v)
                            | _, None => acc
                            end) l (Some s) = Some m /\
    (m = s \/ In (Some m) l) /\ le s m /\ forall x, In (Some x) l -> le x m).
  { clear l. induction l as [|[y|] l IH]; intro s; simpl.
    - exists s. repeat split; auto. tauto.
    - destruct (IH (op s y)) as (m & E & Hm & H1 & H2). exists m. split; [exact E|].
      split; [|split].
      + destruct Hm as [->|Hm]; [|auto]. destruct (op_sel s y) as [e|e]; rewrite e; auto.
      + eapply le_trans; [apply op_l|exact H1].
      + intros x [Hx|Hx]; auto. injection Hx as <-. eapply le_trans; [apply op_r|exact H1].
    - destruct (IH s) as (m & E & Hm & H1 & H2). exists m. split; [exact E|].
      split; [tauto|]. split; auto. intros x [Hx|Hx]; [discriminate|auto]. }
  induction l as [|[y|] l IH]; simpl.
  - left. split; auto.
  - right. destruct (K l (idc y)) as (m & E & Hm & H1 & H2). exists m. split; [exact E|].
    split; [destruct Hm; [left; subst; reflexivity|auto]|].
    intros x [Hx|Hx]; auto. injection Hx as <-. exact H1.
  - destruct IH as [[E H]|(m & E & Hm & H)].
    + left. split; [exact E|]. intros x [Hx|Hx]; [discriminate|eapply H; eauto].
    + right. exists m. split; [exact E|]. split; [auto|]. intros x [Hx|Hx]; [discriminate|auto].
Qed.

Lemma fold_bound (g : nat -> option Z) l s :
  let m := fold_left (fun t i => match g i with Some x => op t x | None => t end) l s in
  (m = s \/ exists i, In i l /\ g i = Some m) /\ le s m /\
  forall i x, In i l -> g i = Some x -> le x m.
Proof.
  revert s. induction l as [|i l IH]; intro s; simpl.
  - split; auto. split; auto. intros i x [].
  - destruct (g i) as [y|] eqn:E.
    + destruct (IH (op s y)) as (H1 & H2 & H3). split; [|split].
      * destruct H1 as [H1|(j & Hj & Hg)]; [|right; exists j; auto]. rewrite H1.
        destruct (op_sel s y) as [e|e]; rewrite e; auto. right. exists i. auto.
      * eapply le_trans; [apply op_l|exact H2].
      * intros j x [<-|Hj] Hx; [|eapply H3; eauto]. rewrite E in Hx. injection Hx as <-.
        eapply le_trans; [apply op_r|exact H2].
    + destruct (IH s) as (H1 & H2 & H3). split; [|split]; auto.
      * destruct H1 as [H1|(j & Hj & Hg)]; [auto|right; exists j; auto].
      * intros j x [<-|Hj] Hx; [congruence|eapply H3; eauto].
Qed.
End Extremum.

Lemma zmax_spec a b : (a <= zmax a b)%Z /\ (b <= zmax a b)%Z /\ (zmax a b = a \/ zmax a b = b).
Proof. unfold zmax. destruct (Z.ltb_spec a b); lia. Qed.
Lemma zmin_spec a b : (zmin a b <= a)%Z /\ (zmin a b <= b)%Z /\ (zmin a b = a \/ zmin a b = b).
Proof. unfold zmin. destruct (Z.ltb_spec a b); lia. Qed.

Lemma ofold_zmax l :
  (ofold idc zmax l = None /\ forall x, ~ In (Some x) l) \/
  exists m, ofold idc zmax l = Some m /\ In (Some m) l /\ forall x, In (Some x) l -> (x <= m)%Z.
Proof. apply ofold_bound; intros; try apply zmax_spec; lia. Qed.
Lemma ofold_zmin l :
  (ofold idc zmin l = None /\ forall x, ~ In (Some x) l) \/
  exists m, ofold idc zmin l = Some m /\ In (Some m) l /\ forall x, In (Some x) l -> (m <= x)%Z.
Proof.
  apply (ofold_bound zmin (fun a b => (b <= a)%Z)); intros; try apply zmin_spec; lia.
Qed.

(** ** Distances from a single source *)
Lemma walk_from_source w (D0 : nat -> option Z) s k v x :
  (forall u, D0 u = if u =? s then Some 0%Z else None) ->
  walk_from w D0 k v x <-> wwalk w s v k x.
Proof.
  intro H. split.
  - intros (u & a & c & Hu & Hw & ->). rewrite H in Hu.
    destruct (Nat.eqb_spec u s); [|discriminate]. injection Hu as <-. subst. exact Hw.
  - intro Hw. exists s, 0%Z, x. rewrite H, Nat.eqb_refl. auto.
Qed.
Lemma shortest_source w (D0 : nat -> option Z) s v x :
  (forall u, D0 u = if u =? s then Some 0%Z else None) ->
  shortest w D0 v x <-> distance w s v x.
Proof.
  intro H. unfold shortest, distance.
  split; intros ((k & Hk) & Hm); (split; [exists k; eapply walk_from_source; eauto|]);
    intros j y Hy; apply (Hm j); eapply walk_from_source; eauto.
Qed.
Lemma no_negative w D0 : no_negative_cycle w -> ~ negative_cycle w D0.
Proof. intros H (k & v & x & m & c & _ & Hw & Hc). specialize (H v m c Hw). lia. Qed.

Lemma distance_here w u : no_negative_cycle w -> distance w u u 0%Z.
Proof.
  intro H. split; [exists 0; constructor|]. intros k y Hw. apply (H u k y Hw).
Qed.
Lemma distance_in (G : lil Z) N u v x :
  wfm G -> ncols G = N -> u < N -> distance (mget G) u v x -> v < N.
Proof.
  intros W C Hu ((k & Hk) & _). destruct Hk; auto.
  destruct (Nat.lt_ge_cases t N); auto. rewrite mget_oob in H; auto; [discriminate|lia].
Qed.

Lemma source_set (w0 : bvec Z) s :
  wfv w0 -> (forall i, vget w0 i = None) -> s < vsize w0 ->
  exists w, vec_setElement w0 s 0%Z = Ok w /\ wfv w /\ vsize w = vsize w0 /\
    forall u, vget w u = if u =? s then Some 0%Z else None.
Proof.
  intros W G H. destruct (vec_setElement_ok w0 s 0%Z) as (w & E & W' & S & _ & G' & K); auto.
  - apply W.
  - exists w. split; auto. split; auto. split; auto. intro u. rewrite G', G. reflexivity.
Qed.

Lemma sssp_from (G : lil Z) (w0 : bvec Z) N s :
  wfm G -> nrows G = N -> ncols G = N -> s < N -> no_negative_cycle (mget G) ->
  wfv w0 -> (forall i, vget w0 i = None) -> vsize w0 = N ->
  exists w b d, vec_setElement w0 s 0%Z = Ok w /\ sssp G w = Ok (b, d) /\ wfv d /\ vsize d = N /\
    forall v x, vget d v = Some x <-> distance (mget G) s v x.
Proof.
  intros W R C Hs NN W0 G0 S0. destruct (source_set w0 s) as (w & -> & Ww & Sw & Gw); auto; [lia|].
  destruct (sssp_ok G N W R C w) as (b & d & E & Wd & Sd & Hb & _ & H); auto; [lia|congruence|].
  assert (b = true) by (apply Hb; apply no_negative; auto). subst b.
  exists w, true, d. do 4 (split; auto). intros v x. rewrite H by auto. apply shortest_source; auto.
Qed.

Theorem graph_distance_ok (G : lil Z) (result : bvec Z) N sid :
  wfm G -> nrows G = N -> ncols G = N -> sid < N -> no_negative_cycle (mget G) ->
  wfv0 result -> vsize result = N ->
  exists d, graph_distance G sid result = Ok d /\ wfv d /\ vsize d = N /\
    forall v x, vget d v = Some x <-> distance (mget G) sid v x.
Proof.
  intros W R C Hs NN W0 S0. unfold graph_distance. rewrite R, C, S0, !Nat.eqb_refl. simpl.
  destruct (vec_clear_wf result W0) as [Wc Gc].
  destruct (sssp_from G (vec_clear result) N sid) as (w & b & d & E1 & E2 & Wd & Sd & H); auto.
  exists d. rewrite E1. cbn [bind]. rewrite E2. auto.
Qed.

Theorem graph_distance_matrix_ok (G result : lil Z) N :
  wfm G -> nrows G = N -> ncols G = N -> N <> 0 -> no_negative_cycle (mget G) ->
  nrows result = N -> ncols result = N ->
  exists d, graph_distance_matrix G result = Ok d /\ wfm d /\ nrows d = N /\ ncols d = N /\
    forall u v x, mget d u v = Some x <-> u < N /\ distance (mget G) u v x.
Proof.
  intros W R C HN NN R0 C0. unfold graph_distance_matrix.
  rewrite R, C, R0, C0, !Nat.eqb_refl. simpl.
  destruct (scaled_identity_ok N 0%Z) as (D & -> & WD & RD & CD & GD). cbn [bind].
  destruct (batch_sssp_ok G N W R C D) as (b & d & -> & Wd & Rd & Cd & Hb & _ & H); auto.
  assert (b = true) by (apply Hb; intros; apply no_negative; auto). subst b.
  exists d. cbn [bind snd]. rewrite RD in Rd. do 4 (split; auto). intros u v x.
  destruct (Nat.lt_ge_cases u N) as [Hu|Hu].
  - rewrite H by auto. rewrite shortest_source with (s := u); [tauto|].
    intro t. rewrite GD. rewrite Nat.eqb_sym. destruct (Nat.eqb_spec t u); simpl; auto.
    destruct (Nat.ltb_spec u N); auto; lia.
  - rewrite mget_oob; auto; [split; [discriminate|lia]|lia].
Qed.

Lemma In_seq_map {A} (f : nat -> A) N y : In y (map f (seq 0 N)) <-> exists v, v < N /\ f v = y.
Proof.
  rewrite in_map_iff. split; intros (v & H1 & H2).
  - apply in_seq in H2. exists v. split; [lia|auto].
  - exists v. split; auto. apply in_seq. lia.
Qed.

Theorem vertex_eccentricity_ok lowest (G : lil Z) N vid :
  wfm G -> nrows G = N -> ncols G = N -> vid < N -> no_negative_cycle (mget G) ->
  exists e, vertex_eccentricity lowest G vid = Ok e /\ eccentricity (mget G) vid e.
Proof.
  intros W R C Hv NN. unfold vertex_eccentricity. rewrite R, C, Nat.eqb_refl. simpl.
  destruct (vec_new_ok 0%Z N) as (w0 & -> & W0 & S0 & G0); [lia|]. cbn [bind].
  destruct (sssp_from G w0 N vid) as (w & b & d & E1 & E2 & Wd & Sd & H); auto.
  rewrite E1. cbn [bind]. rewrite E2. cbn [bind snd].
  rewrite reduce_vs_ok; [|reflexivity|apply wfv_wfvn; auto]. rewrite Sd.
  destruct (ofold_zmax (map (vget d) (seq 0 N))) as [[_ K]|(m & -> & Hm & K)].
  - exfalso. apply (K 0%Z). apply In_seq_map. exists vid. split; auto. apply H.
    apply distance_here; auto.
  - exists m. split; [reflexivity|]. split.
    + apply In_seq_map in Hm. destruct Hm as (v & Hlt & Hg). exists v. apply H. auto.
    + intros v x Hd. apply K. apply In_seq_map. exists v. split; [|apply H; auto].
      apply (distance_in G N vid v x); auto.
Qed.

Theorem graph_radius_ok highest (G : lil Z) N :
  wfm G -> nrows G = N -> ncols G = N -> N <> 0 -> no_negative_cycle (mget G) ->
  exists r, graph_radius highest G = Ok r /\ radius (mget G) N r.
Proof.
  intros W R C HN NN. unfold graph_radius. rewrite R, C.
  destruct (graph_distance_matrix_ok G (lil_new N N) N) as (d & -> & Wd & Rd & Cd & H); auto.
  cbn [bind].
  destruct (vec_new_ok 0%Z N) as (w0 & -> & W0 & S0 & G0); [lia|]. cbn [bind].
  destruct (reduce_ok idc zmax zmax btrue idc (NoAcc idc) vnomask MERGE w0 (Mat d))
    as (w & -> & Ww & Sw & Gw); auto.
  { apply W0. } { exact Logic.I. } { split; [exact Logic.I|]. simpl. congruence. }
  cbn [bind]. rewrite reduce_vs_ok; [|reflexivity|apply wfv_wfvn; auto]. rewrite Sw, S0.
  assert (E : forall u, u < N -> exists e, vget w u = Some e /\ eccentricity (mget G) u e).
  { intros u Hu. rewrite Gw by lia. simpl. unfold idc. rewrite !option_map_id'. rewrite Cd.
    destruct (ofold_zmax (map (fun j => mget d u j) (seq 0 N))) as [[_ K]|(m & Em & Hm & K)].
    - exfalso. apply (K 0%Z). apply In_seq_map. exists u. split; auto. apply H.
      split; [auto|]. apply distance_here; auto.
    - exists m. split; [exact Em|]. split.
      + apply In_seq_map in Hm. destruct Hm as (v & Hlt & Hg). exists v. apply H. auto.
      + intros v x Hd. apply K. apply In_seq_map. exists v. split; [|apply H; auto].
        apply (distance_in G N u v x); auto. }
  assert (U : forall u e e', eccentricity (mget G) u e -> eccentricity (mget G) u e' -> e = e').
  { intros u e e' ((v & Hv) & H1) ((v' & Hv') & H2).
    specialize (H1 _ _ Hv'). specialize (H2 _ _ Hv). lia. }
  destruct (ofold_zmin (map (vget w) (seq 0 N))) as [[_ K]|(m & -> & Hm & K)].
  - exfalso. destruct (E 0) as (e & He & _); [lia|]. apply (K e). apply In_seq_map. exists 0.
    split; [lia|auto].
  - exists m. split; [reflexivity|]. split.
    + apply In_seq_map in Hm. destruct Hm as (u & Hlt & Hg). exists u. split; auto.
      destruct (E u Hlt) as (e & He & Hx). congruence.
    + intros u e Hu He. apply K. apply In_seq_map. exists u. split; auto.
      destruct (E u Hu) as (e' & He' & Hx). rewrite He'. f_equal. eapply U; eauto.
Qed.

Theorem graph_diameter_ok lowest (G : lil Z) N :
  (lowest <= 0)%Z ->
  wfm G -> nrows G = N -> ncols G = N -> N <> 0 -> no_negative_cycle (mget G) ->
  exists r, graph_diameter lowest G = Ok r /\ diameter (mget G) N r.
Proof.
  intros Hlo W R C HN NN. unfold graph_diameter. rewrite R, C.
  destruct (graph_distance_matrix_ok G (lil_new N N) N) as (d & -> & Wd & Rd & Cd & H); auto.
  cbn [bind]. rewrite reduce_ms_rows; [|reflexivity|auto]. unfold idc at 1 2. rewrite Rd, Cd.
  unfold rows_sum.
  set (g := fun i => ofold idc zmax (map (mget d i) (seq 0 N))).
  destruct (fold_bound zmax Z.le) with (g := g) (l := seq 0 N) (s := lowest) as (H1 & H2 & H3);
    try (intros; try apply zmax_spec; lia).
  eexists. split; [reflexivity|]. change (fun x : Z => idc x) with (@idc Z) in *.
  fold g. set (m := fold_left _ _ _) in *.
  assert (Z0 : (0 <= m)%Z).
  { destruct (ofold_zmax (map (mget d 0) (seq 0 N))) as [[_ K]|(e & Ee & He & K)].
    - exfalso. apply (K 0%Z). apply In_seq_map. exists 0. split; [lia|]. apply H. split; [lia|].
      apply distance_here; auto.
    - transitivity e.
      + apply K. apply In_seq_map. exists 0. split; [lia|]. apply H. split; [lia|].
        apply distance_here; auto.
      + apply (H3 0); [apply in_seq; lia|exact Ee]. }
  split.
  - assert (exists u, u < N /\ In (Some m) (map (mget d u) (seq 0 N))) as (u & Hu & Hm).
    { destruct H1 as [H1|(i & Hi & Hg)].
      - exists 0. split; [lia|]. apply In_seq_map. exists 0. split; [lia|].
        replace m with 0%Z by lia. apply H. split; [lia|]. apply distance_here; auto.
      - exists i. apply in_seq in Hi. split; [lia|]. unfold g in Hg.
        destruct (ofold_zmax (map (mget d i) (seq 0 N))) as [[E _]|(e & Ee & He & _)]; congruence. }
    apply In_seq_map in Hm. destruct Hm as (v & Hv & Hg). exists u, v. apply H. auto.
  - intros u v x Hu Hd.
    assert (Hv : v < N) by (apply (distance_in G N u v x); auto).
    destruct (ofold_zmax (map (mget d u) (seq 0 N))) as [[_ K]|(e & Ee & He & K)].
    + exfalso. apply (K x). apply In_seq_map. exists v. split; auto. apply H. auto.
    + transitivity e.
      * apply K. apply In_seq_map. exists v. split; auto. apply H. auto.
      * apply (H3 u); [apply in_seq; lia|exact Ee].
Qed.

Lemma ofold_sum (l : list (option Z)) :
  match ofold idc Z.add l with Some x => x | None => 0%Z end =
  fold_right Z.add 0%Z (map (fun o => match o with Some x => x | None => 0%Z end) l).
Proof.
  unfold ofold.
  assert (K : forall l s,
    fold_left (fun acc x => match acc, x with
                            | None, Some v => Some (idc v)
                            | Some a, Some v => Some (a + v)%Z
                            | _, None => acc
                            end) l (Some s) =
    Some (s + fold_right Z.add 0 (map (fun o => match o with Some x => x | None => 0 end) l))%Z).
  { clear l. induction l as [|[y|] l IH]; intro s; simpl.
    - f_equal. lia.
    - rewrite IH. f_equal. lia.
    - rewrite IH. f_equal. }
  induction l as [|[y|] l IH]; simpl; auto. rewrite K. reflexivity.
Qed.

Theorem closeness_ok (G : lil Z) (D : nat -> option Z) N vid :
  wfm G -> nrows G = N -> ncols G = N -> vid < N -> no_negative_cycle (mget G) ->
  (forall v x, D v = Some x <-> distance (mget G) vid v x) ->
  closeness_centrality G vid = Ok (sum_values N D).
Proof.
  intros W R C Hv NN HD. unfold closeness_centrality. rewrite R.
  destruct (vec_new_ok 0%Z N) as (w0 & -> & W0 & S0 & G0); [lia|]. cbn [bind].
  destruct (graph_distance_ok G w0 N vid) as (d & -> & Wd & Sd & H); auto; [apply W0|].
  cbn [bind]. rewrite reduce_vs_ok; [|reflexivity|apply wfv_wfvn; auto]. unfold idc at 1 2. f_equal.
  rewrite Sd. change (fun x : Z => idc x) with (@idc Z). rewrite ofold_sum, map_map. unfold sum_values. f_equal.
  apply map_ext_in. intros v _. destruct (vget d v) as [x|] eqn:E.
  - apply H in E. apply HD in E. rewrite E. reflexivity.
  - destruct (D v) as [x|] eqn:E'; auto. apply HD in E'. apply H in E'. congruence.
Qed.
