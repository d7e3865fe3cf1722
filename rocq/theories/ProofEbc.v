(** [edge_betweenness_centrality] counts the shortest paths that use an edge. *)
From Coq Require Import Lia QArith Qcanon.
From Verif Require Import Base ModelLil ModelVec ModelHelpers ModelViews ModelMul ModelElem ModelIndex ModelUtils
  ModelAlgoBase ModelRank ModelBc Spec SpecOps SpecRank SpecBc ProofBase ProofVec ProofElem ProofReduce ProofGraph ProofUtils ProofRank ProofVis
  ProofRc ProofBcPaths ProofBcRow ProofBc ProofBcVert.
Local Open Scope nat_scope.

Lemma uses_edge_spec u v p : uses_edge u v p = true <-> exists j, S j < length p /\ forall d, nth j p d = u /\ nth (S j) p d = v.
Proof.
  induction p as [|x p IH]; [simpl; split; [discriminate|intros (j & H & _); lia]|].
  destruct p as [|y q]; [simpl; split; [discriminate|intros (j & H & _); lia]|].
  cbn [uses_edge] in *. rewrite orb_true_iff, andb_true_iff, !Nat.eqb_eq, IH. split.
  - intros [(-> & ->)|(j & Hj & H)].
    + exists 0. simpl. split; [lia|auto].
    + exists (S j). simpl in *. split; [lia|]. intro d. apply H.
  - intros (j & Hj & H). destruct j as [|j].
    + left. specialize (H 0). simpl in H. auto.
    + right. exists j. simpl in *. split; [lia|]. intro d. apply (H d).
Qed.

Section Paths.
Context (N : nat) (edge : nat -> nat -> bool).
Local Notation W := (W N edge).
Local Notation cnt := (cnt N edge).
Local Notation walks_to := (walks_to N edge).

Lemma cnt_edge l : forall k u a b t, b < N -> S l <= k ->
  cnt (fun p => (last p u =? t) && ((nth l p N =? a) && (nth (S l) p N =? b))) k u =
    W l u a * (b2n (edge a b) * W (k - S l) b t).
Proof.
  induction l as [|l IH]; intros k u a b t Hb L; (destruct k as [|k]; [lia|]).
  - rewrite cnt_S, W_0. simpl Nat.sub. rewrite Nat.sub_0_r. destruct (Nat.eqb_spec u a) as [->|E].
    + simpl b2n. rewrite Nat.mul_1_l, (nsum_single N _ b Hb).
      * destruct (edge a b); [|auto]. simpl b2n. rewrite Nat.mul_1_l, W_cnt. apply cnt_ext. intros p Hp.
        rewrite (walk_last N edge k b a a p Hp). destruct (walk_head N edge k b p Hp) as (q & ->). cbn [nth].
        rewrite !Nat.eqb_refl, andb_true_r. auto.
      * intros x _ Hx. destruct (edge a x); auto. apply cnt_false. intros p Hp.
        destruct (walk_head N edge k x p Hp) as (q & ->). cbn [nth]. rewrite (proj2 (Nat.eqb_neq x b) Hx), !andb_false_r. auto.
    + simpl. apply nsum_zero. intros x _. destruct (edge u x); auto. apply cnt_false. intros p Hp. cbn [nth].
      rewrite (proj2 (Nat.eqb_neq u a) E), andb_false_r. auto.
  - rewrite cnt_S, W_S, <- nsum_scale_r. apply nsum_ext. intros x Hx. destruct (edge u x); auto.
    change (S k - S (S l)) with (k - S l). rewrite <- IH by lia. apply cnt_ext. intros p Hp.
    rewrite (walk_last N edge k x u u p Hp). auto.
Qed.

Section Source.
Context (s : nat).
Hypothesis Hs : s < N.
Local Notation lev := (lev N edge s).
Local Notation levb := (levb N edge s).
Local Notation dist := (dist N edge s).

(** Shortest paths to [t] that use the edge. *)
Lemma edge_through n t u v l : t < N -> u < N -> v < N -> lev n t -> edge u v = true -> lev l u -> lev (S l) v ->
  length (filter (uses_edge u v) (walks_to n s t)) = if S l <=? n then W l s u * W (n - S l) v t else 0.
Proof.
  intros Ht Hu Hv L He Lu Lv. assert (Hlen : forall p, In p (walks_to n s t) -> length p = S n).
  { intros p Hp. unfold SpecBc.walks_to in Hp. apply filter_In in Hp. apply (walk_length N edge n s). apply Hp. }
  destruct (Nat.leb_spec (S l) n) as [Hl|Hl].
  - transitivity (W l s u * (b2n (edge u v) * W (n - S l) v t)); [|rewrite He; simpl; lia].
    rewrite <- cnt_edge by auto. unfold ProofBcPaths.cnt.
    rewrite <- (filter_filter (fun p => (nth l p N =? u) && (nth (S l) p N =? v)) (fun p => last p s =? t)).
    fold (walks_to n s t). f_equal. apply filter_eq_in. intros p Hp. apply eq_true_iff_eq.
    rewrite uses_edge_spec, andb_true_iff, !Nat.eqb_eq, (Hlen p Hp). split.
    + intros (j & Hj & H). destruct (H N) as (A & B).
      destruct (path_at N edge s Hs n t p u j Ht Hu L Hp ltac:(lia) A) as (Lj & _).
      rewrite (lev_unique N edge s j l u Lj Lu) in A, B. auto.
    + intros (A & B). exists l. split; [lia|]. intro d.
      rewrite (nth_indep p d N), (nth_indep p d N) by (rewrite (Hlen p Hp); lia). auto.
  - rewrite filter_false; auto. intros p Hp. destruct (uses_edge u v p) eqn:E; auto. exfalso.
    apply uses_edge_spec in E. destruct E as (j & Hj & H). rewrite (Hlen p Hp) in Hj. destruct (H N) as (A & B).
    destruct (path_at N edge s Hs n t p u j Ht Hu L Hp ltac:(lia) A) as (Lj & _).
    pose proof (lev_unique N edge s j l u Lj Lu). lia.
Qed.
Lemma edge_not_through n t u v : t < N -> u < N -> v < N -> lev n t ->
  (forall l, lev l u -> lev (S l) v -> edge u v = false) -> length (filter (uses_edge u v) (walks_to n s t)) = 0.
Proof.
  intros Ht Hu Hv L Hno. assert (Hlen : forall p, In p (walks_to n s t) -> length p = S n).
  { intros p Hp. unfold SpecBc.walks_to in Hp. apply filter_In in Hp. apply (walk_length N edge n s). apply Hp. }
  rewrite filter_false; auto. intros p Hp. destruct (uses_edge u v p) eqn:E; auto. exfalso.
  apply uses_edge_spec in E. destruct E as (j & Hj & H). rewrite (Hlen p Hp) in Hj. destruct (H N) as (A & B).
  destruct (path_at N edge s Hs n t p u j Ht Hu L Hp ltac:(lia) A) as (Lj & _).
  destruct (path_at N edge s Hs n t p v (S j) Ht Hv L Hp ltac:(lia) B) as (Lv & _).
  specialize (Hno j Lj Lv).
  assert (C : cnt (fun p => (last p s =? t) && ((nth j p N =? u) && (nth (S j) p N =? v))) n s <> 0).
  { unfold ProofBcPaths.cnt. unfold SpecBc.walks_to in Hp. apply filter_In in Hp. destruct Hp as (I & La).
    apply (filter_length_in _ _ p); auto. rewrite La, A, B, !Nat.eqb_refl. auto. }
  rewrite cnt_edge in C by (auto; lia). rewrite Hno in C. simpl in C. lia.
Qed.

(** The number of shortest paths from [s] that pass the vertex [v] of level [l], for one path to [v]. *)
Definition onward (l v t : nat) : nat :=
  match dist t with Some n => if l <=? n then W (n - l) v t else 0 | None => 0 end.
Definition paths (l v : nat) : nat := nsum N (onward l v).
Definition succs (l v : nat) : nat := nsum N (fun w => if edge v w && levb (S l) w then paths (S l) w else 0).

Lemma paths_rec l v : v < N -> lev l v -> paths l v = 1 + succs l v.
Proof.
  intros Hv L. unfold paths at 1, succs.
  transitivity (nsum N (fun t => (if t =? v then 1 else 0) + nsum N (fun w => if edge v w && levb (S l) w then onward (S l) w t else 0))).
  - apply nsum_ext. intros t Ht. unfold onward at 1. destruct (Nat.eqb_spec t v) as [->|Nt].
    + rewrite (proj2 (dist_lev N edge s Hs v l Hv) L). rewrite Nat.leb_refl, Nat.sub_diag, W_0, Nat.eqb_refl.
      rewrite nsum_zero; [auto|]. intros w Hw. destruct (_ && _); auto. unfold onward.
      rewrite (proj2 (dist_lev N edge s Hs v l Hv) L). destruct (Nat.leb_spec (S l) l); [lia|auto].
    + destruct (dist t) as [n|] eqn:E.
      * apply dist_lev in E; auto. destruct (Nat.leb_spec l n) as [Hl|Hl].
        -- destruct (Nat.eq_dec l n) as [<-|Nl].
           ++ rewrite Nat.sub_diag, W_0, (proj2 (Nat.eqb_neq v t)) by auto. rewrite nsum_zero; [auto|].
              intros w Hw. destruct (_ && _); auto. unfold onward. rewrite (proj2 (dist_lev N edge s Hs t l Ht) E).
              destruct (Nat.leb_spec (S l) l); [lia|auto].
           ++ replace (n - l) with (S (n - S l)) by lia. rewrite W_S. simpl. apply nsum_ext. intros w Hw.
              destruct (edge v w) eqn:Ew; simpl andb; cbv iota; [|auto]. unfold onward.
              rewrite (proj2 (dist_lev N edge s Hs t n Ht) E). destruct (Nat.leb_spec (S l) n); [|lia].
              destruct (levb (S l) w) eqn:Lw; [auto|]. destruct (Nat.eq_dec (W (n - S l) w t) 0) as [->|Q]; [auto|]. exfalso.
              assert (Ww : W (S l) s w <> 0).
              { replace (S l) with (l + 1) by lia. apply (W_join N edge l 1 s v w); auto; [apply L|].
                rewrite W_1, Ew by auto. simpl. lia. }
              destruct (lev_least N edge s _ _ Ww) as (j & Hj & Lj). destruct (Nat.eq_dec j (S l)) as [->|Nj].
              { apply levb_spec in Lj. congruence. }
              destruct E as (_ & E). specialize (E (j + (n - S l)) ltac:(lia)). revert E.
              apply (W_join N edge j (n - S l) s w t); auto. apply Lj.
        -- rewrite nsum_zero; [auto|]. intros w Hw. destruct (_ && _); auto. unfold onward.
           rewrite (proj2 (dist_lev N edge s Hs t n Ht) E). destruct (Nat.leb_spec (S l) n); [lia|auto].
      * rewrite nsum_zero; [auto|]. intros w Hw. destruct (_ && _); auto. unfold onward. rewrite E. auto.
  - rewrite nsum_add. f_equal.
    + rewrite (nsum_single N (fun t => if t =? v then 1 else 0) v Hv); [rewrite Nat.eqb_refl; auto|].
      intros j _ Hj. rewrite (proj2 (Nat.eqb_neq j v) Hj). auto.
    + rewrite nsum_swap. apply nsum_ext. intros w Hw. destruct (_ && _); auto. apply nsum_zero. auto.
Qed.

(** The shortest paths from [s] that use the edge. *)
Definition used (u v : nat) : nat := nsum N (fun t => length (filter (uses_edge u v) (shortest_paths N edge s t))).
Lemma used_edge u v l : u < N -> v < N -> edge u v = true -> lev l u -> lev (S l) v -> used u v = W l s u * paths (S l) v.
Proof.
  intros Hu Hv He Lu Lv. unfold used, paths. rewrite <- nsum_scale. apply nsum_ext. intros t Ht.
  rewrite shortest_dist. unfold onward. destruct (dist t) as [n|] eqn:E; [|simpl; lia].
  apply dist_lev in E; auto. rewrite (edge_through n t u v l) by auto. destruct (S l <=? n); lia.
Qed.
Lemma used_none u v : u < N -> v < N -> (forall l, lev l u -> lev (S l) v -> edge u v = false) -> used u v = 0.
Proof.
  intros Hu Hv H. apply nsum_zero. intros t Ht. rewrite shortest_dist. destruct (dist t) as [n|] eqn:E; [|auto].
  apply dist_lev in E; auto. apply edge_not_through; auto.
Qed.

(** The part of [used] that comes from the levels beyond [j]. *)
Definition contrib (j u v : nat) : nat :=
  match dist v with Some l => if (j <? l) && (levb (l - 1) u && edge u v) then W (l - 1) s u * paths l v else 0 | None => 0 end.
Definition layer (j u v : nat) : bool := levb (j - 1) u && (edge u v && levb j v).
Lemma contrib_next j u v : v < N ->
  contrib j u v = contrib (S j) u v + (if layer (S j) u v then W j s u * paths (S j) v else 0).
Proof.
  intro Hv. unfold contrib, layer. rewrite (levb_dist N edge s Hs (S j) v Hv). destruct (dist v) as [l|]; [|rewrite !andb_false_r; auto].
  replace (S j - 1) with j by lia. destruct (Nat.eqb_spec l (S j)) as [->|Nl].
  - destruct (Nat.ltb_spec j (S j)); [|lia]. destruct (Nat.ltb_spec (S j) (S j)); [lia|].
    replace (S j - 1) with j by lia. destruct (levb j u), (edge u v); auto.
  - rewrite !andb_false_r, Nat.add_0_r. destruct (Nat.ltb_spec j l), (Nat.ltb_spec (S j) l); auto; lia.
Qed.
Lemma contrib_last k u v : v < N -> (forall l w, w < N -> S k <= l -> ~ lev l w) -> contrib k u v = 0.
Proof.
  intros Hv H. unfold contrib. destruct (dist v) as [l|] eqn:E; auto. destruct (Nat.ltb_spec k l); auto.
  apply dist_lev in E; auto. exfalso. apply (H l v); auto.
Qed.
Lemma contrib_all u v : u < N -> v < N -> contrib 0 u v = used u v.
Proof.
  intros Hu Hv. unfold contrib. destruct (dist v) as [l|] eqn:E.
  - apply dist_lev in E; auto. destruct (Nat.ltb_spec 0 l) as [Hl|Hl]; simpl andb.
    + destruct (levb (l - 1) u) eqn:Lu; simpl.
      * apply levb_spec in Lu. destruct (edge u v) eqn:He.
        -- rewrite (used_edge u v (l - 1)); auto; replace (S (l - 1)) with l by lia; auto.
        -- symmetry. apply used_none; auto.
      * symmetry. apply used_none; auto. intros m Lm Lv. pose proof (lev_unique N edge s _ _ v E Lv). subst l.
        replace (S m - 1) with m in Lu by lia. apply levb_spec in Lm. congruence.
    + symmetry. apply used_none; auto. intros m Lm Lv. pose proof (lev_unique N edge s _ _ v E Lv). lia.
  - symmetry. apply used_none; auto. intros m _ (Lv & _). rewrite (dist_None N edge s Hs v Hv E) in Lv. contradiction.
Qed.
End Source.
Lemma edge_uses_sum u v : edge_uses N edge u v = nsum N (fun s => used s u v).
Proof. unfold edge_uses. rewrite nsum_list. apply nsum_ext. intros s _. rewrite nsum_list. auto. Qed.
End Paths.

Section Edge.
Context {T : Type} (add mul div : T -> T -> T) (ofn : nat -> T) (tb : T -> bool) (graph : lil T) (N : nat).
Hypothesis WA : wfm graph.
Hypothesis RA : nrows graph = N.
Hypothesis CA : ncols graph = N.
Local Notation edge := (gedge graph).
Hypothesis Hadd : forall a b, add (ofn a) (ofn b) = ofn (a + b).
Hypothesis Hmul : forall a b, mul (ofn a) (ofn b) = ofn (a * b).
Hypothesis Hmul1 : forall a, mul a (ofn 1) = a.
Hypothesis Hdiv : forall a b, b <> 0 -> div (ofn (b * a)) (ofn b) = ofn a.
Hypothesis Htb : forall a, tb (ofn a) = negb (a =? 0).
Hypothesis Hone : forall u v x, mget graph u v = Some x -> x = ofn 1.
Hypothesis Hloop : forall v, v < N -> edge v v = false.

(** Counts are stored when they are not zero. *)
Definition ocnt (c : nat) : option T := if c =? 0 then None else Some (ofn c).
Lemma ocnt_add a b : ounion add idc idc (ocnt a) (ocnt b) = ocnt (a + b).
Proof.
  unfold ocnt. destruct (Nat.eqb_spec a 0) as [->|Ha], (Nat.eqb_spec b 0) as [->|Hb]; cbn [ounion]; unfold idc; auto.
  - rewrite (proj2 (Nat.eqb_neq _ 0)); auto.
  - rewrite (proj2 (Nat.eqb_neq (a + 0) 0)) by lia. rewrite Nat.add_0_r. auto.
  - rewrite (proj2 (Nat.eqb_neq _ 0)) by lia. rewrite Hadd. auto.
Qed.
Lemma ebc_diag_ok w f : vis N w f -> exists D, ebc_diag graph w = Ok D /\ rc N N D (fun i j => if i =? j then f i else None).
Proof.
  intros (V & S0 & G). unfold ebc_diag, vec_extractTuples. destruct (getContents_ok w (proj1 V)) as (ts & -> & Wt & Gt). cbn [bind].
  rewrite RA. rewrite S0 in Wt. destruct (diag_rows_ok (fun x : T => x) N ts Wt) as (D & E & WD & R & C & GD).
  rewrite E. exists D. split; [auto|]. split; [auto|]. split; [auto|]. split; [auto|]. intros i j Hi Hj. rewrite GD.
  destruct (i =? j); auto. rewrite Gt, G by auto. destruct (f i); auto.
Qed.
Lemma osum_single {X} (op : X -> X -> X) M (h : nat -> option X) i : i < M -> (forall j, j < M -> j <> i -> h j = None) ->
  osum op (map h (seq 0 M)) = h i.
Proof.
  revert i. induction M as [|M IH]; intros i Hi H; [lia|]. rewrite seq_S, map_app. cbn [map]. change (0 + M) with M.
  rewrite osum_snoc''. destruct (Nat.eq_dec i M) as [->|Ni].
  - rewrite (proj2 (osum_none_iff op (map h (seq 0 M)))); [destruct (h M); auto|].
    intros x Hx. apply in_map_iff in Hx. destruct Hx as (j & <- & Hj). apply in_seq in Hj. apply H; lia.
  - rewrite (IH i), (H M) by (auto; lia). destruct (h i); auto.
Qed.

Section Source.
Context (s : nat).
Hypothesis Hs : s < N.
Local Notation lev := (lev N edge s).
Local Notation levb := (levb N edge s).
Local Notation W' := (W N edge).
Local Notation paths' := (paths N edge s).
Local Notation succs' := (succs N edge s).

Lemma ebc_body_ok k st : vinv ofn graph N s 1 k st -> exists st', ebc_body add mul tb graph st = Ok st' /\ vinv ofn graph N s 1 (S k) st'.
Proof.
  destruct st as [[F P] Ss]. intro I.
  apply (vstep add mul ofn tb graph N s WA RA CA Hs Hadd Hmul1 Htb Hone 1 REPLACE k F P Ss ltac:(lia) I).
Qed.

(** What is known of [flow] at the vertices of level [j]. *)
Definition isflow (j : nat) (fl : nat -> option T) : Prop :=
  forall v, v < N -> levb j v = true -> fl v = ocnt (W' j s v * succs' j v).

Lemma nsp_at k g v l : isP N edge s ofn k g -> g s = Some (ofn 1) -> v < N -> levb l v = true -> l <= k -> g v = Some (ofn (W' l s v)).
Proof.
  intros (A & _) G Hv L Hl. apply levb_spec in L. destruct (Nat.eq_dec v s) as [->|Nv].
  - pose proof (lev_unique N edge s l 0 s L (lev_source N edge s)). subst l. rewrite W_0, Nat.eqb_refl. auto.
  - rewrite A by auto. rewrite (proj2 (dist_lev N edge s Hs v l Hv) L). destruct (Nat.leb_spec l k); auto. lia.
Qed.
Lemma paths_pos l v : v < N -> levb l v = true -> paths' l v <> 0.
Proof. intros Hv L. apply levb_spec in L. rewrite (paths_rec N edge s Hs l v Hv L). lia. Qed.
Lemma W_pos l v : levb l v = true -> W' l s v <> 0.
Proof. intro L. apply levb_spec in L. apply L. Qed.

Lemma ebc_back_ok k j P Ss g sc up fl fs fu ff : vmasks N edge s 0 (1 + k) Ss -> vis N P g -> isP N edge s ofn k g ->
  g s = Some (ofn 1) -> j < k -> rc N N sc (fun u v => ocnt (fs u v + contrib N edge s (S j) u v)) -> rc N N up fu -> vis N fl ff ->
  isflow (S j) ff ->
  exists sc' up' fl' fu' ff', ebc_back add mul div ofn graph P Ss (S j) (sc, up, fl) = Ok (sc', up', fl') /\
    rc N N sc' (fun u v => ocnt (fs u v + contrib N edge s j u v)) /\ rc N N up' fu' /\ vis N fl' ff' /\ isflow j ff'.
Proof.
  intros (L & M) HP IP GS Hj HS HU HF IF. unfold ebc_back. rewrite RA.
  destruct (M (S j) ltac:(lia)) as (Sd & sd & Ed & Vd & _ & Xd). destruct (M j ltac:(lia)) as (Sp & sp & Ep & Vp & _ & Xp).
  specialize (Xd (Hloop s Hs)). specialize (Xp (Hloop s Hs)). cbn [Nat.add] in Xd, Xp.
  destruct (vis_new (ofn 0) N ltac:(lia)) as (w0 & -> & V0). cbn [bind]. rewrite (sigma_at_ok _ _ _ Ed). cbn [bind].
  destruct (vis_mult N div btrue (MVal Sd) _ MERGE w0 fl P _ _ _ V0 HF HP (vmis_val N btrue Sd sd Vd)) as (w1 & -> & V1). cbn [bind].
  destruct (vis_add N (fun x (b : bool) => add x (ofn (if b then 1 else 0))) idc (fun b : bool => ofn (if b then 1 else 0)) btrue
    vnomask _ MERGE w1 w1 Sd _ _ _ V1 V1 Vd (vmis_none _ _)) as (w2 & -> & V2). cbn [bind].
  assert (V2' : vis N w2 (fun v => if levb (S j) v then Some (ofn (paths' (S j) v)) else None)).
  { eapply vis_ext; [exact V2|]. intros v Hv. unfold wr. cbv beta iota. rewrite (Xd v Hv). destruct (levb (S j) v) eqn:E; [|auto].
    change (otrue btrue (Some true)) with true. cbv iota. rewrite (IF v Hv E), (nsp_at k g v (S j) IP GS Hv E ltac:(lia)).
    pose proof E as E'. apply levb_spec in E'. rewrite (paths_rec N edge s Hs (S j) v Hv E'). unfold ocnt.
    pose proof (W_pos (S j) v E). destruct (Nat.eqb_spec (W' (S j) s v * succs' (S j) v) 0) as [Q|Q].
    - apply Nat.eq_mul_0 in Q. destruct Q as [Q|Q]; [contradiction|]. rewrite Q. auto.
    - simpl omap2. rewrite Hdiv by auto. cbn [ounion]. rewrite Hadd. f_equal. f_equal. lia. }
  destruct (ebc_diag_ok w2 _ V2') as (D & -> & VD). cbn [bind].
  assert (rcA : rc N N graph (mget graph)) by (split; [auto|split; [auto|split; auto]]).
  destruct (rc_mxm N N N add mul mul idc idc btrue mnomask _ MERGE up graph D _ _ _ HU rcA VD (mrc_none _ _ _)) as (u1 & -> & VU). cbn [bind].
  assert (VU' : rc N N u1 (fun u v => if edge u v && levb (S j) v then Some (ofn (paths' (S j) v)) else None)).
  { eapply rc_ext; [exact VU|]. intros u v Hu Hv. unfold wr. cbv beta iota. rewrite (osum_single add N _ v Hv).
    - rewrite Nat.eqb_refl. change (edge u v) with (is_some (mget graph u v)). destruct (mget graph u v) as [x|] eqn:E; simpl is_some; [|auto]. cbn [andb].
      destruct (levb (S j) v); [|auto]. cbn [omap2]. rewrite (Hone u v x E), Hmul, Nat.mul_1_l. auto.
    - intros i Hi Ni. rewrite (proj2 (Nat.eqb_neq i v) Ni). destruct (mget graph u i); auto. }
  rewrite (sigma_at_ok Ss (S j - 1) Sp) by (replace (S j - 1) with j by lia; auto). cbn [bind].
  destruct (vis_apply N idc btrue (MVal Sp) _ REPLACE w2 P _ _ V2 HP (vmis_val N btrue Sp sp Vp)) as (w3 & -> & V3). cbn [bind].
  assert (V3' : vis N w3 (fun v => if levb j v then Some (ofn (W' j s v)) else None)).
  { eapply vis_ext; [exact V3|]. intros v Hv. unfold wr. cbv beta iota. rewrite (Xp v Hv). destruct (levb j v) eqn:E; [|auto].
    change (otrue btrue (Some true)) with true. cbv iota. rewrite (nsp_at k g v j IP GS Hv E ltac:(lia)). auto. }
  destruct (ebc_diag_ok w3 _ V3') as (D3 & -> & VD3). cbn [bind].
  destruct (rc_mxm N N N add mul mul idc idc btrue mnomask _ MERGE u1 D3 u1 _ _ _ VU' VD3 VU' (mrc_none _ _ _)) as (u2 & -> & VU2). cbn [bind].
  assert (VU2' : rc N N u2 (fun u v => ocnt (if layer N edge s (S j) u v then W' j s u * paths' (S j) v else 0))).
  { eapply rc_ext; [exact VU2|]. intros u v Hu Hv. unfold wr. cbv beta iota. rewrite (osum_single add N _ u Hu).
    - rewrite Nat.eqb_refl. unfold layer. replace (S j - 1) with j by lia. destruct (levb j u) eqn:E1; [|auto]. cbn [andb].
      destruct (edge u v && levb (S j) v) eqn:E2; [|auto]. apply andb_true_iff in E2. destruct E2 as (_ & E2).
      simpl omap2. rewrite Hmul. unfold ocnt. rewrite (proj2 (Nat.eqb_neq _ 0)); auto.
      apply Nat.neq_mul_0. split; [apply W_pos; auto|apply paths_pos; auto].
    - intros i Hi Ni. rewrite (proj2 (Nat.eqb_neq u i)) by auto. auto. }
  destruct (rc_add N N add idc idc add idc idc btrue mnomask _ MERGE sc sc u2 _ _ _ HS HS VU2' (mrc_none _ _ _)) as (sc' & -> & VS). cbn [bind].
  destruct (vis_reduce N N add MERGE fl _ u2 _ HF VU2') as (fl' & -> & VF). cbn [bind].
  eexists _, _, _, _, _. split; [reflexivity|]. split; [|split; [exact VU2'|split; [exact VF|]]].
  - eapply rc_ext; [exact VS|]. intros u v Hu Hv. unfold wr. cbv beta iota. rewrite ocnt_add.
    rewrite (contrib_next N edge s Hs j u v Hv). f_equal. lia.
  - intros v Hv E. cbv beta. unfold succs. rewrite <- nsum_scale.
    rewrite (map_ext_in _ (fun w => option_map ofn (if edge v w && levb (S j) w then Some (W' j s v * paths' (S j) w) else None))).
    + rewrite <- (map_map (fun w => if edge v w && levb (S j) w then Some (W' j s v * paths' (S j) w) else None) (option_map ofn)).
      rewrite (osum_hom ofn Nat.add add _ Hadd).
      rewrite (osum_nat N (fun w => edge v w && levb (S j) w) (fun w => W' j s v * paths' (S j) w)).
      * cbv zeta. unfold ocnt.
        rewrite (nsum_ext N (fun i => W' j s v * (if edge v i && levb (S j) i then paths' (S j) i else 0))
          (fun k0 => if edge v k0 && levb (S j) k0 then W' j s v * paths' (S j) k0 else 0)) by (intros; destruct (_ && _); lia).
        destruct (_ =? 0); auto.
      * intros w Hw E2. apply andb_true_iff in E2. destruct E2 as (_ & E2).
        apply Nat.neq_mul_0. split; [apply W_pos; auto|apply paths_pos; auto].
    + intros w Hw. apply in_seq in Hw. unfold layer. replace (S j - 1) with j by lia. rewrite E. cbn [andb].
      destruct (edge v w && levb (S j) w) eqn:E2; [|auto]. apply andb_true_iff in E2. destruct E2 as (_ & E2). unfold ocnt.
      rewrite (proj2 (Nat.eqb_neq _ 0)); auto. apply Nat.neq_mul_0. split; [apply W_pos; auto|apply paths_pos; auto; lia].
Qed.

Lemma ebc_source_ok n sc fs : N < n -> rc N N sc (fun u v => ocnt (fs u v)) -> exists sc',
  ebc_source add mul div ofn tb n graph s sc = Ok (Some sc') /\ rc N N sc' (fun u v => ocnt (fs u v + used N edge s u v)).
Proof.
  intros Hn V. unfold ebc_source. rewrite RA. destruct (vis_new (ofn 0) N ltac:(lia)) as (F0 & -> & V0). cbn [bind].
  destruct (vis_extract_row N btrue vnomask _ MERGE F0 graph _ _ s V0 (sqA graph N WA RA CA) (vmis_none _ _) Hs) as (F & -> & VF).
  cbn [bind]. destruct (vis_set N F0 _ s (ofn 1) V0 Hs) as (P & -> & VP & _). cbn [bind].
  destruct (vis_new false N ltac:(lia)) as (S0 & -> & VS0). cbn [bind].
  destruct (vis_set N S0 _ s true VS0 Hs) as (S1 & -> & VS1 & _). cbn [bind].
  destruct (vloop ofn graph N s RA CA Hs 1 (ebc_body add mul tb graph) ebc_body_ok n 0 (F, P, [S1]))
    as (F' & P' & Ss & k & g & E0 & M & HP & IP & Hw & GS); try lia.
  { split.
    - split; [auto|]. intros j Hj. assert (j = 0) by lia. subst j. exists S1. eexists. split; [reflexivity|]. split; [exact VS1|].
      assert (Q : forall v, (if v =? s then Some true else None) = if levb 0 v then Some true else None).
      { intro v. rewrite levb_0, Nat.eqb_sym. auto. }
      cbn [Nat.sub Nat.add]. split; [|intros _ v Hv; apply Q]. split; [|lia]. intros v Hv Nv. rewrite Q. destruct (levb 0 v); auto.
    - do 2 eexists. split; [exact VF|]. split; [exact VP|]. split.
      + apply (vfirst ofn graph N s Hs Hone).
      + split; [apply (vsource ofn graph N s Hs)|]. intro NL. rewrite Nat.eqb_refl. split; [|auto].
        unfold wr, gedge in *. destruct (mget graph s s); [discriminate|auto]. }
  unfold vbs in E0. rewrite E0. cbn [bind]. specialize (GS (Hloop s Hs)).
  destruct (mdown_inv (fun j st => j <= k /\ rc N N (fst (fst st)) (fun u v => ocnt (fs u v + contrib N edge s j u v)) /\
    (exists fu, rc N N (snd (fst st)) fu) /\ exists ff, vis N (snd st) ff /\ isflow j ff)
    (ebc_back add mul div ofn graph P' Ss)) with (k := length Ss - 1) (s := (sc, lil_new N N : lil T, F0)) as ([[sc' u'] f'] & E & _ & J & _).
  - intros j [[sc1 u1] f1] (Hj & HS & (fu & HU) & ff & HF & IF). simpl in HS, HU, HF.
    destruct (ebc_back_ok k j P' Ss g sc1 u1 f1 fs fu ff M HP IP GS ltac:(lia) HS HU HF IF)
      as (sc' & u' & f' & fu' & ff' & -> & A & B & C & D). eexists. split; [reflexivity|]. split; [lia|]. split; [auto|].
    split; [exists fu'; auto|]. exists ff'. auto.
  - destruct M as (L & _). rewrite L. replace (1 + k - 1) with k by lia. split; [lia|]. split; [|split].
    + simpl. eapply rc_ext; [exact V|]. intros u v Hu Hv. simpl. rewrite contrib_last by auto. f_equal. lia.
    + eexists. apply rc_new.
    + eexists. split; [exact V0|]. intros v Hv E. unfold succs. rewrite nsum_zero; [rewrite Nat.mul_0_r; auto|].
      intros w Hw'. rewrite (levb_false N edge s (S k) w), andb_false_r; auto.
  - rewrite E. cbn [bind fst]. eexists. split; [reflexivity|]. eapply rc_ext; [exact J|]. intros u v Hu Hv. simpl.
    rewrite contrib_all by auto. auto.
Qed.
End Source.

Theorem ebc_ok n : N < n -> exists M, edge_betweenness_centrality add mul div ofn tb n graph = Ok (Some M) /\
  rc N N M (fun u v => ocnt (edge_uses N edge u v)).
Proof.
  intro Hn. unfold edge_betweenness_centrality. rewrite RA, CA, Nat.eqb_refl. cbn [negb].
  match goal with |- context [mfor (seq 0 N) ?body ?s0] =>
    destruct (mfor_seq_inv (fun i o => exists M, o = Some M /\ rc N N M (fun u v => ocnt (nsum i (fun s => used N edge s u v)))) body N s0)
      as (r & -> & (M & -> & V)) end.
  - eexists. split; [reflexivity|]. apply rc_new.
  - intros i o Hi (M & -> & V). destruct (ebc_source_ok i Hi n M _ Hn V) as (M' & E & V'). exists (Some M'). split; [auto|].
    exists M'. split; [auto|]. exact V'.
  - exists M. split; [auto|]. eapply rc_ext; [exact V|]. intros u v Hu Hv. cbv beta. rewrite edge_uses_sum. auto.
Qed.
End Edge.
