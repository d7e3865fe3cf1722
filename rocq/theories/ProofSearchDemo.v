(** Proofs about the demonstration programs that search a graph. *)
From Coq Require Import Lia.
From Verif Require Import Base ModelLil ModelVec ModelHelpers ModelViews ModelMul ModelElem ModelIndex ModelUtils ModelAlgoBase
  ModelBfs ModelSssp ModelSearchDemo Spec SpecOps SpecGraph SpecPaths SpecSearchDemo
  ProofBase ProofLil ProofVec ProofCalls ProofContainers ProofViews ProofWrite ProofMul ProofElem ProofReduce ProofProduct ProofUtils
  ProofGraph ProofBfs ProofMetrics PropBfs.
Local Open Scope nat_scope.

Lemma osum_last {T : Type} (u v : nat) (ts : list (nat * nat * T)) :
  forall a, fold_left (oadd (fun _ new => new))
    (map (fun t => Some (snd t)) (filter (fun '(i, j, _) => (i =? u) && (j =? v)) ts)) a =
  fold_left (fun w '(i, j, x) => if (i =? u) && (j =? v) then Some x else w) ts a.
Proof.
  induction ts as [|[[i j] x] ts IH]; intros a; [reflexivity|]. simpl.
  destruct ((i =? u) && (j =? v)); simpl; [|apply IH]. rewrite IH. f_equal. now destruct a.
Qed.
Lemma build_graph {T : Type} N (ts : list (nat * nat * T)) :
  Forall (fun '(i, j, _) => i < N /\ j < N) ts ->
  exists G, build_or_throw (lil_new N N) ts = Ok G /\ wfm G /\ nrows G = N /\ ncols G = N /\
    forall u v, mget G u v = fold_left (fun w '(i, j, x) => if (i =? u) && (j =? v) then Some x else w) ts None.
Proof.
  intros F. destruct (build_distinct (lil_new N N) ts (lil_new_wf N N) F) as (G & E & W & A & B & M).
  exists G. split; [exact E|]. split; [exact W|]. split; [exact A|]. split; [exact B|].
  intros u v. rewrite M. unfold osum. simpl. rewrite mget_new. apply osum_last.
Qed.
Lemma build_listed N (es : list (nat * nat)) :
  Forall (fun '(i, j) => i < N /\ j < N) es ->
  exists G, build_or_throw (lil_new N N) (map (fun '(i, j) => (i, j, 1)) es) = Ok G /\
    wfm G /\ nrows G = N /\ ncols G = N /\
    (forall u v, edge G u v = listed es u v) /\ (forall u v g, mget G u v = Some g -> ntrue g = true).
Proof.
  intros F. destruct (build_graph N (map (fun '(i, j) => (i, j, 1)) es)) as (G & E & W & A & B & M).
  { apply Forall_forall. intros [[i j] x] I. apply in_map_iff in I. destruct I as ((a & b) & Q & I).
    injection Q as <- <- <-. rewrite Forall_forall in F. exact (F _ I). }
  exists G. split; [exact E|]. split; [exact W|]. split; [exact A|]. split; [exact B|].
  assert (X : forall u v (es : list (nat * nat)) a, (a = None \/ a = Some 1) ->
    fold_left (fun w '(i, j, x) => if (i =? u) && (j =? v) then Some x else w) (map (fun '(i, j) => (i, j, 1)) es) a =
    if listed es u v then Some 1 else a).
  { clear. intros u v. induction es as [|(i, j) es IH]; intros a Ha; [reflexivity|]. simpl.
    destruct ((i =? u) && (j =? v)); simpl; rewrite IH by auto; [destruct (listed es u v)|]; reflexivity. }
  split.
  - intros u v. unfold edge. rewrite M, X by auto. destruct (listed es u v); reflexivity.
  - intros u v g. rewrite M, X by auto. destruct (listed es u v); [|discriminate]. intros Q. now injection Q as <-.
Qed.

(** The body of the search does what the one in the library does. *)
Lemma homework_step (G : lil nat) N (W : wfm G) (A : nrows G = N) (B : ncols G = N)
  (TG : forall i j v, mget G i j = Some v -> ntrue v = true) (roots : lil nat) (Wr : wfm roots) (Cr : ncols roots = N) k s :
  batch_inv G N roots k s -> exists s', homework_body G s = Ok s' /\ batch_inv G N roots (S k) s'.
Proof.
  destruct s as [[w l] d]. intro I. pose proof I as (-> & Ww & Wl & Rw & Cw & Rl & Cl & H1 & F).
  unfold homework_body.
  destruct (apply_ok (fun x : nat => x * S k) btrue idc (Acc Nat.add idc idc) mnomask MERGE l (Mat w))
    as (l' & -> & Wl' & Rl' & Cl' & Gl').
  { auto. } { auto. } { exact Logic.I. }
  { split; [exact Logic.I|]. simpl. split; congruence. }
  cbn [bind].
  destruct (mxm_ok lor_n (land_n ntrue) (fun b a : nat => land_n ntrue a b) idc idc ntrue idc
              (NoAcc idc) (MComp l') REPLACE w (Mat w) (Mat G)) as (w' & -> & Ww' & Rw' & Cw' & Gw').
  { auto. } { auto. } { auto. } { auto. } { simpl; split; congruence. }
  { reflexivity. } { simpl; congruence. } { simpl; congruence. } { exact Logic.I. }
  cbn [bind]. exists (w', l', S k). split; [reflexivity|].
  apply (batch_step ntrue G N) with (w := w) (l := l); auto.
  - intros r v Hr Hv. rewrite Gl' by auto. simpl. unfold idc.
    destruct (mget l r v), (mget w r v) as [y|]; simpl; try reflexivity; now rewrite (Nat.mul_comm y (S k)).
  - intros r v Hr Hv. rewrite Gw' by auto. simpl. unfold spec_write, smul. simpl.
    destruct (negb _); [|reflexivity]. unfold idc. rewrite !option_map_id', Cw. reflexivity.
Qed.

Lemma walks_ext e e' R R' k : (forall u v, e u v = e' u v) -> (forall v, R v <-> R' v) ->
  forall v, walks e R k v -> walks e' R' k v.
Proof.
  intros He HR. induction k as [|k IH]; simpl; intros v; [apply HR|].
  intros (u & A & B). exists u. rewrite <- He. auto.
Qed.
Lemma at_distance_ext e e' R R' k v : (forall u v, e u v = e' u v) -> (forall v, R v <-> R' v) ->
  at_distance e R k v <-> at_distance e' R' k v.
Proof.
  intros He HR.
  assert (X : forall k v, walks e R k v <-> walks e' R' k v).
  { intros j u. split; apply walks_ext; intros; auto; symmetry; auto. }
  unfold at_distance. rewrite X. split; intros (A & B); (split; [exact A|]); intros j Hj Y; apply (B j Hj); now apply X.
Qed.
Lemma wwalk_eq w w' u v k c : (forall a b, w a b = w' a b) -> wwalk w u v k c -> wwalk w' u v k c.
Proof. intros H. induction 1; [constructor|]. econstructor; [eassumption|]. now rewrite <- H. Qed.
Lemma distance_eq w w' u v x : (forall a b, w a b = w' a b) -> distance w u v x <-> distance w' u v x.
Proof.
  intros H. assert (X : forall k c, wwalk w u v k c <-> wwalk w' u v k c).
  { intros k c. split; apply wwalk_eq; intros; auto. }
  unfold distance. split; intros ((k & A) & B); (split; [exists k; now apply X|]); intros j y Y; apply (B j); now apply X.
Qed.

Theorem masked_mxm_homework_ok N n es : N < n -> Forall (fun '(i, j) => i < N /\ j < N) es ->
  exists l, masked_mxm_homework n N es = Ok (Some l) /\ wfm l /\ nrows l = N /\ ncols l = N /\
    forall r v x, r < N -> v < N ->
      (mget l r v = Some x <-> exists d, x = S d /\ at_distance (listed es) (eq r) d v).
Proof.
  intros Hn F. destruct (build_listed N es F) as (G & E & W & A & B & HE & HT).
  destruct (scaled_identity_ok N 1) as (D & ED & WD & RD & CD & GD).
  unfold masked_mxm_homework. rewrite E. cbn [bind].
  change (build_or_throw (lil_new N N) (map (fun i => (i, i, 1)) (seq 0 N))) with (scaled_identity N 1).
  rewrite ED. cbn [bind]. unfold homework_search. rewrite A, B, CD, Nat.eqb_refl. cbn [negb orb].
  destruct (batch_loop G N W A B D WD CD (homework_body G) n (lil_new N N)) as (l & El & Wl & Rl & Cl & Hl).
  - intros k s I. now apply (homework_step G N W A B HT D WD CD).
  - apply lil_new_wf.
  - rewrite RD. reflexivity.
  - reflexivity.
  - intros r v. apply mget_new.
  - intros r v x. rewrite GD. destruct (_ && _); [congruence|discriminate].
  - exact Hn.
  - exists l. split; [exact El|]. split; [exact Wl|]. split; [congruence|]. split; [exact Cl|].
    intros r v x Hr Hv. rewrite Hl by (congruence || lia).
    assert (X : forall d, at_distance (edge G) (row_roots D r) d v <-> at_distance (listed es) (eq r) d v).
    { intros d. apply at_distance_ext; [exact HE|]. intros u. unfold row_roots. rewrite GD.
      destruct (Nat.eqb_spec r u), (Nat.ltb_spec r N); simpl; split; intros; congruence || lia. }
    split; intros (d & -> & Y); exists d; (split; [reflexivity|]); now apply X.
Qed.

Theorem bfs_level_demo_ok N n root es : N < n -> root < N -> Forall (fun '(i, j) => i < N /\ j < N) es ->
  exists l1 l2, bfs_level_demo n N root es = Ok (Some l1, Some l2) /\
    forall v x, v < N ->
      (mget l1 0 v = Some x <-> exists d, x = S d /\ at_distance (listed es) (eq root) d v) /\
      (mget l2 0 v = Some x <-> exists d, x = S d /\ at_distance (listed es) (eq root) d v).
Proof.
  intros Hn Hr F. destruct (build_listed N es F) as (G & E & W & A & B & HE & HT).
  destruct (setElement_merge_ok (fun _ new => new) (lil_new 1 N) 0 root 1 (lil_new_wf 1 N))
    as (D & ED & WD & RD & CD & GD); [simpl; lia|exact Hr|].
  cbn [nrows ncols lil_new] in RD, CD. rewrite mget_new in GD.
  unfold bfs_level_demo, lil_setElement. rewrite E. cbn [bind]. rewrite ED. cbn [bind].
  assert (D1 : forall r v x, mget D r v = Some x -> x = 1).
  { intros r v x. rewrite GD, mget_new. destruct (_ && _); [congruence|discriminate]. }
  assert (X : forall d v, at_distance (edge G) (row_roots D 0) d v <-> at_distance (listed es) (eq root) d v).
  { intros d v. apply at_distance_ext; [exact HE|]. intros u. unfold row_roots. rewrite GD, mget_new. simpl.
    destruct (Nat.eqb_spec u root); split; intros; congruence. }
  destruct (levels_m_ok ntrue G N W A B HT D WD CD n (lil_new 1 N)) as (l1 & E1 & _ & _ & _ & H1);
    try assumption; try apply lil_new_wf; try (intros; apply mget_new); try (simpl; congruence).
  destruct (batch_levels_ok ntrue G N W A B HT D WD CD n (lil_new 1 N)) as (l2 & E2 & _ & _ & _ & H2);
    try assumption; try apply lil_new_wf; try (intros; apply mget_new); try (simpl; congruence).
  exists l1, l2. rewrite E1. cbn [bind]. rewrite E2. split; [reflexivity|]. intros v x Hv.
  rewrite H1, H2 by (auto; lia).
  split; split; intros (d & -> & Y); exists d; (split; [reflexivity|]); now apply X.
Qed.

Theorem sssp_demo_ok N ts : N <> 0 -> Forall (fun '(i, j, _) => i < N /\ j < N) ts -> SpecMetrics.no_negative_cycle (last_weight ts) ->
  exists d D, sssp_demo N ts = Ok (d, D) /\
    (forall v x, vget d v = Some x <-> distance (last_weight ts) 0 v x) /\
    (forall u v x, u < N -> (mget D u v = Some x <-> distance (last_weight ts) u v x)).
Proof.
  intros H0 F NN. destruct (build_graph N ts F) as (G & E & W & A & B & HE).
  fold (last_weight ts) in HE.
  assert (HG : forall u v, mget G u v = last_weight ts u v) by exact HE.
  assert (NG : SpecMetrics.no_negative_cycle (mget G)).
  { intros v k c Hw. apply (NN v k c). exact (wwalk_eq _ _ v v k c HG Hw). }
  destruct (vec_new_ok 0%Z N H0) as (w0 & E0 & W0 & S0 & G0).
  destruct (sssp_from G w0 N 0 W A B) as (w & b & d & Ew & Es & _ & _ & Hd); auto; [lia|].
  destruct (scaled_identity_ok N 0%Z) as (I & EI & WI & RI & CI & GI).
  destruct (ProofSssp.batch_sssp_ok G N W A B I) as (b2 & D & EB & _ & _ & _ & Hb & _ & HD); auto.
  assert (b2 = true) by (apply Hb; intros r _; now apply no_negative). subst b2.
  exists d, D. unfold sssp_demo. rewrite E. cbn [bind]. rewrite E0. cbn [bind]. rewrite Ew. cbn [bind].
  rewrite Es. cbn [bind]. rewrite EI. cbn [bind]. rewrite EB. cbn [bind snd].
  split; [reflexivity|]. split.
  - intros v x. rewrite Hd. now apply distance_eq.
  - intros u v x Hu. rewrite HD by reflexivity. rewrite (shortest_source _ _ u).
    + now apply distance_eq.
    + intros t. rewrite GI. destruct (Nat.eqb_spec u t), (Nat.eqb_spec t u), (Nat.ltb_spec u N); simpl; congruence || lia.
Qed.

Lemma best_parent_ext e e' R R' p v : (forall u v, e u v = e' u v) -> (forall v, R v <-> R' v) ->
  best_parent e R p v <-> best_parent e' R' p v.
Proof.
  intros He HR. assert (X : forall k v, at_distance e R k v <-> at_distance e' R' k v).
  { intros k u. now apply at_distance_ext. }
  unfold best_parent. split; intros (d & A & B & C & D); exists d.
  - split; [now apply X|]. split; [now apply X|]. split; [now rewrite <- He|]. intros q Q Y.
    apply D; [now apply X|now rewrite He].
  - split; [now apply X|]. split; [now apply X|]. split; [now rewrite He|]. intros q Q Y.
    apply D; [now apply X|now rewrite <- He].
Qed.

Theorem bfs_demo_ok N n root es : N < n -> root < N -> Forall (fun '(i, j) => i < N /\ j < N) es ->
  exists p P, bfs_demo n N root es = Ok (Some p, Some P) /\
    (forall v q, v < N ->
      (vget p v = Some q <-> (v = root /\ q = root) \/ best_parent (listed es) (eq root) q v)) /\
    (forall r v q, r < N -> v < N ->
      (mget P r v = Some q <-> (v = r /\ q = r) \/ best_parent (listed es) (eq r) q v)).
Proof.
  intros Hn Hr F. destruct (build_listed N es F) as (G & E & W & A & B & HE & HT).
  assert (N0 : N <> 0) by lia.
  assert (MI : forall i j, i < N -> j < N -> nmin (idc i) (idc j) = idc (Nat.min i j)).
  { intros i j _ _. unfold nmin, idc. destruct (Nat.ltb_spec i j); lia. }
  destruct (vec_new_ok 0 N N0) as (w0 & E0 & W0 & S0 & G0).
  destruct (vec_setElement_ok w0 root 1) as (w & Ew & _ & Sw & _ & Gw & Ww); [apply W0|lia|].
  destruct (scaled_identity_ok N 1) as (D & ED & WD & RD & CD & GD).
  destruct (C59_bfs_wavefront nat G N n idc idc nmin Nat.add w w0) as (p & Ep & _ & _ & Hp); auto; [congruence|].
  destruct (C59_bfs_batch nat G N n idc idc nmin Nat.add D (lil_new N N)) as (P & EP & _ & _ & _ & HP); auto; [apply lil_new_wf|].
  exists p, P. unfold bfs_demo. rewrite E. cbn [bind]. rewrite E0. cbn [bind]. rewrite Ew. cbn [bind].
  rewrite Ep. cbn [bind].
  change (build_or_throw (lil_new N N) (map (fun i => (i, i, 1)) (seq 0 N))) with (scaled_identity N 1).
  rewrite ED. cbn [bind]. rewrite EP. cbn [bind]. split; [reflexivity|]. split.
  - intros v q Hv. rewrite Hp by exact Hv.
    assert (X : forall u, vget w u <> None <-> root = u).
    { intros u. rewrite Gw, G0. destruct (Nat.eqb_spec u root); split; intros; congruence. }
    rewrite (best_parent_ext _ (listed es) _ (eq root) q v HE X). rewrite X.
    split; (intros [(Y & Z)|Y]; [left|right; exact Y]); split; congruence.
  - intros r v q Hr' Hv. rewrite HP by (congruence || lia).
    assert (X : forall u, mget D r u <> None <-> r = u).
    { intros u. rewrite GD. destruct (Nat.eqb_spec r u), (Nat.ltb_spec r N); simpl; split; intros; congruence || lia. }
    rewrite (best_parent_ext _ (listed es) _ (eq r) q v HE X). rewrite X.
    split; (intros [(Y & Z)|Y]; [left|right; exact Y]); split; congruence.
Qed.
