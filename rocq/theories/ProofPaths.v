(** Walks with weights: removing cycles, Bellman-Ford, Floyd-Warshall. *)
From Coq Require Import Lia.
From Verif Require Import Base ModelAlgoBase Spec SpecPaths.
Local Open Scope Z_scope.

Lemma osum_zmin l m :
  osum zmin l = Some m <-> In (Some m) l /\ forall x, In (Some x) l -> m <= x.
Proof.
  assert (H : forall l m, osum zmin l = Some m ->
            In (Some m) l /\ forall x, In (Some x) l -> m <= x).
  { clear. unfold osum.
    assert (K : forall l o m, fold_left (oadd zmin) l o = Some m ->
       (o = Some m \/ In (Some m) l) /\ (forall x, o = Some x -> m <= x) /\
       (forall x, In (Some x) l -> m <= x)).
    { induction l as [|y l IH]; intros o m E; simpl in *.
      - subst. split; [auto|]. split; [|tauto]. intros x Hx. injection Hx as ->. lia.
      - apply IH in E. destruct E as (H1 & H2 & H3). destruct o as [a|], y as [b|]; simpl in *.
        + unfold zmin in *. destruct (Z.ltb_spec a b).
          * split; [tauto|]. split; [auto|].
            intros x [Hx|Hx]; auto. injection Hx as <-. specialize (H2 a eq_refl). lia.
          * split.
            { destruct H1; auto. }
            split; [intros x Hx; injection Hx as <-; specialize (H2 b eq_refl); lia|].
            intros x [Hx|Hx]; auto.
        + split; [tauto|]. split; [auto|]. intros x [Hx|Hx]; [discriminate|auto].
        + split; [destruct H1 as [H1|H1]; auto|]. split; [discriminate|].
          intros x [Hx|Hx]; auto.
        + split; [destruct H1 as [H1|H1]; [discriminate|auto]|]. split; [discriminate|].
          intros x [Hx|Hx]; [discriminate|auto]. }
    intros l m E. apply K in E. destruct E as ([E|E] & _ & H3); [discriminate|auto]. }
  split; [apply H|]. intros [Hin Hle]. destruct (osum zmin l) as [m'|] eqn:E.
  - apply H in E. destruct E as [E1 E2]. f_equal. apply Z.le_antisymm; auto.
  - exfalso. revert Hin E. clear. unfold osum.
    assert (K : forall l o, In (Some m) l \/ o <> None -> fold_left (oadd zmin) l o <> None).
    { intro l0. induction l0 as [|y l0 IH]; intros o Ho; simpl in *; [destruct Ho; [contradiction|assumption]|]. apply IH.
      destruct Ho as [[->|Hi]|Ho]; [right; destruct o; discriminate|auto|right].
      destruct o; [|tauto]. destruct y; discriminate. }
    intros Hin E. apply (K l None); auto.
Qed.

(** At least as small as an element of the list. *)
Lemma osum_zmin_le l x : In (Some x) l -> exists m, osum zmin l = Some m /\ m <= x.
Proof.
  intro Hin. destruct (osum zmin l) as [m|] eqn:E.
  - exists m. split; [auto|]. apply osum_zmin in E. apply E; auto.
  - exfalso. revert Hin E. unfold osum.
    assert (K : forall l o, In (Some x) l \/ o <> None -> fold_left (oadd zmin) l o <> None).
    { intro l0. induction l0 as [|y l0 IH]; intros o Ho; simpl in *; [destruct Ho; [contradiction|assumption]|]. apply IH.
      destruct Ho as [[->|Hi]|Ho]; [right; destruct o; discriminate|auto|right].
      destruct o; [|tauto]. destruct y; discriminate. }
    intros Hin E. apply (K l None); auto.
Qed.

Lemma oadd_zmin_sound a b x : oadd zmin a b = Some x -> a = Some x \/ b = Some x.
Proof.
  destruct a as [a|], b as [b|]; simpl; auto. unfold zmin.
  destruct (a <? b); auto.
Qed.
Lemma oadd_zmin_l a b x : a = Some x -> exists y, oadd zmin a b = Some y /\ y <= x.
Proof.
  intros ->. destruct b as [b|]; simpl; [|exists x; split; [auto|lia]].
  exists (zmin x b). split; [auto|]. unfold zmin. destruct (Z.ltb_spec x b); lia.
Qed.
Lemma oadd_zmin_r a b x : b = Some x -> exists y, oadd zmin a b = Some y /\ y <= x.
Proof.
  intros ->. destruct a as [a|]; simpl; [|exists x; split; [auto|lia]].
  exists (zmin a x). split; [auto|]. unfold zmin. destruct (Z.ltb_spec a x); lia.
Qed.

(** ** Walks *)
Lemma wwalk_app w u v k c : wwalk w u v k c ->
  forall t m d, wwalk w v t m d -> wwalk w u t (k + m)%nat (c + d).
Proof.
  intros H t m d H2. induction H2 as [|v' t m d g H2 IH E].
  - rewrite Nat.add_0_r, Z.add_0_r. auto.
  - rewrite Nat.add_succ_r, Z.add_assoc. econstructor; eauto.
Qed.

Lemma wwalk_edge w u v g : w u v = Some g -> wwalk w u v 1 g.
Proof. intro E. replace g with (0 + g) by lia. econstructor; [constructor|auto]. Qed.

Lemma walk_from_app w D0 k v x : walk_from w D0 k v x ->
  forall t m d, wwalk w v t m d -> walk_from w D0 (k + m) t (x + d).
Proof.
  intros (u & a & c & H1 & H2 & ->) t m d H. exists u, a, (c + d). split; [auto|].
  split; [eapply wwalk_app; eauto|lia].
Qed.

Lemma walk_from_0 w D0 v x : walk_from w D0 0 v x <-> D0 v = Some x.
Proof.
  split.
  - intros (u & a & c & H1 & H2 & ->). inversion H2; subst. rewrite H1. f_equal. lia.
  - intro H. exists v, x, 0. split; [auto|]. split; [constructor|lia].
Qed.

Lemma walk_from_S w D0 k v x : walk_from w D0 (S k) v x <->
  exists u y g, walk_from w D0 k u y /\ w u v = Some g /\ x = y + g.
Proof.
  split.
  - intros (u & a & c & H1 & H2 & ->). inversion H2; subst.
    exists v0, (a + c0), g. split; [exists u, a, c0; auto|]. split; [auto|lia].
  - intros (u & y & g & (s & a & c & H1 & H2 & ->) & E & ->). exists s, a, (c + g).
    split; [auto|]. split; [econstructor; eauto|lia].
Qed.

(** The vertices and partial costs along a walk. *)
Lemma walk_positions w u v k c : wwalk w u v k c ->
  exists (f : nat -> nat) (s : nat -> Z), f 0%nat = u /\ f k = v /\ s 0%nat = 0 /\ s k = c /\
    forall i, (i < k)%nat -> w (f i) (f (S i)) = Some (s (S i) - s i).
Proof.
  induction 1 as [|v t k c g H (f & s & F0 & Fk & S0 & Sk & Hs) E].
  - exists (fun _ => u), (fun _ => 0). repeat split; auto. intros; lia.
  - exists (fun i => if (i <=? k)%nat then f i else t), (fun i => if (i <=? k)%nat then s i else c + g).
    split; [auto|].
    replace ((S k <=? k)%nat) with false by (symmetry; apply Nat.leb_gt; lia).
    split; [auto|]. split; [auto|]. split; [auto|].
    intros i Hi. destruct (Nat.leb_spec i k); [|lia]. destruct (Nat.leb_spec (S i) k).
    + apply Hs. lia.
    + replace i with k by lia. rewrite Fk, Sk, E. f_equal. lia.
Qed.

Lemma walk_between w (f : nat -> nat) (s : nat -> Z) k :
  (forall i, (i < k)%nat -> w (f i) (f (S i)) = Some (s (S i) - s i)) ->
  forall d i, (i + d <= k)%nat -> wwalk w (f i) (f (i + d)%nat) d (s (i + d)%nat - s i).
Proof.
  intros H. induction d as [|d IH]; intros i Hi.
  - rewrite Nat.add_0_r. replace (s i - s i) with 0 by lia. constructor.
  - rewrite Nat.add_succ_r.
    replace (s (S (i + d)) - s i) with ((s (i + d)%nat - s i) + (s (S (i + d)) - s (i + d)%nat)) by lia.
    econstructor; [apply IH; lia|]. apply H. lia.
Qed.

Lemma pigeonhole N (f : nat -> nat) :
  (forall i, (i <= N)%nat -> (f i < N)%nat) -> exists i j, (i < j <= N)%nat /\ f i = f j.
Proof.
  intro Hf.
  assert (D : forall m, NoDup (map f (seq 0 m)) \/ exists i j, (i < j < m)%nat /\ f i = f j).
  { induction m as [|m [IH|(i & j & Hij & E)]].
    - left. constructor.
    - destruct (in_dec Nat.eq_dec (f m) (map f (seq 0 m))) as [Hin|Hin].
      + right. apply in_map_iff in Hin. destruct Hin as (i & Ei & Hi). apply in_seq in Hi.
        exists i, m. split; [lia|auto].
      + left. rewrite seq_S, map_app. simpl.
        apply NoDup_Add with (a := f m) (l := map f (seq 0 m)); [|auto].
        rewrite <- (app_nil_r (map f (seq 0 m))) at 1. apply Add_app.
    - right. exists i, j. split; [lia|auto]. }
  destruct (D (S N)) as [Hn|(i & j & Hij & E)].
  - exfalso. assert (L : (length (map f (seq 0 (S N))) <= length (seq 0 N))%nat).
    { apply NoDup_incl_length; [auto|]. intros x Hx. apply in_map_iff in Hx.
      destruct Hx as (i & <- & Hi). apply in_seq in Hi. apply in_seq. specialize (Hf i). lia. }
    rewrite map_length, !seq_length in L. lia.
  - exists i, j. split; [lia|auto].
Qed.

Section Paths.
Variables (N : nat) (w : nat -> nat -> option Z).
Hypothesis w_bound : forall u v g, w u v = Some g -> (u < N /\ v < N)%nat.

Lemma walk_cycle u v k c : (u < N)%nat -> wwalk w u v k c -> (N <= k)%nat ->
  exists t i m l c1 c2 c3, wwalk w u t i c1 /\ wwalk w t t (S m) c2 /\ wwalk w t v l c3 /\
    (k = i + S m + l)%nat /\ c = c1 + c2 + c3.
Proof.
  intros Hu Hw Hk. destruct (walk_positions w u v k c Hw) as (f & s & F0 & Fk & S0 & Sk & Hs).
  assert (Hf : forall i, (i <= N)%nat -> (f i < N)%nat).
  { intros [|i] Hi; [lia|]. assert (Hik : (i < k)%nat) by lia. specialize (Hs i Hik).
    apply w_bound in Hs. tauto. }
  destruct (pigeonhole N f Hf) as (i & j & Hij & E).
  pose proof (walk_between w f s k Hs) as B.
  exists (f i), i, (j - S i)%nat, (k - j)%nat, (s i), (s j - s i), (s k - s j).
  split; [|split; [|split; [|split; [lia|lia]]]].
  - specialize (B i 0%nat). rewrite Nat.add_0_l, F0, S0, Z.sub_0_r in B. apply B. lia.
  - specialize (B (S (j - S i))%nat i).
    replace (i + S (j - S i))%nat with j in B by lia. rewrite <- E in B at 1. apply B. lia.
  - specialize (B (k - j)%nat j). replace (j + (k - j))%nat with k in B by lia.
    rewrite Fk, <- E in B. apply B. lia.
Qed.

Section From.
Variable D0 : nat -> option Z.
Hypothesis D0_bound : forall v x, D0 v = Some x -> (v < N)%nat.

Lemma walk_from_bound k v x : walk_from w D0 k v x -> (v < N)%nat.
Proof.
  intros (u & a & c & H1 & H2 & _). inversion H2; subst; eauto. apply w_bound in H0. tauto.
Qed.

(** Every walk can be cut down to fewer edges than vertices. *)
Lemma shorten k v x : walk_from w D0 k v x ->
  exists k' x', (k' < N)%nat /\ walk_from w D0 k' v x'.
Proof.
  revert x. induction k as [k IH] using lt_wf_ind. intros x H.
  destruct (Nat.lt_ge_cases k N) as [Hk|Hk]; [eauto|].
  destruct H as (u & a & c & H1 & H2 & ->).
  destruct (walk_cycle u v k c) as (t & i & m & l & c1 & c2 & c3 & W1 & W2 & W3 & -> & ->); eauto.
  apply (IH (i + l)%nat ltac:(lia) (a + (c1 + c3))).
  exists u, a, (c1 + c3). split; [auto|]. split; [|auto]. eapply wwalk_app; eauto.
Qed.

(** ** Bellman-Ford *)

(** [D] holds the least costs of walks of at most [k] edges, or less. *)
Definition covers k (D : nat -> option Z) : Prop :=
  forall j v y, (j <= k)%nat -> walk_from w D0 j v y -> exists x, D v = Some x /\ x <= y.
Definition sound k (D : nat -> option Z) : Prop :=
  forall v x, D v = Some x -> exists j, (j <= k)%nat /\ walk_from w D0 j v x.

Definition candidates (D : nat -> option Z) v : option Z :=
  osum zmin (map (fun u => omap2 Z.add (D u) (w u v)) (seq 0 N)).

Lemma candidates_sound D v x : candidates D v = Some x ->
  exists u y g, D u = Some y /\ w u v = Some g /\ x = y + g.
Proof.
  intro H. apply osum_zmin in H. destruct H as [H _]. apply in_map_iff in H.
  destruct H as (u & E & _). exists u. destruct (D u) as [y|]; [|discriminate].
  destruct (w u v) as [g|]; [|discriminate]. injection E as <-. eauto.
Qed.
Lemma candidates_le D u v y g : D u = Some y -> w u v = Some g ->
  exists x, candidates D v = Some x /\ x <= y + g.
Proof.
  intros Hu Hw. apply osum_zmin_le. apply in_map_iff. exists u. rewrite Hu, Hw.
  split; [reflexivity|]. apply in_seq. apply w_bound in Hw. lia.
Qed.

Lemma relax_covers k D D' :
  covers k D -> (forall v, (v < N)%nat -> D' v = oadd zmin (D v) (candidates D v)) ->
  covers (S k) D'.
Proof.
  intros C HD j v y Hj Hw. assert (Hv := walk_from_bound _ _ _ Hw).
  rewrite HD by auto. destruct j as [|j].
  - destruct (C 0%nat v y) as (x & Hx & L); [lia|auto|].
    destruct (oadd_zmin_l _ (candidates D v) _ Hx) as (z & -> & Lz). exists z. split; [auto|lia].
  - apply walk_from_S in Hw. destruct Hw as (u & y' & g & Hw & E & ->).
    destruct (C j u y') as (x & Hx & L); [lia|auto|].
    destruct (candidates_le D u v x g Hx E) as (z & Hz & Lz).
    destruct (oadd_zmin_r (D v) _ _ Hz) as (z' & -> & Lz'). exists z'. split; [auto|lia].
Qed.
Lemma relax_sound k D D' :
  sound k D -> (forall v, (v < N)%nat -> D' v = oadd zmin (D v) (candidates D v)) ->
  (forall v, (N <= v)%nat -> D' v = None) -> sound (S k) D'.
Proof.
  intros C HD HN v x Hx. destruct (Nat.lt_ge_cases v N) as [Hv|Hv]; [|rewrite HN in Hx by auto; discriminate].
  rewrite HD in Hx by auto. apply oadd_zmin_sound in Hx. destruct Hx as [Hx|Hx].
  - apply C in Hx. destruct Hx as (j & Hj & H). exists j. split; [lia|auto].
  - apply candidates_sound in Hx. destruct Hx as (u & y & g & Hu & E & ->).
    apply C in Hu. destruct Hu as (j & Hj & H). exists (S j). split; [lia|].
    apply walk_from_S. exists u, y, g. auto.
Qed.

Definition closed (D : nat -> option Z) : Prop :=
  forall u v x g, D u = Some x -> w u v = Some g -> exists y, D v = Some y /\ y <= x + g.

Lemma closed_covers D : covers 0 D -> closed D -> forall k, covers k D.
Proof.
  intros C0 H k j v y _. revert v y. induction j as [|j IH]; intros v y Hw.
  - apply (C0 0%nat); auto.
  - apply walk_from_S in Hw. destruct Hw as (u & y' & g & Hw & E & ->).
    destruct (IH u y' Hw) as (x & Hx & L). destruct (H u v x g Hx E) as (z & Hz & Lz).
    exists z. split; [auto|lia].
Qed.

Lemma covers_shortest k D : sound k D -> (forall j, covers j D) ->
  forall v x, D v = Some x <-> shortest w D0 v x.
Proof.
  intros HS HC v x. split.
  - intro Hx. split.
    + apply HS in Hx. destruct Hx as (j & _ & H). eauto.
    + intros j y Hw. destruct (HC j j v y) as (z & Hz & L); auto. congruence.
  - intros ((j & Hj) & Hmin). destruct (HC j j v x) as (z & Hz & L); auto.
    rewrite Hz. f_equal. apply HS in Hz. destruct Hz as (i & _ & Hi). apply Hmin in Hi. lia.
Qed.

Lemma covers_no_negative k D : sound k D -> (forall j, covers j D) -> ~ negative_cycle w D0.
Proof.
  intros HS HC (j & v & x & m & c & Hw & Hc & Hneg).
  destruct (HC j j v x) as (z & Hz & _); auto. pose proof Hz as Hz'.
  apply HS in Hz'. destruct Hz' as (i & _ & Hi).
  pose proof (walk_from_app _ _ _ _ _ Hi _ _ _ Hc) as Hw'.
  destruct (HC _ _ v _ (Nat.le_refl _) Hw') as (z' & Hz' & L). rewrite Hz in Hz'.
  injection Hz' as <-. lia.
Qed.

(** A walk with one edge more that is cheaper than all those of at most [k >= N-1] edges
    contains a negative cycle. *)
Lemma improved_negative k D j v y :
  covers k D -> (N <= S k)%nat -> (j <= S k)%nat -> walk_from w D0 j v y ->
  (forall x, D v = Some x -> y < x) -> negative_cycle w D0.
Proof.
  intros C Hk Hj Hw Hlt. destruct (Nat.eq_dec j (S k)) as [->|].
  2: { destruct (C j v y) as (x & Hx & L); [lia|auto|]. apply Hlt in Hx. lia. }
  destruct Hw as (u & a & c & H1 & H2 & ->).
  destruct (walk_cycle u v (S k) c) as (t & i & m & l & c1 & c2 & c3 & W1 & W2 & W3 & E & ->); eauto.
  destruct (C (i + l)%nat v (a + (c1 + c3))) as (x & Hx & L).
  - lia.
  - exists u, a, (c1 + c3). split; [auto|]. split; [|auto]. eapply wwalk_app; eauto.
  - apply Hlt in Hx. exists i, t, (a + c1), (S m), c2. split; [exists u, a, c1; auto|].
    split; [auto|lia].
Qed.

(** No change in step [N]: nothing will change. *)
Lemma unchanged_closed k D D' :
  covers k D -> (N <= S k)%nat ->
  (forall v, (v < N)%nat -> D' v = oadd zmin (D v) (candidates D v)) ->
  (forall v x y, D v = Some x -> D' v = Some y -> x = y) ->
  sound k D -> closed D.
Proof.
  intros C Hk HD Heq HS u v x g Hu E. assert (Hv : (v < N)%nat) by (apply w_bound in E; tauto).
  destruct (candidates_le D u v x g Hu E) as (z & Hz & Lz).
  destruct (oadd_zmin_r (D v) _ _ Hz) as (z' & Hz' & Lz'). rewrite <- HD in Hz' by auto.
  destruct (D v) as [y|] eqn:Ev.
  - exists y. split; [auto|]. rewrite (Heq v y z' Ev Hz'). lia.
  - exfalso. apply HS in Hu. destruct Hu as (j & Hj & Hw).
    assert (Hw' : walk_from w D0 (S j) v (x + g)) by (apply walk_from_S; exists u, x, g; auto).
    apply shorten in Hw'. destruct Hw' as (k' & x' & Hk' & Hw').
    destruct (C k' v x') as (q & Hq & _); [lia|auto|congruence].
Qed.
End From.

(** ** Floyd-Warshall *)

(** Walks of at least one edge whose inner vertices are below [k]. *)
Inductive inner (k : nat) (i : nat) : nat -> Z -> Prop :=
| inner_edge j g : w i j = Some g -> inner k i j g
| inner_step t j c g : inner k i t c -> (t < k)%nat -> w t j = Some g -> inner k i j (c + g).

Lemma inner_walk k i j c : inner k i j c -> exists m, wwalk w i j m c.
Proof.
  induction 1 as [j g E|t j c g _ (m & IH) _ E]; [exists 1%nat; apply wwalk_edge; auto|].
  exists (S m). econstructor; eauto.
Qed.

Lemma walk_inner i j m c : wwalk w i j (S m) c -> inner N i j c.
Proof.
  revert j c. induction m as [|m IH]; intros j c H; inversion H as [|v t k d g H1 E]; subst.
  - inversion H1; subst. constructor. auto.
  - apply inner_step with (t := v); [apply IH; auto| |auto]. apply w_bound in E. tauto.
Qed.

Lemma inner_split k i j c : inner (S k) i j c ->
  inner k i j c \/
  exists c1 c2 c3 m, inner k i k c1 /\ wwalk w k k m c2 /\ inner k k j c3 /\ c = c1 + c2 + c3.
Proof.
  induction 1 as [j g E|t j c g _ IH Ht E]; [left; constructor; auto|].
  assert (t = k \/ t < k)%nat as [->|Lt] by lia.
  - destruct IH as [IH|(c1 & c2 & c3 & m & H1 & H2 & H3 & ->)]; right.
    + exists c, 0, g, 0%nat. split; [auto|]. split; [constructor|]. split; [constructor; auto|lia].
    + apply inner_walk in H3. destruct H3 as (m3 & H3).
      exists c1, (c2 + c3), g, (m + m3)%nat. split; [auto|].
      split; [eapply wwalk_app; eauto|]. split; [constructor; auto|lia].
  - destruct IH as [IH|(c1 & c2 & c3 & m & H1 & H2 & H3 & ->)].
    + left. apply inner_step with (t := t); auto.
    + right. exists c1, c2, (c3 + g), m. split; [auto|]. split; [auto|].
      split; [apply inner_step with (t := t); auto|lia].
Qed.

(** No closed walk is negative. *)
Hypothesis nonneg : forall v m c, wwalk w v v m c -> 0 <= c.

Definition fw_inv k (D : nat -> nat -> option Z) : Prop :=
  (forall i j x, D i j = Some x -> exists m, wwalk w i j m x) /\
  (forall i j c, i <> j -> inner k i j c -> exists x, D i j = Some x /\ x <= c).

Lemma fw_step k D D' : (k < N)%nat ->
  fw_inv k D ->
  (forall i j, (i < N)%nat -> (j < N)%nat ->
     D' i j = oadd zmin (D i j) (omap2 Z.add (D i k) (D k j))) ->
  (forall i j, (N <= i)%nat \/ (N <= j)%nat -> D' i j = None) ->
  fw_inv (S k) D'.
Proof.
  intros Hk [HS HC] HD HN. split.
  - intros i j x Hx.
    destruct (Nat.lt_ge_cases i N) as [Hi|Hi]; [|rewrite HN in Hx by auto; discriminate].
    destruct (Nat.lt_ge_cases j N) as [Hj|Hj]; [|rewrite HN in Hx by auto; discriminate].
    rewrite HD in Hx by auto. apply oadd_zmin_sound in Hx. destruct Hx as [Hx|Hx]; [eauto|].
    destruct (D i k) as [a|] eqn:Ea; [|discriminate]. destruct (D k j) as [b|] eqn:Eb; [|discriminate].
    simpl in Hx. injection Hx as <-. apply HS in Ea, Eb. destruct Ea as (m1 & Ea), Eb as (m2 & Eb).
    exists (m1 + m2)%nat. eapply wwalk_app; eauto.
  - intros i j c Hij H.
    assert (Hi : (i < N)%nat).
    { clear - H w_bound. induction H as [j g E|]; auto. apply w_bound in E. tauto. }
    assert (Hj : (j < N)%nat).
    { clear - H w_bound. destruct H as [j g E|t j c g _ _ E]; apply w_bound in E; tauto. }
    rewrite HD by auto.
    assert (Old : (exists x, D i j = Some x /\ x <= c) ->
      exists x, oadd zmin (D i j) (omap2 Z.add (D i k) (D k j)) = Some x /\ x <= c).
    { intros (x & Hx & L). destruct (oadd_zmin_l _ (omap2 Z.add (D i k) (D k j)) _ Hx) as (y & -> & Ly).
      exists y. split; [auto|lia]. }
    apply inner_split in H. destruct H as [H|(c1 & c2 & c3 & m & H1 & H2 & H3 & ->)].
    + apply Old. apply HC; auto.
    + apply nonneg in H2.
      destruct (Nat.eq_dec i k) as [->|Nik].
      { apply inner_walk in H1. destruct H1 as (m1 & H1). apply nonneg in H1.
        apply Old. destruct (HC k j c3 Hij H3) as (x & Hx & L). exists x. split; [auto|lia]. }
      destruct (Nat.eq_dec j k) as [->|Njk].
      { apply inner_walk in H3. destruct H3 as (m3 & H3). apply nonneg in H3.
        apply Old. destruct (HC i k c1 Hij H1) as (x & Hx & L). exists x. split; [auto|lia]. }
      destruct (HC i k c1 Nik H1) as (a & Ea & La).
      destruct (HC k j c3 (not_eq_sym Njk) H3) as (b & Eb & Lb).
      destruct (oadd_zmin_r (D i j) (omap2 Z.add (D i k) (D k j)) (a + b)) as (y & Hy & Ly).
      { rewrite Ea, Eb. reflexivity. }
      exists y. split; [auto|lia].
Qed.

Lemma fw_end D : fw_inv N D -> forall i j x, i <> j -> (D i j = Some x <-> distance w i j x).
Proof.
  intros [HS HC] i j x Hij.
  assert (C : forall m y, wwalk w i j m y -> exists z, D i j = Some z /\ z <= y).
  { intros [|m] y Hw; [inversion Hw; subst; tauto|]. apply walk_inner in Hw. auto. }
  split.
  - intro Hx. split; [apply HS in Hx; auto|]. intros m y Hw. apply C in Hw.
    destruct Hw as (z & Hz & L). congruence.
  - intros ((m & Hm) & Hmin). destruct (C m x Hm) as (z & Hz & L). rewrite Hz. f_equal.
    apply HS in Hz. destruct Hz as (m' & Hz). apply Hmin in Hz. lia.
Qed.
End Paths.
