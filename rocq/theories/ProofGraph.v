(** Facts about walks and distances, and the invariant of breadth first search. *)
From Coq Require Import Lia.
From Verif Require Import Base ModelLil ModelVec ModelHelpers ModelViews ModelAlgoBase Spec SpecOps
  SpecGraph ProofBase ProofRow ProofLil ProofVec ProofViews ProofUtils.

(** ** Loops *)
Lemma mwhile_inv {S} (cond : S -> bool) (body : S -> res S) (P : nat -> S -> Prop) B :
  (forall k s, P k s -> cond s = true ->
     k < B /\ exists s', body s = Ok s' /\ P (Datatypes.S k) s') ->
  forall n k s, P k s -> k <= B -> B - k < n ->
  exists k' s', mwhile n cond body s = Ok (Some s') /\ P k' s' /\ cond s' = false.
Proof.
  intros H n. induction n as [|n IH]; intros k s Hp Hk Hn; [lia|]. simpl.
  destruct (cond s) eqn:E.
  - destruct (H k s Hp E) as (Hb & s' & -> & Hp'). cbn [bind].
    apply (IH (Datatypes.S k)); auto; lia.
  - exists k, s. auto.
Qed.

(** More fuel does not change the outcome. *)
Lemma mwhile_mono {S} (cond : S -> bool) (body : S -> res S) n : forall m s s',
  mwhile n cond body s = Ok (Some s') -> n <= m -> mwhile m cond body s = Ok (Some s').
Proof.
  induction n as [|n IH]; intros m s s' E L; [discriminate|].
  destruct m as [|m]; [lia|]. simpl in *. destruct (cond s); auto.
  destruct (body s); try discriminate. cbn [bind] in *. apply IH; auto; lia.
Qed.

Lemma vget_oob {T} (w : bvec T) i : wfv0 w -> vsize w <= i -> vget w i = None.
Proof.
  intros [_ W] H. unfold vget. replace (nth_error (vbits w) i) with (@None bool); auto.
  symmetry. apply nth_error_None. lia.
Qed.

Lemma has_vals_v {T} (w : bvec T) :
  wfv w -> has_vals (vnvals w) = true -> exists i, i < vsize w /\ vget w i <> None.
Proof.
  intros [W N] H. unfold has_vals in H. rewrite N in H.
  destruct (filter (fun i => is_some (vget w i)) (seq 0 (vsize w))) as [|i l] eqn:E.
  - unfold vcount in H. rewrite E in H. discriminate.
  - assert (Hi : In i (i :: l)) by (left; auto). rewrite <- E in Hi. apply filter_In in Hi.
    destruct Hi as [Hi Hs]. apply in_seq in Hi. exists i. split; [lia|].
    destruct (vget w i); [discriminate|simpl in Hs; discriminate].
Qed.

Lemma no_vals_v {T} (w : bvec T) :
  wfv w -> has_vals (vnvals w) = false -> forall i, vget w i = None.
Proof.
  intros W H. apply (wfv_wfvn w W). unfold has_vals in H. destruct (Z.eqb_spec (vnvals w) 0); auto.
  discriminate.
Qed.

Lemma has_vals_m {T} (M : lil T) :
  wfm M -> has_vals (nvals M) = true ->
  exists i j, i < nrows M /\ j < ncols M /\ mget M i j <> None.
Proof.
  intros [W N] H. unfold has_vals in H. rewrite N in H. unfold mcount in H.
  destruct (filter _ _) as [|[i j] l] eqn:E; [discriminate|].
  assert (Hi : In (i, j) ((i, j) :: l)) by (left; auto). rewrite <- E in Hi.
  apply filter_In in Hi. destruct Hi as [Hi Hs]. apply in_prod_iff in Hi.
  destruct Hi as [Hi Hj]. apply in_seq in Hi, Hj. exists i, j. split; [lia|]. split; [lia|].
  destruct (mget M i j); [discriminate|simpl in Hs; discriminate].
Qed.

Lemma no_vals_m {T} (M : lil T) :
  wfm M -> has_vals (nvals M) = false -> forall i j, mget M i j = None.
Proof.
  intros W H i j.
  destruct (Nat.ltb_spec i (nrows M)); [|apply mget_oob; auto].
  destruct (Nat.ltb_spec j (ncols M)); [|apply mget_oob; auto].
  destruct (mget M i j) eqn:G; auto. exfalso.
  destruct W as [W N]. unfold has_vals in H. rewrite N in H. unfold mcount in H.
  assert (Hin : In (i, j) (filter (fun '(i, j) => is_some (mget M i j))
                 (list_prod (seq 0 (nrows M)) (seq 0 (ncols M))))).
  { apply filter_In. rewrite G. split; [|reflexivity]. apply in_prod; apply in_seq; lia. }
  destruct (filter _ _); [inversion Hin|]. simpl in H. discriminate.
Qed.

(** ** Sums *)
Lemma osum_none_iff {X} (op : X -> X -> X) l :
  osum op l = None <-> forall x, In x l -> x = None.
Proof.
  unfold osum.
  assert (H : forall l o, fold_left (oadd op) l o = None <-> o = None /\ forall x, In x l -> x = None).
  { clear. induction l as [|x l IH]; intro o; simpl.
    - intuition.
    - rewrite IH. destruct o, x; simpl; intuition (subst; try discriminate; auto). }
  rewrite H. intuition.
Qed.

(** A property of the terms that the addition preserves. *)
Lemma osum_closed {X} (op : X -> X -> X) (P : X -> Prop) l :
  (forall a b, P a -> P b -> P (op a b)) -> (forall x, In (Some x) l -> P x) ->
  forall x, osum op l = Some x -> P x.
Proof.
  intros Hop. unfold osum.
  assert (H : forall l o, (forall x, o = Some x -> P x) -> (forall x, In (Some x) l -> P x) ->
     forall x, fold_left (oadd op) l o = Some x -> P x).
  { clear l. induction l as [|y l IH]; intros o Ho Hl x E; simpl in E; auto.
    apply (IH (oadd op o y)) in E; auto.
    - intros z Ez. destruct o, y; simpl in Ez; try (injection Ez as <-); auto.
      + apply Hop; auto. apply Hl; left; auto.
      + apply Hl; left; auto.
    - intros z Hz; apply Hl; right; auto. }
  intros Hl x E. apply (H l None) in E; auto. discriminate.
Qed.

(** Least elements. *)
Lemma osum_nmin l m :
  osum nmin l = Some m <-> In (Some m) l /\ forall x, In (Some x) l -> m <= x.
Proof.
  assert (H : forall l m, osum nmin l = Some m ->
            In (Some m) l /\ forall x, In (Some x) l -> m <= x).
  { clear. unfold osum. 
    assert (K : forall l o m, fold_left (oadd nmin) l o = Some m ->
       (o = Some m \/ In (Some m) l) /\ (forall x, o = Some x -> m <= x) /\
       (forall x, In (Some x) l -> m <= x)).
    { induction l as [|y l IH]; intros o m E; simpl in *.
      - subst. split; [auto|]. split; [|tauto]. intros x Hx. injection Hx as ->. lia.
      - apply IH in E. destruct E as (H1 & H2 & H3). destruct o as [a|], y as [b|]; simpl in *.
        + unfold nmin in *. destruct (Nat.ltb_spec a b).
          * split; [tauto|]. split; [auto|].
            intros x [Hx|Hx]; auto. injection Hx as <-. specialize (H2 a eq_refl). lia.
          * split.
            { destruct H1; auto. }
            split; [intros x Hx; injection Hx as <-; specialize (H2 b eq_refl); lia|].
            intros x [Hx|Hx]; auto.
        + split; [tauto|]. split; [auto|]. intros x [Hx|Hx]; [discriminate|auto].
        + split; [destruct H1 as [H1|H1]; auto|]. split; [discriminate|].
          intros x [Hx|Hx]; auto.
        + split; [destruct H1 as [H1|H1]; [discriminate|auto]|]. split; [discriminate|].
          intros x [Hx|Hx]; [discriminate|auto]. }
    intros l m E. apply K in E. destruct E as ([E|E] & _ & H3); [discriminate|auto]. }
  split; [apply H|]. intros [Hin Hle]. destruct (osum nmin l) as [m'|] eqn:E.
  - f_equal. apply H in E. destruct E as [Hin' Hle'].
    specialize (Hle m' Hin'). specialize (Hle' m Hin). lia.
  - rewrite osum_none_iff in E. specialize (E _ Hin). discriminate.
Qed.

(** ** Walks *)
Section Walks.
Variables (N : nat) (e : nat -> nat -> bool) (R : nat -> Prop).
Hypothesis e_bound : forall u v, e u v = true -> u < N /\ v < N.
Hypothesis R_bound : forall v, R v -> v < N.
Hypothesis R_dec : forall v, R v \/ ~ R v.

Lemma walks_bound k v : walks e R k v -> v < N.
Proof.
  destruct k; simpl; [apply R_bound|]. intros (u & _ & H). apply e_bound in H. tauto.
Qed.

Lemma walks_dec k : forall v, walks e R k v \/ ~ walks e R k v.
Proof.
  induction k as [|k IH]; intro v; simpl; [apply R_dec|].
  assert (H : forall n, (exists u, u < n /\ walks e R k u /\ e u v = true) \/
                        ~ exists u, u < n /\ walks e R k u /\ e u v = true).
  { induction n as [|n [Hn|Hn]].
    - right. intros (u & Hu & _). lia.
    - left. destruct Hn as (u & Hu & H). exists u. split; [lia|auto].
    - destruct (IH n) as [Hw|Hw]; [destruct (e n v) eqn:E|].
      + left. exists n. auto.
      + right. intros (u & Hu & H1 & H2). assert (u = n \/ u < n) as [->|] by lia; [congruence|].
        apply Hn. exists u. auto.
      + right. intros (u & Hu & H1 & H2). assert (u = n \/ u < n) as [->|] by lia; [tauto|].
        apply Hn. exists u. auto. }
  destruct (H N) as [(u & _ & Hu)|Hn].
  - left. exists u. auto.
  - right. intros (u & H1 & H2). apply Hn. exists u. split; [|auto]. apply e_bound in H2. tauto.
Qed.

Lemma walks_least k v : walks e R k v -> exists d, d <= k /\ at_distance e R d v.
Proof.
  revert v. induction k as [k IH] using lt_wf_ind. intros v H.
  assert (D : forall n, (exists j, j < n /\ walks e R j v) \/ forall j, j < n -> ~ walks e R j v).
  { induction n as [|n [Hn|Hn]].
    - right. intros; lia.
    - left. destruct Hn as (j & Hj & Hw). exists j. split; [lia|auto].
    - destruct (walks_dec n v) as [Hw|Hw]; [left; exists n; auto|].
      right. intros j Hj. assert (j = n \/ j < n) as [->|] by lia; auto. }
  destruct (D k) as [(j & Hj & Hw)|Hn].
  - destruct (IH j Hj v Hw) as (d & Hd & Ha). exists d. split; [lia|auto].
  - exists k. split; [lia|]. split; auto.
Qed.

Lemma at_distance_unique k k' v : at_distance e R k v -> at_distance e R k' v -> k = k'.
Proof.
  intros [H1 H2] [H3 H4]. destruct (Nat.lt_trichotomy k k') as [L|[L|L]]; auto.
  - exfalso. exact (H4 k L H1).
  - exfalso. exact (H2 k' L H3).
Qed.

Lemma at_distance_pred k v :
  at_distance e R (S k) v -> exists u, at_distance e R k u /\ e u v = true.
Proof.
  intros [(u & H1 & H2) H3]. exists u. split; [|auto]. split; [auto|].
  intros k' Hk Hw. apply (H3 (S k')); [lia|]. exists u. auto.
Qed.

Lemma at_distance_below k v : at_distance e R k v ->
  forall j, j <= k -> exists u, at_distance e R j u.
Proof.
  revert v. induction k as [|k IH]; intros v H j Hj.
  - exists v. replace j with 0 by lia. auto.
  - destruct (Nat.eq_dec j (S k)) as [->|]; [exists v; auto|].
    apply at_distance_pred in H. destruct H as (u & Hu & _). apply (IH u); auto. lia.
Qed.

Lemma at_distance_lt k v : at_distance e R k v -> k < N.
Proof.
  intro H.
  assert (L : forall m, m <= S k -> exists l, NoDup l /\ length l = m /\
              (forall x, In x l -> exists d, d < m /\ at_distance e R d x)).
  { induction m as [|m IH]; intro Hm.
    - exists []. split; [constructor|]. split; [auto|]. simpl; tauto.
    - destruct IH as (l & ND & Ll & Hl); [lia|].
      destruct (at_distance_below k v H m ltac:(lia)) as (u & Hu).
      exists (u :: l). split.
      + constructor; auto. intro Hin. apply Hl in Hin. destruct Hin as (d & Hd & Ha).
        pose proof (at_distance_unique _ _ _ Hu Ha). lia.
      + split; [simpl; congruence|]. intros x [->|Hx].
        * exists m. auto.
        * apply Hl in Hx. destruct Hx as (d & Hd & Ha). exists d. split; [lia|auto]. }
  destruct (L (S k) (le_n _)) as (l & ND & Ll & Hl).
  assert (I : incl l (seq 0 N)).
  { intros x Hx. apply Hl in Hx. destruct Hx as (d & _ & Ha & _). apply walks_bound in Ha.
    apply in_seq. lia. }
  apply NoDup_incl_length in I; auto. rewrite seq_length in I. lia.
Qed.

(** ** The invariant of breadth first search *)
Definition frontier k (W : nat -> bool) : Prop :=
  forall v, v < N -> (W v = true <-> at_distance e R k v).
Definition levels_upto k (L : nat -> option nat) : Prop :=
  forall v, v < N -> forall x, L v = Some x <-> exists d, x = S d /\ d < k /\ at_distance e R d v.
(** Visited before depth [k]. *)
Definition visited k (V : nat -> bool) : Prop :=
  forall v, v < N -> (V v = true <-> exists d, d < k /\ at_distance e R d v).

Lemma frontier_step k W V V' W' :
  frontier k W -> visited k V ->
  (forall v, v < N -> V' v = V v || W v) ->
  (forall v, v < N -> (W' v = true <->
      V' v = false /\ exists u, u < N /\ W u = true /\ e u v = true)) ->
  frontier (S k) W' /\ visited (S k) V'.
Proof.
  intros FW FV HV HW.
  assert (VS : visited (S k) V').
  { intros v Hv. rewrite (HV v Hv), orb_true_iff, (FV v Hv), (FW v Hv). split.
    - intros [(d & Hd & Ha)|Ha]; [exists d|exists k]; split; auto.
    - intros (d & Hd & Ha). assert (d = k \/ d < k) as [->|] by lia; eauto. }
  split; [|exact VS]. intros v Hv. rewrite (HW v Hv). split.
  - intros (Hn & u & Hu & Wu & Eu). apply (FW u Hu) in Wu. split.
    + exists u. split; [apply Wu|auto].
    + intros k' Hk Hw. apply walks_least in Hw. destruct Hw as (d & Hd & Ha).
      enough (V' v = true) by congruence. apply (VS v Hv). exists d. split; [lia|auto].
  - intro Ha. split.
    + destruct (V' v) eqn:E; auto. apply (VS v Hv) in E. destruct E as (d & Hd & Hb).
      pose proof (at_distance_unique _ _ _ Ha Hb). lia.
    + apply at_distance_pred in Ha. destruct Ha as (u & Hu & Eu). exists u.
      assert (u < N) by (apply e_bound in Eu; tauto). rewrite (FW u); auto.
Qed.

Lemma frontier_start : frontier 0 (fun v => false) -> forall v, ~ R v.
Proof.
  intros F v Hr. enough (false = true) by discriminate. apply (F v); auto.
  split; [exact Hr|]. intros; lia.
Qed.

Lemma at_distance_0 v : at_distance e R 0 v <-> R v.
Proof. split; [intros [H _]; exact H|]. intro H. split; [exact H|]. intros; lia. Qed.

(** When no vertex is at distance [k], none is further. *)
Lemma frontier_end k d v :
  (forall u, u < N -> ~ at_distance e R k u) -> at_distance e R d v -> d < k.
Proof.
  intros Hn Ha. destruct (Nat.ltb_spec d k); auto. exfalso.
  destruct (at_distance_below d v Ha k H) as (u & Hu). apply (Hn u); auto.
  apply (walks_bound k). apply Hu.
Qed.
End Walks.
