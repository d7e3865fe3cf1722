(** Supporting lemmas for PropLocal.v: only the vertices reached matter, and distances are a fixed
    point of the search. *)
From Coq Require Import Lia.
From Verif Require Import Base ModelLil ModelVec Spec SpecGraph SpecPaths SpecMetrics ProofPaths ProofMetrics ProofMonotone.
Local Open Scope nat_scope.

Lemma local_walks (e e' : nat -> nat -> bool) (R : nat -> Prop) :
  (forall u v, reachable e R u -> e u v = e' u v) ->
  forall k v, walks e R k v <-> walks e' R k v.
Proof.
  intros H. induction k as [|k IH]; intros v; simpl; [tauto|]. split; intros (u & A & B); exists u.
  - split; [now apply IH|]. rewrite <- H; [exact B|]. now exists k.
  - apply IH in A. split; [exact A|]. rewrite H; [exact B|]. now exists k.
Qed.
Lemma local_distance (e e' : nat -> nat -> bool) (R : nat -> Prop) :
  (forall u v, reachable e R u -> e u v = e' u v) ->
  forall k v, at_distance e R k v <-> at_distance e' R k v.
Proof.
  intros H k v. pose proof (local_walks e e' R H) as X. unfold at_distance.
  split; intros (A & B); (split; [now apply X|]); intros j L Y; apply (B j L); now apply X.
Qed.

Section Local.
Context (w w' : nat -> nat -> option Z) (P : nat -> Prop).
Context (P_step : forall u v g, P u -> w u v = Some g -> P v).
Context (P_same : forall u v, P u -> w u v = w' u v).

Lemma local_there u v k c : P u -> wwalk w u v k c -> P v /\ wwalk w' u v k c.
Proof.
  intros Hu. induction 1 as [|v t k c g H (IH1 & IH2) E]; [split; [exact Hu|constructor]|].
  split; [eapply P_step; eassumption|]. econstructor; [exact IH2|]. now rewrite <- P_same.
Qed.
Lemma local_back u v k c : P u -> wwalk w' u v k c -> P v /\ wwalk w u v k c.
Proof.
  intros Hu. induction 1 as [|v t k c g H (IH1 & IH2) E]; [split; [exact Hu|constructor]|].
  rewrite <- P_same in E by exact IH1.
  split; [eapply P_step; eassumption|]. econstructor; [exact IH2|exact E].
Qed.
Lemma local_from D k v x : (forall u a, D u = Some a -> P u) -> walk_from w D k v x <-> walk_from w' D k v x.
Proof.
  intros HD. split; intros (u & a & c & A & B & ->); exists u, a, c; (split; [exact A|]); (split; [|reflexivity]);
    [apply local_there|apply local_back]; eauto.
Qed.
Lemma local_shortest D v x : (forall u a, D u = Some a -> P u) -> shortest w D v x <-> shortest w' D v x.
Proof.
  intros HD. unfold shortest. split; intros ((k & A) & B); (split; [exists k; now apply (local_from D)|]);
    intros j y Y; apply (B j); now apply (local_from D).
Qed.
Lemma local_negative D : (forall u a, D u = Some a -> P u) -> negative_cycle w D <-> negative_cycle w' D.
Proof.
  intros HD. split; intros (k & v & x & m & c & A & B & L); exists k, v, x, m, c.
  - split; [now apply (local_from D)|]. split; [|exact L]. destruct A as (u & a & y & A & A' & _).
    apply local_there; [|exact B]. destruct (local_there u v k y (HD u a A) A'). assumption.
  - split; [now apply (local_from D)|]. split; [|exact L]. destruct A as (u & a & y & A & A' & _).
    apply local_back; [|exact B]. destruct (local_back u v k y (HD u a A) A'). assumption.
Qed.
End Local.

(** Distances as initial distances. *)
Section Again.
Context (N : nat) (w : nat -> nat -> option Z) (D E : nat -> option Z).
Context (w_bound : forall u v g, w u v = Some g -> u < N /\ v < N).
Context (D_bound : forall v x, D v = Some x -> v < N).
Context (NC : ~ negative_cycle w D) (HE : forall v x, E v = Some x <-> shortest w D v x).

Lemma again_from k v x : walk_from w E k v x -> exists j, walk_from w D j v x.
Proof.
  intros (u & a & c & A & B & ->). apply HE in A. destruct A as ((j & A) & _). exists (j + k).
  exact (walk_from_app _ _ _ _ _ A _ _ _ B).
Qed.
Lemma again_negative : ~ negative_cycle w E.
Proof.
  intros (k & v & x & m & c & A & B & L). destruct (again_from k v x A) as (j & F). apply NC.
  exists j, v, x, m, c. auto.
Qed.
Lemma again_shortest v x : shortest w E v x <-> E v = Some x.
Proof.
  assert (X : forall x, E v = Some x -> shortest w E v x).
  { intros y Hy. split; [exists 0; now apply walk_from_0|]. intros k z Hz.
    destruct (again_from k v z Hz) as (j & F). apply HE in Hy. destruct Hy as (_ & M). exact (M j z F). }
  split; [|apply X]. intros S. destruct S as ((k & A) & M).
  destruct (again_from k v x A) as (j & F). destruct (least_walk N w D w_bound D_bound j v x NC F) as (d & Hd).
  apply HE in Hd. rewrite Hd. f_equal. destruct (X d Hd) as ((i & B) & M').
  specialize (M i d B). specialize (M' k x A). lia.
Qed.
Lemma again_closed u v a g : E u = Some a -> w u v = Some g -> exists b, E v = Some b /\ (b <= a + g)%Z.
Proof.
  intros A B. apply HE in A. destruct A as ((k & A) & _).
  pose proof (walk_from_app _ _ _ _ _ A _ _ _ (wwalk_edge w u v g B)) as F.
  destruct (least_walk N w D w_bound D_bound _ v _ NC F) as (d & Hd). exists d.
  split; [now apply HE|]. destruct Hd as (_ & M). exact (M _ _ F).
Qed.
Lemma again_below v x : D v = Some x -> exists b, E v = Some b /\ (b <= x)%Z.
Proof.
  intros A. apply (walk_from_0 w) in A.
  destruct (least_walk N w D w_bound D_bound _ v _ NC A) as (d & Hd). exists d.
  split; [now apply HE|]. destruct Hd as (_ & M). exact (M _ _ A).
Qed.
End Again.

(** Distances as weights. *)
Section Closure.
Context (N : nat) (w d : nat -> nat -> option Z).
Context (w_bound : forall u v g, w u v = Some g -> u < N /\ v < N).
Context (NN : no_negative_cycle w).
Context (d_bound : forall u v g, d u v = Some g -> u < N /\ v < N).
Context (Hd : forall u v x, u < N -> (d u v = Some x <-> distance w u v x)).

Lemma distance_exists u v k c : u < N -> wwalk w u v k c -> exists x, distance w u v x /\ (x <= c)%Z.
Proof.
  intros Hu H. set (D0 := fun t => if t =? u then Some 0%Z else None).
  assert (F : walk_from w D0 k v c).
  { exists u, 0%Z, c. split; [unfold D0; now rewrite Nat.eqb_refl|]. split; [exact H|lia]. }
  destruct (least_walk N w D0 w_bound) with (k := k) (v := v) (x := c) as (x & X).
  - intros a y. unfold D0. destruct (Nat.eqb_spec a u); [now subst|discriminate].
  - now apply no_negative.
  - exact F.
  - exists x. apply (shortest_source w D0 u v x) in X; [|reflexivity]. split; [exact X|].
    destruct X as (_ & M). exact (M k c H).
Qed.
Lemma closure_walk u v k c : wwalk d u v k c -> exists j, wwalk w u v j c.
Proof.
  induction 1 as [|v t k c g _ (j & IH) E]; [exists 0; constructor|].
  destruct (d_bound v t g E) as (Hv & _). apply Hd in E; [|exact Hv]. destruct E as ((m & M) & _).
  exists (j + m). exact (wwalk_app _ _ _ _ _ IH _ _ _ M).
Qed.
Lemma closure_nonneg : no_negative_cycle d.
Proof. intros v k c H. destruct (closure_walk v v k c H) as (j & J). exact (NN v j c J). Qed.
Lemma closure_distance u v x : u < N -> distance d u v x <-> d u v = Some x.
Proof.
  intros Hu.
  assert (X : forall y, d u v = Some y -> distance d u v y).
  { intros y Hy. split; [exists 1; now apply wwalk_edge|]. intros k z Hz.
    destruct (closure_walk u v k z Hz) as (j & J). apply Hd in Hy; [|exact Hu]. destruct Hy as (_ & M). exact (M j z J). }
  split; [|apply X]. intros ((k & K) & M). destruct (closure_walk u v k x K) as (j & J).
  destruct (distance_exists u v j x Hu J) as (y & Y & L). apply Hd in Y; [|exact Hu]. rewrite Y. f_equal.
  specialize (M 1 y (wwalk_edge d u v y Y)). lia.
Qed.
Lemma closure_triangle u t v a b : d u t = Some a -> d t v = Some b -> exists c, d u v = Some c /\ (c <= a + b)%Z.
Proof.
  intros A B. destruct (d_bound u t a A) as (Hu & Ht).
  apply Hd in A; [|exact Hu]. apply Hd in B; [|exact Ht]. destruct A as ((i & A) & _), B as ((j & B) & _).
  destruct (distance_exists u v (i + j) (a + b)%Z Hu) as (x & X & L); [exact (wwalk_app _ _ _ _ _ A _ _ _ B)|].
  exists x. split; [now apply Hd|exact L].
Qed.
Lemma closure_below u v g : w u v = Some g -> exists c, d u v = Some c /\ (c <= g)%Z.
Proof.
  intros A. destruct (w_bound u v g A) as (Hu & _).
  destruct (distance_exists u v 1 g Hu (wwalk_edge w u v g A)) as (x & X & L).
  exists x. split; [now apply Hd|exact L].
Qed.
End Closure.
