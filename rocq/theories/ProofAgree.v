(** Answers that a specification determines uniquely, for C163. *)
From Coq Require Import Lia.
From Verif Require Import Base ModelLil ModelVec Spec SpecGraph SpecPaths SpecTriangle SpecTruss SpecFlow
  ProofGraph ProofPaths.

Lemma same_option {A : Type} (a b : option A) (P : A -> Prop) :
  (forall x, a = Some x <-> P x) -> (forall x, b = Some x <-> P x) -> a = b.
Proof.
  intros Ha Hb. destruct a as [x|].
  - symmetry. apply Hb, Ha. reflexivity.
  - destruct b as [y|]; auto. apply Ha, Hb. reflexivity.
Qed.

Lemma largest_unique N t h h' e :
  largest_supported N t h e -> largest_supported N t h' e -> forall u v, h u v = h' u v.
Proof.
  intros (S & Y & P & L) (S' & Y' & P' & L') u v.
  pose proof (L h' S' Y' P' u v). pose proof (L' h S Y P u v).
  destruct (h u v), (h' u v); auto; symmetry; auto.
Qed.

Lemma largest_ext N t h e e' :
  (forall u v, e u v = e' u v) -> largest_supported N t h e -> largest_supported N t h e'.
Proof.
  intros E (S & Y & P & L). repeat split; auto.
  - intros u v Hu. rewrite <- E. auto.
  - intros h' S' Y' P'. apply L; auto. intros u v Hu. rewrite E. auto.
Qed.

Lemma max_flow_unique N cap s t x y : is_max_flow N cap s t x -> is_max_flow N cap s t y -> x = y.
Proof.
  intros ((f & F & Fx) & X) ((g & Gf & Gy) & Y).
  pose proof (X g Gf). pose proof (Y f F). lia.
Qed.

(** With one source at 0, the shortest length is the distance. *)
Lemma shortest_distance w D0 s v x :
  (forall u, D0 u = if u =? s then Some 0%Z else None) ->
  (shortest w D0 v x <-> distance w s v x).
Proof.
  intros D.
  assert (W : forall k y, walk_from w D0 k v y <-> wwalk w s v k y).
  { intros k y. split.
    - intros (u & a & c & Hu & Hw & ->). rewrite D in Hu. destruct (Nat.eqb_spec u s); [|discriminate].
      injection Hu as <-. subst. exact Hw.
    - intros Hw. exists s, 0%Z, y. rewrite D, Nat.eqb_refl. auto. }
  unfold shortest, distance. split; intros ((k & Hk) & L); (split; [exists k; now apply W|]);
    intros m y Hy; apply (L m), W, Hy.
Qed.

(** All weights positive: no negative cycle. *)
Lemma wwalk_pos w u v k c : (forall a b g, w a b = Some g -> (0 < g)%Z) -> wwalk w u v k c -> (0 <= c)%Z.
Proof. intros P H. induction H; [lia|]. apply P in H0. lia. Qed.

(** All weights one: the cost is the number of edges. *)
Lemma wwalk_unit w u v k c :
  (forall a b g, w a b = Some g -> g = 1%Z) -> wwalk w u v k c ->
  c = Z.of_nat k /\ walks (fun a b => is_some (w a b)) (eq u) k v.
Proof.
  intros P H. induction H as [|v t k c g H [-> IH] E]; [split; auto; reflexivity|].
  split; [rewrite (P _ _ _ E); lia|]. exists v. split; auto. rewrite E. reflexivity.
Qed.
Lemma walks_unit w u k v :
  (forall a b g, w a b = Some g -> g = 1%Z) ->
  walks (fun a b => is_some (w a b)) (eq u) k v -> wwalk w u v k (Z.of_nat k).
Proof.
  intros P. revert v. induction k as [|k IH]; intros v.
  - intros <-. constructor.
  - intros (t & Ht & E). destruct (w t v) as [g|] eqn:Eg; [|discriminate].
    replace (Z.of_nat (S k)) with (Z.of_nat k + g)%Z by (rewrite (P _ _ _ Eg); lia).
    econstructor; eauto.
Qed.
Lemma unit_distance w u v x :
  (forall a b g, w a b = Some g -> g = 1%Z) ->
  (distance w u v x <->
   exists d, x = Z.of_nat d /\ at_distance (fun a b => is_some (w a b)) (eq u) d v).
Proof.
  intros P. split.
  - intros ((k & Hk) & L). destruct (wwalk_unit _ _ _ _ _ P Hk) as (-> & W).
    exists k. split; auto. split; auto. intros k' Lk W'.
    apply walks_unit in W'; auto. apply L in W'. lia.
  - intros (d & -> & W & M). split; [exists d; now apply walks_unit|].
    intros k y Hy. destruct (wwalk_unit _ _ _ _ _ P Hy) as (-> & W').
    destruct (Nat.lt_ge_cases k d) as [l|g]; [|lia]. elim (M k l W').
Qed.

Lemma at_distance_roots e R R' k v :
  (forall u, R u <-> R' u) -> (at_distance e R k v <-> at_distance e R' k v).
Proof.
  intros E. assert (W : forall j t, walks e R j t <-> walks e R' j t).
  { induction j as [|j IH]; intros t; simpl; [apply E|].
    split; intros (u & Hu & Ee); exists u; (split; [now apply IH|auto]). }
  unfold at_distance. rewrite W. split; intros (A & B); split; auto; intros k' L; rewrite ?W; auto;
    intro C; apply (B k' L), W, C.
Qed.
