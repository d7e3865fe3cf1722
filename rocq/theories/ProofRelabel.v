(** What a renumbering of the vertices does to the specifications of the algorithms. *)
From Coq Require Import Lia QArith Qcanon Permutation.
From Verif Require Import Base ModelLil ModelVec Spec SpecRank SpecBc SpecGraph SpecPaths SpecTriangle SpecTruss SpecFlow SpecRelabel
  ProofBase ProofLil ProofViews ProofVis ProofRank ProofContainers ProofPaths.
Local Open Scope nat_scope.

Lemma renumbering_sym N p q : renumbering N p q -> renumbering N q p.
Proof. intros (A & B). split; auto. Qed.
Lemma renumbered_sym {T : Type} N p q (G G' : lil T) : renumbered N p q G G' -> renumbered N q p G' G.
Proof.
  intros (R & W & A & B & W' & A' & B' & E). split; [now apply renumbering_sym|].
  repeat (split; [assumption|]). intros u v Hu Hv. destruct R as (R1 & R2).
  destruct (R2 u Hu) as (Hu1 & Hu2), (R2 v Hv) as (Hv1 & Hv2).
  rewrite <- E by auto. congruence.
Qed.

Section Perm.
Context (N : nat) (p q : nat -> nat) (R : renumbering N p q).

Lemma p_lt u : u < N -> p u < N.
Proof. intros; now apply R. Qed.
Lemma q_lt u : u < N -> q u < N.
Proof. intros; now apply R. Qed.
Lemma qp u : u < N -> q (p u) = u.
Proof. intros; now apply R. Qed.
Lemma pq u : u < N -> p (q u) = u.
Proof. intros; now apply R. Qed.
Lemma p_inj u v : u < N -> v < N -> p u = p v -> u = v.
Proof. intros Hu Hv E. rewrite <- (qp u Hu), <- (qp v Hv). congruence. Qed.
Lemma p_eqb u v : u < N -> v < N -> (p u =? p v) = (u =? v).
Proof.
  intros Hu Hv. destruct (Nat.eqb_spec u v) as [->|D]; [apply Nat.eqb_refl|].
  apply Nat.eqb_neq. intro E. apply D, p_inj; auto.
Qed.

Lemma perm_seq : Permutation (seq 0 N) (map p (seq 0 N)).
Proof.
  apply NoDup_Permutation_bis.
  - apply seq_NoDup.
  - rewrite map_length. lia.
  - intros u Hu. apply in_seq in Hu. apply in_map_iff. exists (q u). split; [apply pq; lia|].
    apply in_seq. pose proof (q_lt u). lia.
Qed.

Lemma count_perm (f g : nat -> bool) :
  (forall u, u < N -> g (p u) = f u) ->
  length (filter g (seq 0 N)) = length (filter f (seq 0 N)).
Proof.
  intros E. transitivity (length (filter g (map p (seq 0 N)))).
  - apply Permutation_length, filter_perm, perm_seq.
  - assert (H : forall l, Forall (fun u => u < N) l -> length (filter g (map p l)) = length (filter f l)).
    { induction 1 as [|u l Hu _ IH]; auto. simpl. rewrite E by auto. destruct (f u); simpl; congruence. }
    apply H. apply Forall_forall. intros u Hu. apply in_seq in Hu. lia.
Qed.
Lemma zsum_perm (f g : nat -> Z) : (forall u, u < N -> g (p u) = f u) -> zsum N g = zsum N f.
Proof.
  intros E. unfold zsum.
  assert (P : forall l l', Permutation l l' -> fold_right Z.add 0%Z (map g l) = fold_right Z.add 0%Z (map g l')).
  { induction 1; simpl; lia. }
  rewrite (P _ _ perm_seq), map_map. f_equal. apply map_ext_in. intros u Hu. apply in_seq in Hu. apply E. lia.
Qed.
Lemma qsum_list f n : qsum n f = fold_right Qcplus 0%Qc (map f (seq 0 n)).
Proof.
  induction n as [|n IH]; [reflexivity|]. rewrite seq_S, map_app, fold_right_app. simpl qsum. rewrite IH. simpl.
  generalize (seq 0 n). clear. intros l. rewrite Qcplus_0_r. induction l as [|a l IH]; simpl; [ring|]. rewrite <- IH. ring.
Qed.
Lemma qsum_perm (f g : nat -> Qc) : (forall u, u < N -> g (p u) = f u) -> qsum N g = qsum N f.
Proof.
  intros E. rewrite !qsum_list.
  assert (P : forall l l', Permutation l l' -> fold_right Qcplus 0%Qc (map g l) = fold_right Qcplus 0%Qc (map g l')).
  { induction 1; simpl; try congruence. ring. }
  rewrite (P _ _ perm_seq), map_map. f_equal. apply map_ext_in. intros u Hu. apply in_seq in Hu. apply E. lia.
Qed.
End Perm.

Section Graph.
Context {T : Type} (N : nat) (p q : nat -> nat) (G G' : lil T) (RN : renumbered N p q G G').

Lemma ren_inside u v x : mget G u v = Some x -> u < N /\ v < N.
Proof.
  destruct RN as (_ & W & A & B & _). intros E.
  destruct (Nat.lt_ge_cases u N), (Nat.lt_ge_cases v N); auto;
    rewrite mget_oob in E by (auto; lia); discriminate.
Qed.
Lemma ren_get u v x : mget G u v = Some x -> mget G' (p u) (p v) = Some x.
Proof. intros E. destruct (ren_inside _ _ _ E). destruct RN as (_ & _ & _ & _ & _ & _ & _ & M). rewrite M; auto. Qed.
Lemma ren_edge_inside u v : edge G u v = true -> u < N /\ v < N.
Proof. unfold edge. destruct (mget G u v) eqn:E; [|discriminate]. intros _. eapply ren_inside; eauto. Qed.
Lemma ren_edge u v : u < N -> v < N -> edge G' (p u) (p v) = edge G u v.
Proof. intros. unfold edge. destruct RN as (_ & _ & _ & _ & _ & _ & _ & M). rewrite M; auto. Qed.

Lemma ren_walks1 s k v : s < N -> walks (edge G) (eq s) k v -> v < N /\ walks (edge G') (eq (p s)) k (p v).
Proof.
  intros Hs. revert v. induction k as [|k IH]; intros v; simpl; [intros <-; auto|].
  intros (u & Hu & E). apply IH in Hu. destruct Hu as (Hu & W). destruct (ren_edge_inside _ _ E).
  split; auto. exists (p u). rewrite ren_edge; auto.
Qed.
End Graph.

Section Walks.
Context {T : Type} (N : nat) (p q : nat -> nat) (G G' : lil T) (RN : renumbered N p q G G').

Lemma ren_walks s k v : s < N -> v < N ->
  (walks (edge G) (eq s) k v <-> walks (edge G') (eq (p s)) k (p v)).
Proof.
  intros Hs Hv. split.
  - intros W. eapply ren_walks1 in W; eauto. apply W.
  - intros W. eapply (ren_walks1 N q p) in W; [|apply renumbered_sym; exact RN|apply p_lt with (q := q); [apply RN|auto]].
    destruct W as (_ & W). rewrite !(qp N p q) in W by (auto; apply RN). exact W.
Qed.
Lemma ren_at_distance s k v : s < N -> v < N ->
  (at_distance (edge G) (eq s) k v <-> at_distance (edge G') (eq (p s)) k (p v)).
Proof.
  intros Hs Hv. unfold at_distance. rewrite (ren_walks s k v Hs Hv).
  split; intros (A & B); split; auto; intros k' L C; apply (B k' L); revert C; apply ren_walks; auto.
Qed.

(** Trusses. *)
Lemma ren_supported (t : nat) (h h' : nat -> nat -> bool) :
  (forall u v, h u v = true -> u < N /\ v < N) -> (forall u v, h' u v = true -> u < N /\ v < N) ->
  (forall u v, u < N -> v < N -> h' (p u) (p v) = h u v) ->
  supported N t h -> supported N t h'.
Proof.
  intros I I' E S u v Hu. destruct (I' _ _ Hu) as (Lu & Lv). destruct RN as (R & _).
  rewrite <- (pq N p q R u Lu), <- (pq N p q R v Lv) in Hu.
  rewrite E in Hu by (eapply q_lt; eauto). apply S in Hu.
  unfold support in *. rewrite (count_perm N p q R (fun w => h (q u) w && h w (q v))%bool); [exact Hu|].
  intros w Hw. rewrite <- (pq N p q R u Lu) at 1. rewrite <- (pq N p q R v Lv) at 1.
  rewrite !E; auto; eapply q_lt; eauto.
Qed.
End Walks.

Lemma ren_largest {T : Type} N p q (G G' : lil T) t h h' :
  renumbered N p q G G' ->
  largest_supported N t h (edge G) -> largest_supported N t h' (edge G') ->
  forall u v, u < N -> v < N -> h u v = true -> h' (p u) (p v) = true.
Proof.
  intros RN (S & Y & P & L) (S' & Y' & P' & L') u v Hu Hv E.
  assert (R : renumbering N p q) by apply RN.
  pose (k := fun a b => ((a <? N) && (b <? N) && h (q a) (q b))%bool).
  assert (K : forall a b, a < N -> b < N -> k (p a) (p b) = h a b).
  { intros a b Ha Hb. unfold k. rewrite !(qp N p q R) by auto.
    rewrite (proj2 (Nat.ltb_lt _ _) (p_lt N p q R a Ha)), (proj2 (Nat.ltb_lt _ _) (p_lt N p q R b Hb)). reflexivity. }
  assert (I : forall a b, k a b = true -> a < N /\ b < N).
  { unfold k. intros a b H. apply Bool.andb_true_iff in H. destruct H as (H & _).
    apply Bool.andb_true_iff in H. rewrite !Nat.ltb_lt in H. exact H. }
  apply (L' k).
  - intros a b H. destruct (I _ _ H) as (Ha & Hb).
    rewrite <- (pq N p q R a Ha), <- (pq N p q R b Hb) in *.
    pose proof (q_lt N p q R a Ha). pose proof (q_lt N p q R b Hb).
    rewrite K in H by auto. rewrite (ren_edge N p q G G' RN) by auto. auto.
  - intros a b. unfold k. rewrite (Y (q a)), (Bool.andb_comm (a <? N)). reflexivity.
  - apply (ren_supported N p q G G' RN t h k); auto.
    intros a b H. apply S in H. eapply ren_edge_inside; eauto.
  - rewrite K; auto.
Qed.

(** Weighted walks. *)
Section Weighted.
Context (N : nat) (p q : nat -> nat) (G G' : lil Z) (RN : renumbered N p q G G').
Lemma ren_wwalk1 u v k c : u < N -> wwalk (mget G) u v k c -> v < N /\ wwalk (mget G') (p u) (p v) k c.
Proof.
  intros Hu H. induction H as [|v t k c g H (Hv & IH) E]; [split; auto; constructor|].
  destruct (ren_inside N p q G G' RN _ _ _ E). split; auto. econstructor; eauto. eapply ren_get; eauto.
Qed.
End Weighted.
Section Weighted2.
Context (N : nat) (p q : nat -> nat) (G G' : lil Z) (RN : renumbered N p q G G').
Lemma ren_wwalk u v k c : u < N -> v < N -> (wwalk (mget G) u v k c <-> wwalk (mget G') (p u) (p v) k c).
Proof.
  intros Hu Hv. split.
  - intros W. eapply ren_wwalk1 in W; eauto. apply W.
  - intros W. eapply (ren_wwalk1 N q p) in W; [|apply renumbered_sym; exact RN|apply p_lt with (q := q); [apply RN|auto]].
    destruct W as (_ & W). rewrite !(qp N p q) in W by (auto; apply RN). exact W.
Qed.
Lemma ren_distance u v x : u < N -> v < N -> (distance (mget G) u v x <-> distance (mget G') (p u) (p v) x).
Proof.
  intros Hu Hv. unfold distance. split; intros ((k & W) & L); (split; [exists k; apply (ren_wwalk u v k x); auto|]);
    intros m y Hy; apply (L m); apply (ren_wwalk u v); auto.
Qed.
Context (D0 D0' : nat -> option Z).
Hypothesis I0 : forall u, N <= u -> D0 u = None.
Hypothesis I0' : forall u, N <= u -> D0' u = None.
Hypothesis E0 : forall u, u < N -> D0' (p u) = D0 u.
Lemma ren_from k v x : v < N -> (walk_from (mget G) D0 k v x <-> walk_from (mget G') D0' k (p v) x).
Proof.
  intros Hv. assert (R : renumbering N p q) by apply RN. split.
  - intros (u & a & c & Hu & W & ->). assert (u < N).
    { destruct (Nat.lt_ge_cases u N); auto. rewrite I0 in Hu by auto. discriminate. }
    exists (p u), a, c. rewrite E0 by auto. split; auto. split; auto. apply ren_wwalk; auto.
  - intros (u & a & c & Hu & W & ->). assert (u < N).
    { destruct (Nat.lt_ge_cases u N); auto. rewrite I0' in Hu by auto. discriminate. }
    rewrite <- (pq N p q R u) in Hu, W by auto. pose proof (q_lt N p q R u H).
    rewrite E0 in Hu by auto. exists (q u), a, c. split; auto. split; auto. apply ren_wwalk; auto.
Qed.
Lemma ren_shortest v x : v < N -> (shortest (mget G) D0 v x <-> shortest (mget G') D0' (p v) x).
Proof.
  intros Hv. unfold shortest. split; intros ((k & W) & L); (split; [exists k; apply (ren_from k v x); auto|]);
    intros m y Hy; apply (L m); apply (ren_from m v y); auto.
Qed.
Lemma ren_neg1 : negative_cycle (mget G) D0 -> negative_cycle (mget G') D0'.
Proof.
  intros (k & v & x & m & c & F & W & C).
  assert (v < N).
  { destruct F as (u & a & c' & Hu & Wu & _).
    assert (u < N). { destruct (Nat.lt_ge_cases u N); auto. rewrite I0 in Hu by auto. discriminate. }
    eapply ren_wwalk1 in Wu; eauto. apply Wu. }
  exists k, (p v), x, m, c. split; [apply ren_from; auto|]. split; [apply ren_wwalk; auto|exact C].
Qed.
End Weighted2.

(** Flows. *)
Lemma ren_flow N p q cap cap' s t f :
  renumbering N p q -> s < N -> t < N ->
  (forall u v, u < N -> v < N -> cap' (p u) (p v) = cap u v) ->
  is_flow N cap s t f ->
  is_flow N cap' (p s) (p t) (fun u v => f (q u) (q v)) /\
  flow_value N (p t) (fun u v => f (q u) (q v)) = flow_value N t f.
Proof.
  intros R Hs Ht E (A & B & C). split; [split; [|split]|].
  - intros u v Hu Hv. apply A; eapply q_lt; eauto.
  - intros u v Hu Hv. rewrite <- (pq N p q R u Hu) at 2. rewrite <- (pq N p q R v Hv) at 2.
    rewrite E by (eapply q_lt; eauto). apply B; eapply q_lt; eauto.
  - intros v Hv Ds Dt. rewrite (zsum_perm N p q R (fun u => f u (q v))).
    + apply C; [eapply q_lt; eauto| |]; intro H; [apply Ds|apply Dt]; rewrite <- H; symmetry; eapply pq; eauto.
    + intros u Hu. rewrite (qp N p q R u Hu). reflexivity.
  - unfold flow_value. apply (zsum_perm N p q R). intros u Hu. rewrite !(qp N p q R) by auto. reflexivity.
Qed.
Lemma ren_max_flow N p q cap cap' s t x y :
  renumbering N p q -> s < N -> t < N ->
  (forall u v, u < N -> v < N -> cap' (p u) (p v) = cap u v) ->
  is_max_flow N cap s t x -> is_max_flow N cap' (p s) (p t) y -> x = y.
Proof.
  intros R Hs Ht E ((f & F & Fx) & X) ((g & Gf & Gy) & Y).
  destruct (ren_flow N p q cap cap' s t f R Hs Ht E F) as (F' & V).
  assert (E' : forall u v, u < N -> v < N -> cap (q u) (q v) = cap' u v).
  { intros u v Hu Hv. rewrite <- E by (eapply q_lt; eauto). rewrite !(pq N p q R) by auto. reflexivity. }
  destruct (ren_flow N q p cap' cap (p s) (p t) g (renumbering_sym _ _ _ R) (p_lt _ _ _ R _ Hs) (p_lt _ _ _ R _ Ht) E' Gf) as (G' & V').
  rewrite (qp N p q R s Hs), (qp N p q R t Ht) in G'. rewrite (qp N p q R t Ht) in V'.
  specialize (Y _ F'). specialize (X _ G'). lia.
Qed.

(** Triangles. *)
Definition sort3 (a b c : nat) : nat * nat * nat :=
  let lo := Nat.min a (Nat.min b c) in
  let hi := Nat.max a (Nat.max b c) in
  (lo, a + b + c - lo - hi, hi).
Definition tri_list (N : nat) (e : nat -> nat -> bool) :=
  filter (fun '(i, j, k) => ((i <? j) && (j <? k) && e i j && e j k && e i k)%bool)
         (list_prod (list_prod (seq 0 N) (seq 0 N)) (seq 0 N)).
Lemma in_tri N e i j k :
  In (i, j, k) (tri_list N e) <->
  i < j /\ j < k /\ k < N /\ e i j = true /\ e j k = true /\ e i k = true.
Proof.
  unfold tri_list. rewrite filter_In, !in_prod_iff, !in_seq, !Bool.andb_true_iff, !Nat.ltb_lt. intuition lia.
Qed.
Lemma NoDup_prod {A B : Type} (l : list A) (m : list B) : NoDup l -> NoDup m -> NoDup (list_prod l m).
Proof.
  intros Hl Hm. induction Hl as [|a l Ha _ IH]; [constructor|]. simpl.
  assert (D : forall (x y : list (A * B)), NoDup x -> NoDup y -> (forall z, In z x -> In z y -> False) -> NoDup (x ++ y)).
  { clear. induction 1 as [|z x Hz _ IH]; simpl; auto. intros Hy Dj. constructor.
    - rewrite in_app_iff. intros [H|H]; [auto|]. apply (Dj z); auto.
    - apply IH; auto. intros w H1 H2. apply (Dj w); auto. }
  apply D; auto.
  - clear -Hm. induction Hm as [|b m Hb _ IH]; constructor; auto.
    intros H. apply in_map_iff in H. destruct H as (z & E & Hz). injection E as ->. auto.
  - intros z H1 H2. apply in_map_iff in H1. destruct H1 as (b & <- & _). apply in_prod_iff in H2. apply Ha, H2.
Qed.
Lemma NoDup_map_on {A B : Type} (f : A -> B) (l : list A) :
  NoDup l -> (forall x y, In x l -> In y l -> f x = f y -> x = y) -> NoDup (map f l).
Proof.
  induction 1 as [|x l Hx _ IH]; intros I; simpl; constructor.
  - intros H. apply in_map_iff in H. destruct H as (y & E & Hy). apply Hx.
    rewrite <- (I y x) by (simpl; auto). exact Hy.
  - apply IH. intros; apply I; simpl; auto.
Qed.
Lemma sort3_cases a b c : a <> b -> b <> c -> a <> c ->
  let '(x, y, z) := sort3 a b c in
  x < y /\ y < z /\
  ((x, y, z) = (a, b, c) \/ (x, y, z) = (a, c, b) \/ (x, y, z) = (b, a, c) \/
   (x, y, z) = (b, c, a) \/ (x, y, z) = (c, a, b) \/ (x, y, z) = (c, b, a)).
Proof.
  intros D1 D2 D3. unfold sort3.
  destruct (Nat.lt_ge_cases a b), (Nat.lt_ge_cases b c), (Nat.lt_ge_cases a c); try lia.
  - rewrite (Nat.min_l b c), (Nat.min_l a b), (Nat.max_r b c), (Nat.max_r a c) by lia.
    split; [lia|split; [lia|]]. left. repeat f_equal; lia.
  - rewrite (Nat.min_r b c), (Nat.min_l a c), (Nat.max_l b c), (Nat.max_r a b) by lia.
    split; [lia|split; [lia|]]. right; left. repeat f_equal; lia.
  - rewrite (Nat.min_r b c), (Nat.min_r a c), (Nat.max_l b c), (Nat.max_r a b) by lia.
    split; [lia|split; [lia|]]. right; right; right; right; left. repeat f_equal; lia.
  - rewrite (Nat.min_l b c), (Nat.min_r a b), (Nat.max_r b c), (Nat.max_r a c) by lia.
    split; [lia|split; [lia|]]. right; right; left. repeat f_equal; lia.
  - rewrite (Nat.min_l b c), (Nat.min_r a b), (Nat.max_r b c), (Nat.max_l a c) by lia.
    split; [lia|split; [lia|]]. right; right; right; left. repeat f_equal; lia.
  - rewrite (Nat.min_r b c), (Nat.min_r a c), (Nat.max_l b c), (Nat.max_l a b) by lia.
    split; [lia|split; [lia|]]. right; right; right; right; right. repeat f_equal; lia.
Qed.
Lemma tri_le N p q e e' :
  renumbering N p q -> (forall u v, u < N -> v < N -> e' (p u) (p v) = e u v) ->
  (forall u v, e' u v = e' v u) -> triangles N e <= triangles N e'.
Proof.
  intros R E Y.
  change (length (tri_list N e) <= length (tri_list N e')).
  rewrite <- (map_length (fun '(i, j, k) => sort3 (p i) (p j) (p k)) (tri_list N e)).
  apply NoDup_incl_length.
  - apply NoDup_map_on.
    + apply NoDup_filter, NoDup_prod; [apply NoDup_prod|]; apply seq_NoDup.
    + intros [[i j] k] [[i' j'] k'] H H' Eq. apply in_tri in H. apply in_tri in H'.
      destruct H as (H1 & H2 & H3 & _), H' as (H1' & H2' & H3' & _).
      assert (I : forall a b, a < N -> b < N -> p a = p b -> a = b) by (intros; eapply p_inj; eauto).
      pose proof (sort3_cases (p i) (p j) (p k)) as C. pose proof (sort3_cases (p i') (p j') (p k')) as C'.
      destruct (sort3 (p i) (p j) (p k)) as [[x y] z]. rewrite <- Eq in C'.
      destruct C as (_ & _ & C); [intro A; apply I in A; lia ..|].
      destruct C' as (_ & _ & C'); [intro A; apply I in A; lia ..|].
      assert (S : forall a b c a' b' c' : nat, (a, b, c) = (a', b', c') -> a = a' /\ b = b' /\ c = c')
        by (intros; repeat split; congruence).
      assert (In i [i'; j'; k'] /\ In j [i'; j'; k'] /\ In k [i'; j'; k']) as (A1 & A2 & A3).
      { assert (M : forall a, a < N -> In (p a) [p i'; p j'; p k'] -> In a [i'; j'; k']).
        { intros a La [A|[A|[A|[]]]]; apply I in A; subst; simpl; auto; lia. }
        assert (X : forall a, In a [p i; p j; p k] -> In a [x; y; z]).
        { intros a Ha. simpl in Ha. clear -Ha C S. decompose [or] C; match goal with H : (_, _, _) = _ |- _ => apply S in H end;
            simpl; intuition (subst; auto). }
        assert (X' : forall a, In a [x; y; z] -> In a [p i'; p j'; p k']).
        { intros a Ha. simpl in Ha. clear -Ha C' S. decompose [or] C'; match goal with H : (_, _, _) = _ |- _ => apply S in H end;
            simpl; intuition (subst; auto). }
        repeat split; apply M; try lia; apply X', X; simpl; auto. }
      simpl in A1, A2, A3. assert (i = i' /\ j = j' /\ k = k') as (-> & -> & ->) by lia. reflexivity.
  - intros t Ht. apply in_map_iff in Ht. destruct Ht as ([[i j] k] & <- & H). apply in_tri in H.
    destruct H as (H1 & H2 & H3 & E1 & E2 & E3).
    rewrite <- E in E1, E2, E3 by lia.
    pose proof (sort3_cases (p i) (p j) (p k)) as C. destruct (sort3 (p i) (p j) (p k)) as [[x y] z].
    assert (I : forall a b, a < N -> b < N -> p a = p b -> a = b) by (intros; eapply p_inj; eauto).
    destruct C as (L1 & L2 & C); [intro A; apply I in A; lia ..|].
    pose proof (p_lt N p q R i). pose proof (p_lt N p q R j). pose proof (p_lt N p q R k).
    apply in_tri. split; auto. split; auto.
    assert (F1 : e' (p j) (p i) = true) by (rewrite Y; auto).
    assert (F2 : e' (p k) (p j) = true) by (rewrite Y; auto).
    assert (F3 : e' (p k) (p i) = true) by (rewrite Y; auto).
    decompose [or] C; match goal with H : (_, _, _) = _ |- _ => injection H as -> -> -> end;
      repeat split; auto; lia.
Qed.

(** Shortest paths. *)
Lemma flat_map_perm {A B C : Type} (r : A -> B) (h : C -> C) (f : A -> list C) (g : B -> list C) (l : list A) :
  (forall a, In a l -> Permutation (map h (f a)) (g (r a))) ->
  Permutation (map h (flat_map f l)) (flat_map g (map r l)).
Proof.
  induction l as [|a l IH]; intros E; simpl; [constructor|]. rewrite map_app.
  apply Permutation_app; [apply E; simpl; auto|apply IH; intros; apply E; simpl; auto].
Qed.
Lemma filter_map_on {A B : Type} (f : A -> bool) (g : B -> bool) (h : A -> B) (l : list A) :
  (forall a, In a l -> g (h a) = f a) -> filter g (map h l) = map h (filter f l).
Proof.
  induction l as [|a l IH]; intros E; simpl; auto. rewrite E by (simpl; auto).
  rewrite IH by (intros; apply E; simpl; auto). destruct (f a); reflexivity.
Qed.

Section Bc.
Context (N : nat) (p q : nat -> nat) (e e' : nat -> nat -> bool).
Hypothesis R : renumbering N p q.
Hypothesis E : forall u v, u < N -> v < N -> e' (p u) (p v) = e u v.

Lemma bwalks_inside k u w : u < N -> In w (SpecBc.walks N e k u) -> Forall (fun v => v < N) w.
Proof.
  clear -R. revert u w. induction k as [|k IH]; intros u w Hu; simpl.
  - intros [<-|[]]. repeat constructor; auto.
  - intros H. apply in_flat_map in H. destruct H as (v & Hv & H). apply in_seq in Hv.
    destruct (e u v); [|elim H]. apply in_map_iff in H. destruct H as (w' & <- & H).
    constructor; auto. apply IH in H; auto. lia.
Qed.
Lemma bwalks_perm k u : u < N -> Permutation (map (map p) (SpecBc.walks N e k u)) (SpecBc.walks N e' k (p u)).
Proof.
  revert u. induction k as [|k IH]; intros u Hu; [reflexivity|]. simpl SpecBc.walks.
  transitivity (flat_map (fun v => if e' (p u) v then map (cons (p u)) (SpecBc.walks N e' k v) else []) (map p (seq 0 N))).
  - apply flat_map_perm. intros v Hv. apply in_seq in Hv. rewrite E by lia.
    destruct (e u v); [|constructor]. rewrite map_map. specialize (IH v ltac:(lia)).
    apply (Permutation_map (cons (p u))) in IH. rewrite map_map in IH. exact IH.
  - apply Permutation_flat_map, Permutation_sym, (perm_seq N p q R).
Qed.
Lemma last_map u (w : list nat) : last (map p w) (p u) = p (last w u).
Proof. clear. induction w as [|a w IH]; simpl; auto. destruct w; simpl in *; auto. Qed.
Lemma last_inside (w : list nat) u : u < N -> Forall (fun v => v < N) w -> last w u < N.
Proof. clear. intros Hu H. induction H as [|a w Ha Hw IH]; simpl; auto. destruct w; auto. Qed.
Lemma walks_to_perm k u t : u < N -> t < N ->
  Permutation (map (map p) (walks_to N e k u t)) (walks_to N e' k (p u) (p t)).
Proof.
  intros Hu Ht. unfold walks_to.
  rewrite <- (filter_map_on (fun w => last w u =? t) (fun w => last w (p u) =? p t)).
  - apply filter_perm, bwalks_perm; auto.
  - intros w Hw. rewrite last_map. apply (p_eqb N p q R); auto. apply last_inside; auto. apply (bwalks_inside k u); auto.
Qed.
Lemma walks_to_inside k u t w : u < N -> In w (walks_to N e k u t) -> Forall (fun v => v < N) w.
Proof. intros Hu H. apply filter_In in H. eapply bwalks_inside; [exact Hu|apply H]. Qed.
Lemma find_ext_seq (f g : nat -> bool) l : (forall x, f x = g x) -> find f l = find g l.
Proof. clear. intros H. induction l; simpl; auto. rewrite H, IHl. reflexivity. Qed.
Lemma shortest_perm u t : u < N -> t < N ->
  Permutation (map (map p) (shortest_paths N e u t)) (shortest_paths N e' (p u) (p t)).
Proof.
  intros Hu Ht. unfold shortest_paths.
  rewrite (find_ext_seq (fun k => negb (length (walks_to N e' k (p u) (p t)) =? 0))
                        (fun k => negb (length (walks_to N e k u t) =? 0))).
  - destruct (find _ _) as [k|]; [|constructor]. apply walks_to_perm; auto.
  - intros k. rewrite <- (Permutation_length (walks_to_perm k u t Hu Ht)), map_length. reflexivity.
Qed.
Lemma shortest_inside u t w : u < N -> In w (shortest_paths N e u t) -> Forall (fun v => v < N) w.
Proof.
  intros Hu. unfold shortest_paths. destruct (find _ _); [|intros []]. apply walks_to_inside; auto.
Qed.
Lemma pair_perm s t v : s < N -> t < N -> v < N ->
  pair_dependency N e' (p s) (p t) (p v) = pair_dependency N e s t v.
Proof.
  intros Hs Ht Hv. unfold pair_dependency. rewrite !(p_eqb N p q R) by auto.
  destruct ((v =? s) || (v =? t))%bool; auto.
  pose proof (shortest_perm s t Hs Ht) as P.
  rewrite <- (Permutation_length P), map_length. f_equal. f_equal.
  rewrite <- (Permutation_length (filter_perm (existsb (Nat.eqb (p v))) _ _ P)).
  rewrite (filter_map_on (existsb (Nat.eqb v))), map_length; auto.
  intros w Hw. apply shortest_inside in Hw; auto. induction Hw as [|a w Ha _ IH]; simpl; auto.
  rewrite (p_eqb N p q R), IH; auto.
Qed.
Lemma dependency_perm s v : s < N -> v < N -> dependency N e' (p s) (p v) = dependency N e s v.
Proof.
  intros Hs Hv. unfold dependency. apply (qsum_perm N p q R). intros t Ht. apply pair_perm; auto.
Qed.
Lemma betweenness_perm src v : Forall (fun s => s < N) src -> v < N ->
  betweenness N e' (map p src) (p v) = betweenness N e src v.
Proof.
  intros Hs Hv. unfold betweenness. rewrite map_map. f_equal. apply map_ext_in. intros s Hin.
  rewrite Forall_forall in Hs. apply dependency_perm; auto.
Qed.
End Bc.
