(** Flows, cuts and augmenting paths. *)
From Coq Require Import Lia.
From Verif Require Import Base ModelLil Spec SpecFlow.
Local Open Scope Z_scope.

Lemma zsum_S N f : zsum (S N) f = zsum N f + f N.
Proof.
  unfold zsum. rewrite seq_S, map_app. cbn [map Nat.add].
  assert (H : forall l x, fold_right Z.add 0 (l ++ [x]) = fold_right Z.add 0 l + x).
  { induction l; intro x; simpl; [lia|]. rewrite IHl. lia. }
  apply H.
Qed.
Lemma zsum_0 f : zsum 0 f = 0.
Proof. reflexivity. Qed.
Lemma zsum_ext N f g : (forall i, (i < N)%nat -> f i = g i) -> zsum N f = zsum N g.
Proof.
  induction N as [|N IH]; intro H; [reflexivity|]. rewrite !zsum_S, IH, H by auto. reflexivity.
Qed.
Lemma zsum_zero N f : (forall i, (i < N)%nat -> f i = 0) -> zsum N f = 0.
Proof. induction N as [|N IH]; intro H; [reflexivity|]. rewrite zsum_S, IH, H by auto. lia. Qed.
Lemma zsum_add N f g : zsum N (fun i => f i + g i) = zsum N f + zsum N g.
Proof. induction N as [|N IH]; [reflexivity|]. rewrite !zsum_S, IH. lia. Qed.
Lemma zsum_opp N f : zsum N (fun i => - f i) = - zsum N f.
Proof. induction N as [|N IH]; [reflexivity|]. rewrite !zsum_S, IH. lia. Qed.
Lemma zsum_scale N f c : zsum N (fun i => c * f i) = c * zsum N f.
Proof. induction N as [|N IH]; [rewrite !zsum_0; lia|]. rewrite !zsum_S, IH. lia. Qed.
Lemma zsum_le N f g : (forall i, (i < N)%nat -> f i <= g i) -> zsum N f <= zsum N g.
Proof.
  induction N as [|N IH]; intro H; [reflexivity|]. rewrite !zsum_S.
  assert (zsum N f <= zsum N g) by (apply IH; auto). specialize (H N). lia.
Qed.
Lemma zsum_swap N M f :
  zsum N (fun i => zsum M (fun j => f i j)) = zsum M (fun j => zsum N (fun i => f i j)).
Proof.
  induction N as [|N IH].
  - symmetry. apply zsum_zero. reflexivity.
  - rewrite zsum_S, IH, <- zsum_add. apply zsum_ext. intros. rewrite zsum_S. reflexivity.
Qed.
Lemma zsum_single N f i : (i < N)%nat -> (forall j, (j < N)%nat -> j <> i -> f j = 0) -> zsum N f = f i.
Proof.
  induction N as [|N IH]; intros Hi H; [lia|]. rewrite zsum_S.
  destruct (Nat.eq_dec i N) as [->|].
  - rewrite zsum_zero; [lia|]. intros. apply H; lia.
  - rewrite IH, (H N) by (auto; lia). lia.
Qed.

Section Cut.
Context (N : nat) (cap : nat -> nat -> Z) (source sink : nat).
Hypothesis Hs : (source < N)%nat.
Hypothesis Ht : (sink < N)%nat.

(** The value of a flow is what crosses any cut. *)
Lemma flow_cut f S :
  is_flow N cap source sink f -> is_cut N source sink S ->
  flow_value N sink f = zsum N (fun u => zsum N (fun v => if S u && negb (S v) then f u v else 0)).
Proof.
  intros (AS & _ & CO) (S1 & S2).
  assert (E1 : flow_value N sink f = zsum N (fun v => zsum N (fun u => if S v then 0 else f u v))).
  { rewrite (zsum_single N _ sink Ht).
    - rewrite S2. reflexivity.
    - intros v Hv Nv. destruct (S v) eqn:E; [apply zsum_zero; auto|].
      apply CO; auto. intro; subst. congruence. }
  assert (E2 : zsum N (fun v => zsum N (fun u => if S v then 0 else f u v)) =
    zsum N (fun u => zsum N (fun v => if S u && negb (S v) then f u v else 0)) +
    zsum N (fun u => zsum N (fun v => if negb (S u) && negb (S v) then f u v else 0))).
  { rewrite zsum_swap, <- zsum_add. apply zsum_ext. intros u Hu. rewrite <- zsum_add.
    apply zsum_ext. intros v Hv. destruct (S u), (S v); simpl; lia. }
  assert (E3 : zsum N (fun u => zsum N (fun v => if negb (S u) && negb (S v) then f u v else 0)) = 0).
  { set (x := zsum N _). assert (x = - x); [|lia]. unfold x at 2. rewrite <- zsum_opp.
    transitivity (zsum N (fun u => zsum N (fun v => - (if negb (S u) && negb (S v) then f u v else 0)))).
    - rewrite zsum_swap. unfold x. apply zsum_ext. intros u Hu. apply zsum_ext. intros v Hv.
      rewrite (AS u v Hu Hv). destruct (S u), (S v); simpl; lia.
    - apply zsum_ext. intros. apply zsum_opp. }
  lia.
Qed.

Lemma flow_le_cut f S :
  is_flow N cap source sink f -> is_cut N source sink S -> flow_value N sink f <= cut_capacity N cap S.
Proof.
  intros HF HS. rewrite (flow_cut f S HF HS). apply zsum_le. intros u Hu. apply zsum_le. intros v Hv.
  destruct HF as (_ & C & _). specialize (C u v Hu Hv). destruct (S u && negb (S v)); lia.
Qed.

(** A flow that saturates a cut is maximal. *)
Lemma saturated_max f S :
  is_flow N cap source sink f -> is_cut N source sink S ->
  (forall u v, (u < N)%nat -> (v < N)%nat -> S u = true -> S v = false -> f u v = cap u v) ->
  is_max_flow N cap source sink (flow_value N sink f).
Proof.
  intros HF HS SAT. split; [eauto|]. intros f' HF'.
  assert (E : flow_value N sink f = cut_capacity N cap S).
  { rewrite (flow_cut f S HF HS). apply zsum_ext. intros u Hu. apply zsum_ext. intros v Hv.
    destruct (S u) eqn:Eu, (S v) eqn:Ev; simpl; auto. }
  rewrite E. apply flow_le_cut; auto.
Qed.
Lemma cut_max f S :
  is_flow N cap source sink f -> is_cut N source sink S ->
  cut_capacity N cap S <= flow_value N sink f ->
  is_max_flow N cap source sink (flow_value N sink f).
Proof.
  intros HF HS HC. split; [eauto|]. intros f' HF'. pose proof (flow_le_cut f' S HF' HS). lia.
Qed.
End Cut.

(** ** Simple paths, as the list of their edges, last edge first *)
Inductive epath (s : nat) : nat -> list (nat * nat) -> Prop :=
| epath_nil : epath s s []
| epath_cons u v es : epath s u es -> v <> s -> ~ In v (map snd es) -> epath s v ((u, v) :: es).

Definition on (es : list (nat * nat)) (i j : nat) : bool :=
  existsb (fun e => (fst e =? i)%nat && (snd e =? j)%nat) es.
Lemma on_In es i j : on es i j = true <-> In (i, j) es.
Proof.
  unfold on. rewrite existsb_exists. split.
  - intros ([a b] & H & E). apply andb_true_iff in E. destruct E as (E1 & E2). simpl in *.
    apply Nat.eqb_eq in E1, E2. subst. auto.
  - intro H. exists (i, j). split; auto. simpl. rewrite !Nat.eqb_refl. reflexivity.
Qed.

Lemma epath_end s v es : epath s v es -> v = s \/ In v (map snd es).
Proof. destruct 1; simpl; auto. Qed.
Lemma epath_start s v es : epath s v es -> forall a b, In (a, b) es -> a = s \/ In a (map snd es).
Proof.
  induction 1 as [|u v es P IH Hv Hn]; intros a b H; [inversion H|].
  destruct H as [H|H]; simpl.
  - injection H as -> ->. destruct (epath_end _ _ _ P); auto.
  - destruct (IH a b H); auto.
Qed.
Lemma epath_heads s v es : epath s v es -> forall a b, In (a, b) es -> b <> s.
Proof.
  induction 1 as [|u v es P IH Hv Hn]; intros a b H; [inversion H|].
  destruct H as [H|H]; [congruence|eauto].
Qed.
Lemma epath_one_way s v es : epath s v es -> forall a b, In (a, b) es -> ~ In (b, a) es.
Proof.
  induction 1 as [|u v es P IH Hv Hn]; intros a b H K; [inversion H|].
  assert (N : forall c, ~ In (v, c) es).
  { intros c Hc. destruct (epath_start _ _ _ P _ _ Hc); auto. }
  assert (N' : forall c, ~ In (c, v) es).
  { intros c Hc. apply Hn. change v with (snd (c, v)). apply in_map. auto. }
  destruct H as [H|H], K as [K|K].
  - injection H as H1 H2. injection K as K1 K2. subst. subst. apply Hv.
    destruct (epath_end _ _ _ P) as [|E]; auto. exfalso. apply Hn. auto.
  - injection H as H1 H2. subst. eapply N; eauto.
  - injection K as K1 K2. subst. eapply N; eauto.
  - eapply IH; eauto.
Qed.
Lemma epath_NoDup s v es : epath s v es -> NoDup (map snd es).
Proof. induction 1; simpl; constructor; auto. Qed.

(** What one unit along the path adds. *)
Definition unit_flow (es : list (nat * nat)) (i j : nat) : Z :=
  (if on es i j then 1 else 0) - (if on es j i then 1 else 0).

Lemma unit_flow_sum s t es N :
  epath s t es -> (s < N)%nat -> (forall e, In e es -> (snd e < N)%nat) ->
  forall x, (x < N)%nat ->
  zsum N (fun w => unit_flow es w x) = (if (x =? t)%nat then 1 else 0) - (if (x =? s)%nat then 1 else 0).
Proof.
  induction 1 as [|u v es P IH Hv Hn]; intros Hs HB x Hx.
  - rewrite zsum_zero by reflexivity. lia.
  - assert (Hvb : (v < N)%nat) by (apply (HB (u, v)); simpl; auto).
    assert (HB' : forall e, In e es -> (snd e < N)%nat) by (intros; apply HB; simpl; auto).
    assert (Hub : (u < N)%nat).
    { destruct (epath_end _ _ _ P) as [->|E]; auto. apply in_map_iff in E.
      destruct E as (e & <- & He). auto. }
    assert (N1 : forall c, on es v c = false).
    { intro c. destruct (on es v c) eqn:E; auto. apply on_In in E.
      destruct (epath_start _ _ _ P _ _ E); tauto. }
    assert (N2 : forall c, on es c v = false).
    { intro c. destruct (on es c v) eqn:E; auto. apply on_In in E. exfalso. apply Hn.
      change v with (snd (c, v)). apply in_map. auto. }
    assert (NU : u <> v).
    { intros ->. destruct (epath_end _ _ _ P); auto. }
    transitivity (zsum N (fun w => unit_flow es w x + unit_flow [(u, v)] w x)).
    { apply zsum_ext. intros w Hw. unfold unit_flow, on. simpl. fold (on es w x). fold (on es x w).
      destruct (Nat.eqb_spec u w), (Nat.eqb_spec v x), (Nat.eqb_spec u x), (Nat.eqb_spec v w); subst; simpl;
        rewrite ?N1, ?N2; try lia; try congruence; reflexivity. }
    rewrite zsum_add, IH by auto.
    assert (E : zsum N (fun w => unit_flow [(u, v)] w x) =
                (if (x =? v)%nat then 1 else 0) - (if (x =? u)%nat then 1 else 0)).
    { destruct (Nat.eqb_spec x v) as [->|N3].
      - rewrite (zsum_single N _ u Hub).
        + unfold unit_flow, on. simpl. rewrite !Nat.eqb_refl. destruct (Nat.eqb_spec u v); [congruence|].
          destruct (Nat.eqb_spec v u); [congruence|]. reflexivity.
        + intros j Hj Nj. unfold unit_flow, on. simpl.
          destruct (Nat.eqb_spec u j); [congruence|]. destruct (Nat.eqb_spec u v); [congruence|]. reflexivity.
      - destruct (Nat.eqb_spec x u) as [->|N4].
        + rewrite (zsum_single N _ v Hvb).
          * unfold unit_flow, on. simpl. rewrite !Nat.eqb_refl. destruct (Nat.eqb_spec v u); [congruence|].
            destruct (Nat.eqb_spec u v); [congruence|]. reflexivity.
          * intros j Hj Nj. unfold unit_flow, on. simpl.
            destruct (Nat.eqb_spec v j); [congruence|]. destruct (Nat.eqb_spec v u); [congruence|].
            rewrite !andb_false_r. reflexivity.
        + apply zsum_zero. intros j Hj. unfold unit_flow, on. simpl.
          destruct (Nat.eqb_spec v x); [congruence|]. destruct (Nat.eqb_spec u x); [congruence|].
          rewrite !andb_false_r. reflexivity. }
    rewrite E. lia.
Qed.

(** Sending [g] more along a path of edges that leave room for it. *)
Lemma augment N cap s t f es g :
  (s < N)%nat -> (t < N)%nat -> s <> t ->
  is_flow N cap s t f -> epath s t es -> (forall e, In e es -> (snd e < N)%nat) ->
  0 <= g -> (forall a b, In (a, b) es -> g <= cap a b - f a b) ->
  is_flow N cap s t (fun i j => f i j + g * unit_flow es i j) /\
  flow_value N t (fun i j => f i j + g * unit_flow es i j) = flow_value N t f + g.
Proof.
  intros Hs Ht Hst (AS & CA & CO) P HB Hg HR.
  assert (SUM : forall v, (v < N)%nat -> zsum N (fun u => f u v + g * unit_flow es u v) =
     zsum N (fun u => f u v) + g * ((if (v =? t)%nat then 1 else 0) - (if (v =? s)%nat then 1 else 0))).
  { intros v Hv. rewrite zsum_add, zsum_scale. rewrite (unit_flow_sum s t es N); auto. }
  split; [split; [|split]|].
  - intros u v Hu Hv. rewrite (AS u v Hu Hv). unfold unit_flow. lia.
  - intros u v Hu Hv. unfold unit_flow. specialize (CA u v Hu Hv). destruct (on es u v) eqn:E.
    + apply on_In in E. specialize (HR u v E).
      destruct (on es v u) eqn:E'; [|lia]. apply on_In in E'. exfalso. eapply epath_one_way; eauto.
    + destruct (on es v u); lia.
  - intros v Hv N1 N2. rewrite SUM, CO by auto. destruct (Nat.eqb_spec v t); [congruence|].
    destruct (Nat.eqb_spec v s); [congruence|]. lia.
  - unfold flow_value. rewrite SUM by auto. rewrite Nat.eqb_refl. destruct (Nat.eqb_spec t s); [congruence|]. lia.
Qed.
