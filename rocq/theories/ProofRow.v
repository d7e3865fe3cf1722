(** Lemmas on sorted rows. *)
From Coq Require Import Lia.
From Verif Require Import Base ModelLil ModelVec ModelHelpers Spec ProofBase.

Section Row.
Context {T : Type}.
Implicit Types r c : row T.

Lemma wfrow_weaken r lo hi lo' hi' :
  wfrow lo hi r -> lo' <= lo -> hi <= hi' -> wfrow lo' hi' r.
Proof.
  revert lo lo'; induction r as [|[j v] r IH]; simpl; intros lo lo' H Hl Hh; [exact I|].
  destruct H as [H1 H2]. split; [lia|]. eapply IH; eauto.
Qed.

Lemma rget_lt r lo hi j : wfrow lo hi r -> j < lo -> rget r j = None.
Proof.
  revert lo; induction r as [|[k v] r IH]; simpl; intros lo H Hj; [reflexivity|].
  destruct H as [H1 H2]. ltb. eapply IH; eauto. lia.
Qed.

Lemma rget_ge r lo hi j : wfrow lo hi r -> hi <= j -> rget r j = None.
Proof.
  revert lo; induction r as [|[k v] r IH]; simpl; intros lo H Hj; [reflexivity|].
  destruct H as [H1 H2]. ltb. eapply IH; eauto.
Qed.

Lemma rget_app r1 r2 j :
  rget (r1 ++ r2) j = match rget r1 j with Some v => Some v | None => rget r2 j end.
Proof.
  induction r1 as [|[k v] r1 IH]; simpl; [reflexivity|]. ltb; auto.
Qed.

Lemma wfrow_app r1 r2 lo mid hi :
  wfrow lo mid r1 -> wfrow mid hi r2 -> lo <= mid -> mid <= hi -> wfrow lo hi (r1 ++ r2).
Proof.
  revert lo; induction r1 as [|[k v] r1 IH]; simpl; intros lo H1 H2 Hlo Hhi.
  - eapply wfrow_weaken; eauto.
  - destruct H1. split; [lia|]. apply IH; auto; lia.
Qed.

Lemma rget_In r lo hi j v : wfrow lo hi r -> (rget r j = Some v <-> In (j, v) r).
Proof.
  revert lo; induction r as [|[k w] r IH]; simpl; intros lo H.
  - split; [discriminate|tauto].
  - destruct H as [H1 H2]. ltb.
    + subst. split.
      * intros [= ->]; auto.
      * intros [[= ->]|Hin]; auto.
        apply (IH _ H2) in Hin. rewrite (rget_lt r (S j) hi) in Hin; auto; discriminate.
    + rewrite (IH _ H2). split; [auto|]. intros [[= <- <-]|]; [lia|auto].
Qed.

Lemma wfrow_In r lo hi j v : wfrow lo hi r -> In (j, v) r -> lo <= j < hi.
Proof.
  revert lo; induction r as [|[k w] r IH]; simpl; intros lo H Hin; [tauto|].
  destruct H. destruct Hin as [[= <- <-]|Hin]; auto. apply IH in H0; auto; lia.
Qed.

(** Two sorted rows with the same lookups are the same list. *)
Lemma row_ext r1 r2 lo hi :
  wfrow lo hi r1 -> wfrow lo hi r2 ->
  (forall j, lo <= j < hi -> rget r1 j = rget r2 j) -> r1 = r2.
Proof.
  revert r2 lo; induction r1 as [|[k v] r1 IH]; intros [|[k' v'] r2] lo H1 H2 E; simpl in *.
  - reflexivity.
  - specialize (E k' ltac:(lia)). rewrite Nat.eqb_refl in E. discriminate.
  - specialize (E k ltac:(lia)). rewrite Nat.eqb_refl in E. discriminate.
  - destruct H1 as [H1 W1], H2 as [H2 W2].
    assert (k = k') as <-.
    { destruct (Nat.lt_trichotomy k k') as [L|[L|L]]; auto.
      - specialize (E k ltac:(lia)). rewrite Nat.eqb_refl in E.
        destruct (Nat.eqb_spec k' k); [lia|].
        rewrite (rget_lt r2 (S k') hi) in E; auto; discriminate || lia.
      - specialize (E k' ltac:(lia)). rewrite Nat.eqb_refl in E.
        destruct (Nat.eqb_spec k k'); [lia|].
        rewrite (rget_lt r1 (S k) hi) in E; auto; discriminate || lia. }
    assert (v = v') as <-.
    { specialize (E k ltac:(lia)). rewrite Nat.eqb_refl in E. congruence. }
    f_equal. apply (IH r2 (S k)); auto.
    intros j Hj. specialize (E j ltac:(lia)).
    destruct (Nat.eqb_spec k j); [lia|exact E].
Qed.

Lemma row_find_rget r j : row_find r j = rget r j.
Proof. induction r as [|[k v] r IH]; simpl; auto. ltb; auto. Qed.

(** ** Suffixes and prefixes *)

Lemma take_below_wf r lo hi j : wfrow lo hi r -> wfrow lo (Nat.min hi j) (take_below r j).
Proof.
  revert lo; induction r as [|[k v] r IH]; simpl; intros lo H; [exact I|].
  destruct H. ltb; simpl; auto. split; [lia|]. auto.
Qed.

Lemma drop_below_wf r lo hi j : wfrow lo hi r -> wfrow (Nat.max lo j) hi (drop_below r j).
Proof.
  revert lo; induction r as [|[k v] r IH]; simpl; intros lo H; [exact I|].
  destruct H. ltb; simpl.
  - eapply wfrow_weaken; [apply IH; eassumption| lia | lia].
  - split; [lia|assumption].
Qed.

Lemma take_drop r j : take_below r j ++ drop_below r j = r.
Proof. induction r as [|[k v] r IH]; simpl; auto. ltb; simpl; auto. f_equal; auto. Qed.

Lemma rget_take r lo hi j k :
  wfrow lo hi r -> rget (take_below r j) k = if k <? j then rget r k else None.
Proof.
  revert lo; induction r as [|[x v] r IH]; simpl; intros lo H; [ltb; auto|].
  destruct H as [H1 H2]. specialize (IH _ H2). ltb; simpl; subst; ltb; try lia; auto;
    try (rewrite IH; ltb; auto; lia).
  rewrite (rget_lt r (S x) hi); auto; lia.
Qed.

Lemma rget_drop r lo hi j k :
  wfrow lo hi r -> rget (drop_below r j) k = if k <? j then None else rget r k.
Proof.
  revert lo; induction r as [|[x v] r IH]; simpl; intros lo H; [ltb; auto|].
  destruct H as [H1 H2]. specialize (IH _ H2). ltb; simpl; subst; ltb; try lia; auto;
    try (rewrite IH; ltb; auto; lia).
  rewrite (rget_lt r (S x) hi); auto; lia.
Qed.

Lemma row_truncate_take r nc : row_truncate nc r = take_below r nc.
Proof. induction r as [|[k v] r IH]; simpl; auto. ltb; auto. f_equal; auto. Qed.

(** Shape of a suffix just after [drop_below]. *)
Lemma drop_below_head r lo hi j :
  wfrow lo hi r ->
  match drop_below r j with
  | [] => forall k, j <= k -> rget r k = None
  | (k, v) :: r' =>
      j <= k /\ lo <= k < hi /\ wfrow (S k) hi r' /\ rget r k = Some v /\
      (forall k', j <= k' < k -> rget r k' = None) /\
      (forall k', k < k' -> rget r k' = rget r' k')
  end.
Proof.
  intro H. pose proof (drop_below_wf r lo hi j H) as W.
  pose proof (rget_drop r lo hi j) as G.
  destruct (drop_below r j) as [|[k v] r'] eqn:E; simpl in *.
  - intros k Hk. specialize (G k H). destruct (Nat.ltb_spec k j); [lia|]. auto.
  - destruct W as [W1 W2]. repeat split; try lia; auto.
    + specialize (G k H). rewrite Nat.eqb_refl in G. destruct (Nat.ltb_spec k j); [lia|]. auto.
    + intros k' Hk'. specialize (G k' H).
      destruct (Nat.ltb_spec k' j); [lia|]. rewrite <- G.
      destruct (Nat.eqb_spec k k'); [lia|]. apply (rget_lt r' (S k) hi); auto; lia.
    + intros k' Hk'. specialize (G k' H).
      destruct (Nat.ltb_spec k' j); [lia|]. rewrite <- G.
      destruct (Nat.eqb_spec k k'); [lia|]. reflexivity.
Qed.

(** ** Length equals number of stored positions *)
Lemma row_length_count r lo hi :
  wfrow lo hi r ->
  length r = length (filter (fun j => is_some (rget r j)) (seq lo (hi - lo))).
Proof.
  revert lo; induction r as [|[k v] r IH]; intros lo H; simpl.
  - induction (seq lo (hi - lo)); simpl; auto.
  - destruct H as [H1 H2].
    replace (hi - lo) with ((k - lo) + S (hi - S k)) by lia.
    rewrite seq_app, filter_app, app_length.
    replace (lo + (k - lo)) with k by lia. simpl seq. simpl filter.
    rewrite Nat.eqb_refl. simpl.
    rewrite (filter_ext_in' _ (fun _ => false)).
    2:{ intros x Hx. apply in_seq in Hx. destruct (Nat.eqb_spec k x); [lia|].
        rewrite (rget_lt r (S k) hi); auto; lia. }
    replace (filter (fun _ : nat => false) (seq lo (k - lo))) with (@nil nat)
      by (induction (seq lo (k - lo)); simpl; auto).
    simpl. f_equal. rewrite (IH _ H2). f_equal.
    apply filter_ext_in'. intros x Hx. apply in_seq in Hx.
    destruct (Nat.eqb_spec k x); [lia|reflexivity].
Qed.

(** ** Insertion and removal *)
Lemma row_set_wf merge r lo hi j v :
  wfrow lo hi r -> lo <= j < hi -> wfrow lo hi (fst (row_set merge r j v)).
Proof.
  revert lo; induction r as [|[k w] r IH]; simpl; intros lo H Hj; [auto|].
  destruct H as [H1 H2]. ltb; simpl.
  - subst; auto.
  - repeat split; auto; lia.
  - destruct (row_set merge r j v) as [r'' b] eqn:E; simpl. split; [lia|].
    specialize (IH (S k) H2). rewrite ?E in IH. apply IH. lia.
Qed.

Lemma row_set_get merge r lo hi j v k :
  wfrow lo hi r ->
  rget (fst (row_set merge r j v)) k =
    if k =? j then Some (match rget r j with Some w => merge w v | None => v end)
    else rget r k.
Proof.
  revert lo; induction r as [|[x w] r IH]; simpl; intros lo H.
  - rewrite (Nat.eqb_sym k j). destruct (j =? k); auto.
  - destruct H as [H1 H2]. specialize (IH _ H2).
    destruct (Nat.eqb_spec x j) as [->|N]; [|destruct (Nat.ltb_spec j x)]; simpl.
    + rewrite (Nat.eqb_sym k j). destruct (j =? k); auto.
    + rewrite (rget_lt r (S x) hi j) by (auto; lia). ltb; subst; auto; lia.
    + destruct (row_set merge r j v) as [r'' b]; simpl in *. rewrite IH. ltb; auto; lia.
Qed.

Lemma row_set_flag merge r lo hi j v :
  wfrow lo hi r ->
  snd (row_set merge r j v) = negb (is_some (rget r j)) /\
  Z.of_nat (length (fst (row_set merge r j v))) =
    (Z.of_nat (length r) + if snd (row_set merge r j v) then 1 else 0)%Z.
Proof.
  revert lo; induction r as [|[x w] r IH]; simpl; intros lo H; [auto|].
  destruct H as [H1 H2]. specialize (IH _ H2).
  destruct (Nat.eqb_spec x j) as [->|N]; [|destruct (Nat.ltb_spec j x)]; cbn [fst snd].
  - split; auto; simpl length; lia.
  - rewrite (rget_lt r (S x) hi) by (auto; lia). split; auto; simpl length; lia.
  - destruct (row_set merge r j v) as [r'' b]; cbn [fst snd] in *. destruct IH as [IH1 IH2].
    split; auto. simpl length. destruct b; lia.
Qed.

Lemma row_remove_wf r lo hi j : wfrow lo hi r -> wfrow lo hi (fst (row_remove r j)).
Proof.
  revert lo; induction r as [|[k w] r IH]; simpl; intros lo H; [auto|].
  destruct H as [H1 H2]. ltb; simpl.
  - eapply wfrow_weaken; eauto. lia.
  - specialize (IH _ H2). destruct (row_remove r j); simpl in *. auto.
Qed.

Lemma row_remove_get r lo hi j k :
  wfrow lo hi r -> rget (fst (row_remove r j)) k = if k =? j then None else rget r k.
Proof.
  revert lo; induction r as [|[x w] r IH]; simpl; intros lo H; [destruct (k =? j); auto|].
  destruct H as [H1 H2]. specialize (IH _ H2).
  destruct (Nat.eqb_spec x j) as [->|N]; simpl.
  - destruct (Nat.eqb_spec k j) as [E|N].
    + subst k. apply (rget_lt r (S j) hi); auto.
    + destruct (Nat.eqb_spec j k); [lia|auto].
  - destruct (row_remove r j); simpl in *. rewrite IH. ltb; auto; lia.
Qed.

Lemma row_remove_flag r lo hi j :
  wfrow lo hi r ->
  snd (row_remove r j) = is_some (rget r j) /\
  Z.of_nat (length (fst (row_remove r j))) =
    (Z.of_nat (length r) - if snd (row_remove r j) then 1 else 0)%Z.
Proof.
  revert lo; induction r as [|[x w] r IH]; simpl; intros lo H; [auto|].
  destruct H as [H1 H2]. specialize (IH _ H2).
  destruct (Nat.eqb_spec x j) as [->|N]; cbn [fst snd].
  - split; auto. simpl length. lia.
  - destruct (row_remove r j) as [r'' b]; cbn [fst snd] in *. destruct IH as [IH1 IH2].
    split; auto. simpl length. destruct b; lia.
Qed.

(** ** Dense rows *)
Lemma dense_row_wf keep jj vs hi :
  jj + length vs <= hi -> wfrow jj hi (@dense_row T keep jj vs).
Proof.
  revert jj; induction vs as [|v vs IH]; simpl; intros jj H; [auto|].
  specialize (IH (S jj) ltac:(lia)). destruct (keep v); simpl.
  - split; [lia|auto].
  - eapply wfrow_weaken; eauto.
Qed.

Lemma dense_row_get keep jj vs j :
  jj <= j ->
  rget (@dense_row T keep jj vs) j =
    match nth_error vs (j - jj) with
    | Some v => if keep v then Some v else None
    | None => None
    end.
Proof.
  revert jj; induction vs as [|v vs IH]; intros jj H; simpl.
  - destruct (j - jj); reflexivity.
  - destruct (Nat.eq_dec jj j) as [->|N].
    + rewrite Nat.sub_diag; simpl. destruct (keep v); simpl.
      * rewrite Nat.eqb_refl; auto.
      * eapply (rget_lt _ (S j) (S j + length vs)). apply dense_row_wf; lia. lia.
    + replace (j - jj) with (S (j - S jj)) by lia. simpl. rewrite <- IH by lia.
      destruct (keep v); simpl; auto. destruct (Nat.eqb_spec jj j); [lia|auto].
Qed.
End Row.

(** ** Casts *)
Lemma rget_cast {S T} (f : S -> T) r j : rget (cast_row f r) j = option_map f (rget r j).
Proof. induction r as [|[k v] r IH]; simpl; auto. ltb; auto. Qed.

Lemma wfrow_cast {S T} (f : S -> T) r lo hi : wfrow lo hi r -> wfrow lo hi (cast_row f r).
Proof. revert lo; induction r as [|[k v] r IH]; simpl; intros lo H; auto. destruct H; auto. Qed.

Lemma cast_length {S T} (f : S -> T) r : length (cast_row f r) = length r.
Proof. apply map_length. Qed.

Lemma cast_id {T} (r : row T) : cast_row (fun x => x) r = r.
Proof. induction r as [|[k v] r IH]; simpl; congruence. Qed.

(** ** Merges *)
Section Merge.
Context {D1 D2 D3 : Type} (op : D1 -> D2 -> D3) (c1 : D1 -> D3) (c2 : D2 -> D3).

Definition comb_or (x : option D1) (y : option D2) : option D3 :=
  match x, y with
  | Some a, Some b => Some (op a b)
  | Some a, None => Some (c1 a)
  | None, Some b => Some (c2 b)
  | None, None => None
  end.

Lemma ewise_or_nil_r v1 : ewise_or op c1 c2 v1 [] = cast_row c1 v1.
Proof. destruct v1 as [|[? ?] ?]; reflexivity. Qed.

Lemma ewise_or_nil_l v2 : ewise_or op c1 c2 [] v2 = cast_row c2 v2.
Proof. destruct v2 as [|[? ?] ?]; reflexivity. Qed.

Lemma ewise_or_cons i1 x1 v1 i2 x2 v2 :
  ewise_or op c1 c2 ((i1, x1) :: v1) ((i2, x2) :: v2) =
    if i2 =? i1 then (i1, op x1 x2) :: ewise_or op c1 c2 v1 v2
    else if i1 <? i2 then (i1, c1 x1) :: ewise_or op c1 c2 v1 ((i2, x2) :: v2)
    else (i2, c2 x2) :: ewise_or op c1 c2 ((i1, x1) :: v1) v2.
Proof. reflexivity. Qed.

Lemma ewise_or_spec v1 v2 lo hi :
  wfrow lo hi v1 -> wfrow lo hi v2 ->
  wfrow lo hi (ewise_or op c1 c2 v1 v2) /\
  forall j, rget (ewise_or op c1 c2 v1 v2) j = comb_or (rget v1 j) (rget v2 j).
Proof.
  revert v2 lo; induction v1 as [|[i1 x1] v1 IH1]; intros v2 lo H1 H2.
  - rewrite ewise_or_nil_l. split; [apply wfrow_cast; auto|].
    intro j. rewrite rget_cast. simpl. destruct (rget v2 j); reflexivity.
  - revert lo H1 H2; induction v2 as [|[i2 x2] v2 IH2]; intros lo H1 H2.
    + rewrite ewise_or_nil_r. split; [apply wfrow_cast; auto|].
      intro j. rewrite rget_cast. destruct (rget _ j); reflexivity.
    + rewrite ewise_or_cons. pose proof H1 as [A1 B1]. pose proof H2 as [A2 B2].
      destruct (Nat.eqb_spec i2 i1) as [->|N]; [|destruct (Nat.ltb_spec i1 i2)].
      * destruct (IH1 v2 (S i1) B1 B2) as [W G]. split; [simpl; auto|].
        intro j; simpl. ltb; auto.
      * destruct (IH1 ((i2, x2) :: v2) (S i1) B1) as [W G]; [simpl; split; auto; lia|].
        split; [simpl; auto|].
        intro j. simpl rget at 1. rewrite G. simpl. ltb; subst; auto; try lia.
        rewrite (rget_lt v2 (S i2) hi); auto; lia.
      * destruct (IH2 (S i2)) as [W G]; [simpl; split; auto; lia|auto|].
        split; [simpl; auto|].
        intro j. cbn [rget]. rewrite G. simpl. ltb; subst; auto; try lia.
        rewrite (rget_lt v1 (S i1) hi); auto; lia.
Qed.
End Merge.

Section MergeAnd.
Context {D1 D2 D3 : Type} (op : D1 -> D2 -> D3).

Lemma ewise_and_nil_r v1 : ewise_and op v1 [] = [].
Proof. destruct v1 as [|[? ?] ?]; reflexivity. Qed.

Lemma ewise_and_nil_l v2 : ewise_and op [] v2 = [].
Proof. destruct v2 as [|[? ?] ?]; reflexivity. Qed.

Lemma ewise_and_cons i1 x1 v1 i2 x2 v2 :
  ewise_and op ((i1, x1) :: v1) ((i2, x2) :: v2) =
    if i2 =? i1 then (i1, op x1 x2) :: ewise_and op v1 v2
    else if i1 <? i2 then ewise_and op v1 ((i2, x2) :: v2)
    else ewise_and op ((i1, x1) :: v1) v2.
Proof. reflexivity. Qed.

Lemma ewise_and_spec v1 v2 lo hi :
  wfrow lo hi v1 -> wfrow lo hi v2 ->
  wfrow lo hi (ewise_and op v1 v2) /\
  forall j, rget (ewise_and op v1 v2) j = omap2 op (rget v1 j) (rget v2 j).
Proof.
  revert v2 lo; induction v1 as [|[i1 x1] v1 IH1]; intros v2 lo H1 H2.
  - rewrite ewise_and_nil_l. split; simpl; auto.
  - revert lo H1 H2; induction v2 as [|[i2 x2] v2 IH2]; intros lo H1 H2.
    + rewrite ewise_and_nil_r. split; simpl; auto. intro j. ltb; auto. destruct (rget v1 j); auto.
    + rewrite ewise_and_cons. pose proof H1 as [A1 B1]. pose proof H2 as [A2 B2].
      destruct (Nat.eqb_spec i2 i1) as [->|N]; [|destruct (Nat.ltb_spec i1 i2)].
      * destruct (IH1 v2 (S i1) B1 B2) as [W G]. split; [simpl; auto|].
        intro j; simpl. ltb; auto.
      * destruct (IH1 ((i2, x2) :: v2) (S i1) B1) as [W G]; [simpl; split; auto; lia|].
        split; [eapply wfrow_weaken; eauto; lia|].
        intro j. rewrite G. simpl. ltb; subst; auto; try lia.
        rewrite (rget_lt v1 (S j) hi), (rget_lt v2 (S i2) hi); auto; lia.
      * destruct (IH2 (S i2)) as [W G]; [simpl; split; auto; lia|auto|].
        split; [eapply wfrow_weaken; eauto; lia|].
        intro j. rewrite G. simpl. ltb; subst; auto; try lia.
        rewrite (rget_lt v1 (S i1) hi), (rget_lt v2 (S j) hi); auto; lia.
Qed.
End MergeAnd.

Section Stencil.
Context {D1 D2 D3 : Type} (c1 : D1 -> D3) (c2 : D2 -> D3) (st : idxseq).

Definition comb_stencil (j : nat) (x : option D1) (y : option D2) : option D3 :=
  match y with
  | Some b => Some (c2 b)
  | None => if searchIndices st j then None else option_map c1 x
  end.

Lemma stencil_cons i1 x1 v1 i2 x2 v2 :
  ewise_or_stencil c1 c2 st ((i1, x1) :: v1) ((i2, x2) :: v2) =
    if i2 =? i1 then (i2, c2 x2) :: ewise_or_stencil c1 c2 st v1 v2
    else if i1 <? i2 then
      if negb (searchIndices st i1)
      then (i1, c1 x1) :: ewise_or_stencil c1 c2 st v1 ((i2, x2) :: v2)
      else ewise_or_stencil c1 c2 st v1 ((i2, x2) :: v2)
    else (i2, c2 x2) :: ewise_or_stencil c1 c2 st ((i1, x1) :: v1) v2.
Proof. reflexivity. Qed.

Lemma stencil_nil_l v2 : ewise_or_stencil c1 c2 st [] v2 = cast_row c2 v2.
Proof. induction v2 as [|[k v] v2 IH]; simpl; auto. f_equal; auto. Qed.

Lemma stencil_spec v1 v2 lo hi :
  wfrow lo hi v1 -> wfrow lo hi v2 ->
  wfrow lo hi (ewise_or_stencil c1 c2 st v1 v2) /\
  forall j, rget (ewise_or_stencil c1 c2 st v1 v2) j = comb_stencil j (rget v1 j) (rget v2 j).
Proof.
  unfold comb_stencil.
  revert v2 lo; induction v1 as [|[i1 x1] v1 IH1]; intros v2 lo H1 H2.
  - rewrite stencil_nil_l. split; [apply wfrow_cast; auto|].
    intro j. rewrite rget_cast. simpl. destruct (rget v2 j); simpl; auto.
    destruct (searchIndices st j); auto.
  - revert lo H1 H2; induction v2 as [|[i2 x2] v2 IH2]; intros lo H1 H2.
    + pose proof H1 as [A1 B1]. simpl ewise_or_stencil.
      destruct (IH1 [] (S i1) B1 I) as [W G].
      destruct (searchIndices st i1) eqn:Es; simpl negb; cbv iota.
      * split; [eapply wfrow_weaken; eauto; lia|]. intro j. rewrite G. simpl.
        destruct (Nat.eqb_spec i1 j); auto. subst. rewrite Es; auto.
      * split; [simpl; auto|]. intro j. cbn [rget]. rewrite G. simpl.
        destruct (Nat.eqb_spec i1 j); auto. subst. rewrite Es; auto.
    + rewrite stencil_cons. pose proof H1 as [A1 B1]. pose proof H2 as [A2 B2].
      destruct (Nat.eqb_spec i2 i1) as [->|N]; [|destruct (Nat.ltb_spec i1 i2)].
      * destruct (IH1 v2 (S i1) B1 B2) as [W G]. split; [simpl; auto|].
        intro j; simpl. ltb; auto.
      * destruct (IH1 ((i2, x2) :: v2) (S i1) B1) as [W G]; [simpl; split; auto; lia|].
        destruct (searchIndices st i1) eqn:Es; simpl negb; cbv iota.
        -- split; [eapply wfrow_weaken; eauto; lia|]. intro j. rewrite G. simpl.
           ltb; subst; auto; try lia. rewrite (rget_lt v2 (S i2) hi), Es; auto; lia.
        -- split; [simpl; auto|]. intro j. cbn [rget]. rewrite G. simpl.
           ltb; subst; auto; try lia. rewrite (rget_lt v2 (S i2) hi), Es; auto; lia.
      * destruct (IH2 (S i2)) as [W G]; [simpl; split; auto; lia|auto|].
        split; [simpl; auto|].
        intro j. cbn [rget]. rewrite G. simpl. ltb; subst; auto; try lia.
Qed.
End Stencil.

Section MergeRows.
Context {S T : Type} (cast : S -> T) (op : T -> S -> T).
Lemma merge_rows_ewise_or l r lo hi :
  wfrow lo hi l -> wfrow lo hi r ->
  merge_rows cast op l r = ewise_or op (fun x => x) cast l r.
Proof.
  revert r lo; induction l as [|[i1 x1] l IH1]; intros r lo H1 H2.
  - rewrite ewise_or_nil_l. destruct r; reflexivity.
  - revert lo H1 H2; induction r as [|[i2 x2] r IH2]; intros lo H1 H2.
    + rewrite ewise_or_nil_r, cast_id. reflexivity.
    + rewrite ewise_or_cons. pose proof H1 as [A1 B1]. pose proof H2 as [A2 B2].
      change (merge_rows cast op ((i1, x1) :: l) ((i2, x2) :: r)) with
        (if i1 <? i2 then (i1, x1) :: merge_rows cast op l ((i2, x2) :: r)
         else if i2 <? i1 then (i2, cast x2) :: merge_rows cast op ((i1, x1) :: l) r
         else (i1, op x1 x2) :: merge_rows cast op l r).
      destruct (Nat.eqb_spec i2 i1) as [->|N]; [|destruct (Nat.ltb_spec i1 i2)].
      * rewrite Nat.ltb_irrefl. f_equal. eapply IH1; eauto.
      * f_equal. eapply IH1; eauto. simpl; split; eauto. lia.
      * destruct (Nat.ltb_spec i2 i1); [|lia]. f_equal.
        eapply (IH2 (Datatypes.S i2)); auto. simpl; split; auto; lia.
Qed.
End MergeRows.

(** ** xpey, axpy *)
Section Xpey.
Context {D1 D2 : Type} (op : D1 -> D2 -> D1) (cast : D2 -> D1).

Lemma xpey_spec v2 : forall v1 lo hi,
  wfrow lo hi v1 -> wfrow lo hi v2 ->
  wfrow lo hi (xpey op cast v1 v2) /\
  forall j, rget (xpey op cast v1 v2) j =
    comb_or op (fun x => x) cast (rget v1 j) (rget v2 j).
Proof.
  induction v2 as [|[i x] v2 IH]; intros v1 lo hi H1 H2; simpl.
  - split; auto. intro j. destruct (rget v1 j); reflexivity.
  - destruct H2 as [A B].
    pose proof (take_below_wf v1 lo hi i H1) as TW.
    pose proof (rget_take v1 lo hi i) as TG.
    pose proof (drop_below_head v1 lo hi i H1) as DH.
    destruct (drop_below v1 i) as [|[k y] v1'].
    + destruct (IH [] (S i) hi I B) as [W G]. split.
      * eapply wfrow_app with (mid := Nat.min hi i); eauto; try lia. simpl; split; auto; lia.
      * intro j. rewrite rget_app, TG by auto. simpl. rewrite G.
        destruct (Nat.lt_trichotomy j i) as [L|[L|L]]; [|subst j|]; ltb.
        -- rewrite (rget_lt v2 (S i) hi) by (auto; lia). destruct (rget v1 j); reflexivity.
        -- rewrite DH by lia. reflexivity.
        -- rewrite DH by lia. reflexivity.
    + destruct DH as (K1 & K2 & K3 & K4 & K5 & K6).
      destruct (Nat.eqb_spec k i) as [E|N].
      * subst k. destruct (IH v1' (S i) hi K3 B) as [W G]. split.
        -- eapply wfrow_app with (mid := Nat.min hi i); eauto; try lia. simpl; split; auto. lia.
        -- intro j. rewrite rget_app, TG by auto. simpl. rewrite G.
           destruct (Nat.lt_trichotomy j i) as [L|[L|L]]; [|subst j|]; ltb.
           ++ rewrite (rget_lt v2 (S i) hi) by (auto; lia).
              rewrite (rget_lt v1' (S i) hi) by (auto; lia). destruct (rget v1 j); reflexivity.
           ++ rewrite K4; reflexivity.
           ++ rewrite K6 by lia; reflexivity.
      * destruct (IH ((k, y) :: v1') (S i) hi) as [W G]; [simpl; split; auto; lia|auto|]. split.
        -- eapply wfrow_app with (mid := Nat.min hi i); eauto; try lia. simpl; split; auto. lia.
        -- intro j. rewrite rget_app, TG by auto. cbn [rget]. rewrite G. simpl.
           destruct (Nat.lt_trichotomy j i) as [L|[L|L]]; [|subst j|]; ltb.
           ++ rewrite (rget_lt v2 (S i) hi) by (auto; lia).
              rewrite (rget_lt v1' (S k) hi) by (auto; lia). destruct (rget v1 j); reflexivity.
           ++ rewrite K5 by lia. reflexivity.
           ++ subst. rewrite K4. reflexivity.
           ++ destruct (Nat.lt_total j k) as [L'|[L'|L']]; [|lia|].
              ** rewrite K5 by lia. rewrite (rget_lt v1' (S k) hi) by (auto; lia). reflexivity.
              ** rewrite K6 by lia. reflexivity.
Qed.
End Xpey.

Lemma axpy_xpey {TA TB TT} (add : TT -> TT -> TT) (mult : TA -> TB -> TT) a c b :
  axpy add mult a c b = xpey add (fun x => x) c (cast_row (mult a) b).
Proof.
  revert c; induction b as [|[j bj] b IH]; intro c; simpl; auto.
  f_equal. destruct (drop_below c j) as [|[k y] c']; [f_equal; apply IH|].
  ltb; f_equal; apply IH.
Qed.

Lemma axpy_spec {TA TB TT} (add : TT -> TT -> TT) (mult : TA -> TB -> TT) a c b lo hi :
  wfrow lo hi c -> wfrow lo hi b ->
  wfrow lo hi (axpy add mult a c b) /\
  forall j, rget (axpy add mult a c b) j =
    oadd add (rget c j) (option_map (mult a) (rget b j)).
Proof.
  intros H1 H2. rewrite axpy_xpey.
  destruct (xpey_spec add (fun x => x) (cast_row (mult a) b) c lo hi) as [W G]; auto.
  - apply wfrow_cast; auto.
  - split; auto. intro j. rewrite G, rget_cast.
    destruct (rget c j), (rget b j); reflexivity.
Qed.

(** ** Mask rows *)
Definition rmask (m : row bool) (j : nat) : bool :=
  match rget m j with Some b => b | None => false end.

Lemma apply_with_mask_spec {TC TZ} (zc : TZ -> TC) outp m : forall c z lo lz hi,
  wfrow lo hi m -> (outp = MERGE -> wfrow lo hi c) -> wfrow lz hi z -> lo <= hi ->
  wfrow lo hi (apply_with_mask zc outp c z m) /\
  forall j, lo <= j ->
    rget (apply_with_mask zc outp c z m) j =
      if rmask m j then option_map zc (rget z j)
      else match outp with MERGE => rget c j | REPLACE => None end.
Proof.
  unfold rmask.
  induction m as [|[mi b] m IH]; intros c z lo lz hi Hm Hc Hz Hlo; simpl.
  - destruct outp; split; simpl; auto.
  - destruct Hm as [A B]. destruct b.
    + set (z1 := drop_below z mi).
      assert (Hz1 : wfrow (Nat.max lz mi) hi z1) by (apply drop_below_wf; auto).
      assert (Gz : forall j, rget z1 j = if j <? mi then None else rget z j)
        by (intro; eapply rget_drop; eauto).
      set (zp := match z1 with (k, v) :: _ => if k =? mi then [(mi, zc v)] else [] | [] => [] end).
      assert (Wzp : wfrow mi (S mi) zp).
      { unfold zp. destruct z1 as [|[k v] z1']; simpl; auto. ltb; simpl; auto. }
      assert (Gzp : forall j, rget zp j = if j =? mi then option_map zc (rget z mi) else None).
      { intro j. specialize (Gz mi). rewrite Nat.ltb_irrefl in Gz. rewrite <- Gz.
        unfold zp. destruct z1 as [|[k v] z1']; simpl in *; [ltb; auto|].
        destruct Hz1 as [Q1 Q2].
        ltb; subst; simpl; ltb; try lia; auto.
        rewrite (rget_lt z1' (S k) hi); auto. lia. }
      destruct outp.
      * specialize (Hc eq_refl).
        pose proof (take_below_wf c lo hi mi Hc) as TW.
        pose proof (drop_below_head c lo hi mi Hc) as DH.
        set (c2 := match drop_below c mi with
                   | (k, _) :: c1' => if k =? mi then c1' else drop_below c mi
                   | [] => [] end).
        assert (Wc2 : wfrow (S mi) hi c2 /\ forall j, mi < j -> rget c2 j = rget c j).
        { unfold c2. pose proof (rget_drop c lo hi mi) as RD.
          destruct (drop_below c mi) as [|[k v] c1']; simpl in *.
          - split; auto. intros j Hj. rewrite DH by lia; auto.
          - destruct DH as (K1 & K2 & K3 & K4 & K5 & K6).
            destruct (Nat.eqb_spec k mi) as [->|N].
            + split; auto. intros; rewrite K6; auto.
            + split; [simpl; split; auto; lia|]. intros j Hj. cbn [rget]. rewrite RD by auto.
              destruct (Nat.ltb_spec j mi); [lia|auto]. }
        destruct Wc2 as [Wc2 Gc2].
        destruct (IH c2 z1 (S mi) (Nat.max lz mi) hi B (fun _ => Wc2) Hz1 ltac:(lia)) as [W G].
        split.
        -- eapply wfrow_app with (mid := mi); [eapply wfrow_weaken; eauto; lia| |lia|lia].
           eapply wfrow_app with (mid := S mi); eauto; lia.
        -- intros j Hj. rewrite !rget_app, (rget_take c lo hi) by auto. rewrite Gzp.
           destruct (Nat.ltb_spec j mi).
           ++ destruct (Nat.eqb_spec mi j); [lia|]. destruct (Nat.eqb_spec j mi); [lia|].
              rewrite (rget_lt m (S mi) hi) by (auto; lia).
              rewrite (rget_lt (apply_with_mask _ _ _ _ _) (S mi) hi) by (auto; lia).
              destruct (rget c j); auto.
           ++ destruct (Nat.eqb_spec mi j).
              ** subst. rewrite Nat.eqb_refl. destruct (rget z j); simpl; auto.
                 rewrite (rget_lt (apply_with_mask _ _ _ _ _) (S j) hi); auto.
              ** destruct (Nat.eqb_spec j mi); [lia|].
                 rewrite G, Gz by lia. destruct (Nat.ltb_spec j mi); [lia|].
                 rewrite Gc2 by lia. reflexivity.
      * match goal with |- context [apply_with_mask zc REPLACE ?c2 z1 m] =>
          destruct (IH c2 z1 (S mi) (Nat.max lz mi) hi B ltac:(discriminate) Hz1 ltac:(lia))
            as [W G] end.
        split.
        -- cbn [app]. apply wfrow_app with (mid := S mi); [apply (wfrow_weaken _ mi (S mi)); auto; lia|exact W|lia|lia].
        -- intros j Hj. cbn [app]. rewrite !rget_app. rewrite Gzp.
           destruct (Nat.eqb_spec mi j).
           ++ subst. rewrite Nat.eqb_refl. destruct (rget z j); simpl; auto.
              rewrite (rget_lt (apply_with_mask _ _ _ _ _) (S j) hi); auto.
           ++ destruct (Nat.eqb_spec j mi); [lia|].
              destruct (Nat.ltb_spec j mi).
              ** rewrite (rget_lt m (S mi) hi) by (auto; lia).
                 rewrite (rget_lt (apply_with_mask _ _ _ _ _) (S mi) hi) by (auto; lia). auto.
              ** rewrite G, Gz by lia. destruct (Nat.ltb_spec j mi); [lia|]. reflexivity.
    + destruct (IH c z lo lz hi) as [W G]; auto; try lia.
      { eapply wfrow_weaken; eauto; lia. }
      split; auto. intros j Hj. rewrite G by lia.
      destruct (Nat.eqb_spec mi j); auto. subst.
      rewrite (rget_lt m (S j) hi); auto.
Qed.

Lemma complement_loop_spec it : forall n b,
  wfrow b (b + n) it ->
  wfrow b (b + n) (complement_loop (seq b n) it) /\
  forall j, rmask (complement_loop (seq b n) it) j = (b <=? j) && (j <? b + n) && negb (rmask it j).
Proof.
  intros n; revert it; unfold rmask.
  induction n as [|n IH]; intros it b H.
  - simpl. split; auto. intro j. ltb; auto; lia.
  - assert (Q : wfrow (S b) (S b + n) it ->
       wfrow b (b + S n) ((b, true) :: complement_loop (seq (S b) n) it) /\
  forall j, (match rget ((b, true) :: complement_loop (seq (S b) n) it) j with
                  | Some b0 => b0 | None => false end) =
         (b <=? j) && (j <? b + S n) && negb (match rget it j with Some b0 => b0 | None => false end)).
    { intro H'. destruct (IH it (S b) H') as [W G]. split.
      - simpl. split; [lia|]. replace (b + S n) with (S b + n) by lia. exact W.
      - intro j. cbn [rget]. destruct (Nat.eqb_spec b j).
        + subst. rewrite (rget_lt it (S j) (S j + n)) by (auto; lia). ltb; auto; lia.
        + rewrite G. replace (S b + n) with (b + S n) by lia. ltb; auto; lia. }
    simpl seq. destruct it as [|[k v] it].
    + simpl complement_loop. apply Q. exact I.
    + destruct H as [H1 H2]. cbn [complement_loop].
      destruct (Nat.ltb_spec b k).
      * apply Q. simpl. split; [lia|]. replace (S (b + n)) with (b + S n) by lia; auto.
      * assert (k = b) as -> by lia.
        assert (H2' : wfrow (S b) (S b + n) it)
          by (replace (S b + n) with (b + S n) by lia; auto).
        destruct v; simpl negb; cbv iota.
        -- destruct (IH it (S b) H2') as [W G]. split.
           ++ eapply wfrow_weaken; eauto; lia.
           ++ intro j. rewrite G. cbn [rget]. replace (S b + n) with (b + S n) by lia.
              ltb; simpl; auto; lia.
        -- destruct (IH it (S b) H2') as [W G]. split.
           ++ simpl. split; [lia|]. replace (b + S n) with (S b + n) by lia. exact W.
           ++ intro j. cbn [rget]. destruct (Nat.eqb_spec b j).
              ** subst. ltb; auto; lia.
              ** rewrite G. replace (S b + n) with (b + S n) by lia. ltb; auto; lia.
Qed.

(** ** Dot products *)
Section DotP.
Context {D1 D2 D3 : Type} (add : D3 -> D3 -> D3) (mult : D1 -> D2 -> D3).

Lemma dot_loop_cons i1 x1 v1 i2 x2 v2 ans :
  dot_loop add mult ((i1, x1) :: v1) ((i2, x2) :: v2) ans =
    if i2 =? i1 then dot_loop add mult v1 v2 (oadd add ans (Some (mult x1 x2)))
    else if i1 <? i2 then dot_loop add mult v1 ((i2, x2) :: v2) ans
    else dot_loop add mult ((i1, x1) :: v1) v2 ans.
Proof. cbn. destruct ans; reflexivity. Qed.

Lemma dot_loop_nil_l v2 ans : dot_loop add mult [] v2 ans = ans.
Proof. destruct v2 as [|[? ?] ?]; reflexivity. Qed.

Lemma dot_loop_nil_r v1 ans : dot_loop add mult v1 [] ans = ans.
Proof. destruct v1 as [|[? ?] ?]; reflexivity. Qed.

Lemma fold_oadd_none l ans :
  (forall x, In x l -> x = None) -> fold_left (oadd add) l ans = ans.
Proof.
  revert ans; induction l as [|x l IH]; intros ans H; simpl; auto.
  rewrite (H x) by (left; auto). rewrite IH by (intros; apply H; right; auto).
  destruct ans; reflexivity.
Qed.

Definition prods (v1 : row D1) (v2 : row D2) (lo n : nat) : list (option D3) :=
  map (fun k => omap2 mult (rget v1 k) (rget v2 k)) (seq lo n).

Lemma prods_skip v1 v2 v1' v2' lo mid hi ans :
  lo <= mid <= hi ->
  (forall k, lo <= k < mid -> omap2 mult (rget v1 k) (rget v2 k) = None) ->
  (forall k, mid <= k < hi ->
     omap2 mult (rget v1 k) (rget v2 k) = omap2 mult (rget v1' k) (rget v2' k)) ->
  fold_left (oadd add) (prods v1 v2 lo (hi - lo)) ans =
  fold_left (oadd add) (prods v1' v2' mid (hi - mid)) ans.
Proof.
  intros L H1 H2. unfold prods.
  replace (hi - lo) with ((mid - lo) + (hi - mid)) by lia.
  rewrite seq_app, map_app, fold_left_app.
  rewrite (fold_oadd_none (map _ (seq lo (mid - lo)))).
  - replace (lo + (mid - lo)) with mid by lia. f_equal. apply map_ext_in.
    intros k Hk. apply in_seq in Hk. apply H2. lia.
  - intros x Hx. apply in_map_iff in Hx. destruct Hx as (k & <- & Hk).
    apply in_seq in Hk. apply H1; lia.
Qed.

Lemma prods_cons v1 v2 k hi ans :
  k < hi ->
  fold_left (oadd add) (prods v1 v2 k (hi - k)) ans =
  fold_left (oadd add) (prods v1 v2 (S k) (hi - S k))
    (oadd add ans (omap2 mult (rget v1 k) (rget v2 k))).
Proof.
  intro H. unfold prods. replace (hi - k) with (S (hi - S k)) by lia. reflexivity.
Qed.

Lemma dot_loop_spec v1 : forall v2 lo hi ans,
  wfrow lo hi v1 -> wfrow lo hi v2 -> lo <= hi ->
  dot_loop add mult v1 v2 ans = fold_left (oadd add) (prods v1 v2 lo (hi - lo)) ans.
Proof.
  induction v1 as [|[i1 x1] v1 IH1]; intros v2 lo hi ans H1 H2 Hlo.
  - rewrite dot_loop_nil_l. unfold prods. rewrite fold_oadd_none; auto.
    intros x Hx. apply in_map_iff in Hx. destruct Hx as (k & <- & Hk). reflexivity.
  - revert lo H1 H2 Hlo; induction v2 as [|[i2 x2] v2 IH2]; intros lo H1 H2 Hlo.
    + rewrite dot_loop_nil_r. unfold prods. rewrite fold_oadd_none; auto.
      intros x Hx. apply in_map_iff in Hx. destruct Hx as (k & <- & Hk). simpl.
      destruct (i1 =? k); auto. destruct (rget v1 k); auto.
    + rewrite dot_loop_cons. pose proof H1 as [A1 B1]. pose proof H2 as [A2 B2].
      destruct (Nat.eqb_spec i2 i1) as [->|N]; [|destruct (Nat.ltb_spec i1 i2)].
      * rewrite (IH1 v2 (S i1) hi) by (auto; lia).
        rewrite (prods_skip ((i1, x1) :: v1) ((i1, x2) :: v2) ((i1, x1) :: v1) ((i1, x2) :: v2) lo i1 hi); [| lia | | auto].
        2:{ intros k Hk. simpl. destruct (Nat.eqb_spec i1 k); [lia|].
            rewrite (rget_lt v1 (S i1) hi); auto; lia. }
        rewrite (prods_cons ((i1, x1) :: v1) ((i1, x2) :: v2) i1 hi) by lia.
        replace (omap2 mult (rget ((i1, x1) :: v1) i1) (rget ((i1, x2) :: v2) i1))
          with (Some (mult x1 x2)) by (simpl; rewrite Nat.eqb_refl; reflexivity).
        apply eq_sym. apply prods_skip; [lia|intros; lia|].
        intros k Hk. simpl. destruct (Nat.eqb_spec i1 k); [lia|]. reflexivity.
      * rewrite (IH1 _ (S i1) hi) by (auto; simpl; try split; auto; lia).
        apply eq_sym. apply prods_skip; [lia| |].
        -- intros k Hk. simpl. destruct (Nat.eqb_spec i1 k).
           ++ destruct (Nat.eqb_spec i2 k); [lia|]. rewrite (rget_lt v2 (S i2) hi); auto; lia.
           ++ rewrite (rget_lt v1 (S i1) hi); auto; lia.
        -- intros k Hk. cbn [rget]. destruct (Nat.eqb_spec i1 k); [lia|]. reflexivity.
      * rewrite (IH2 (S i2)) by (auto; simpl; try split; auto; lia).
        apply eq_sym. apply prods_skip; [lia| |].
        -- intros k Hk. simpl. destruct (Nat.eqb_spec i1 k); [lia|].
           rewrite (rget_lt v1 (S i1) hi) by (auto; lia). reflexivity.
        -- intros k Hk. cbn [rget]. destruct (Nat.eqb_spec i2 k); [lia|]. reflexivity.
Qed.

Lemma dot_spec v1 v2 hi :
  wfrow 0 hi v1 -> wfrow 0 hi v2 ->
  dot add mult v1 v2 = osum add (map (fun k => omap2 mult (rget v1 k) (rget v2 k)) (seq 0 hi)).
Proof.
  intros. unfold dot, osum. rewrite (dot_loop_spec v1 v2 0 hi) by (auto; lia).
  unfold prods. rewrite Nat.sub_0_r. reflexivity.
Qed.

Lemma dot_rev_loop_dot v2 v1 ans :
  dot_rev_loop add mult v2 v1 ans = dot_loop add mult v2 v1 ans.
Proof.
  revert v1 ans; induction v2 as [|[i2 x2] v2 IH1]; intros v1 ans.
  - destruct v1 as [|[? ?] ?]; reflexivity.
  - revert ans; induction v1 as [|[i1 x1] v1 IH2]; intro ans; [reflexivity|].
    rewrite dot_loop_cons.
    change (dot_rev_loop add mult ((i2, x2) :: v2) ((i1, x1) :: v1) ans) with
      (if i2 =? i1 then dot_rev_loop add mult v2 v1
            (match ans with
             | Some a => Some (add a (mult x2 x1))
             | None => Some (mult x2 x1)
             end)
       else if i1 <? i2 then dot_rev_loop add mult ((i2, x2) :: v2) v1 ans
       else dot_rev_loop add mult v2 ((i1, x1) :: v1) ans).
    rewrite (Nat.eqb_sym i1 i2).
    destruct (Nat.eqb_spec i2 i1).
    + rewrite IH1. destruct ans; reflexivity.
    + destruct (Nat.ltb_spec i1 i2), (Nat.ltb_spec i2 i1); try lia; auto.
Qed.

Lemma dot_rev_spec v1 v2 hi :
  wfrow 0 hi v1 -> wfrow 0 hi v2 ->
  dot_rev add mult v1 v2 = osum add (map (fun k => omap2 mult (rget v1 k) (rget v2 k)) (seq 0 hi)).
Proof.
  intros. unfold dot_rev. rewrite dot_rev_loop_dot. apply dot_spec; auto.
Qed.
End DotP.
