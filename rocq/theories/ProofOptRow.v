(** The masked row helpers of the optimized product. *)
From Coq Require Import Lia.
From Verif Require Import Base ModelLil ModelVec ModelHelpers ModelViews ModelOptMxm Spec SpecOps.
From Verif Require Import ProofBase ProofRow ProofLil ProofVec ProofCalls ProofWrite ProofViews ProofMul.

(** [t] is a sorted row with the contents of [f]. *)
Definition gives {T} (nc : nat) (f : svec T) (t : row T) : Prop :=
  wfrow 0 nc t /\ forall j, j < nc -> rget t j = f j.

Lemma gives_ext {T} nc (f g : svec T) t :
  gives nc f t -> (forall j, j < nc -> f j = g j) -> gives nc g t.
Proof. intros [W G] H. split; auto. intros. rewrite <- H by auto. auto. Qed.

Lemma gives_unique {T} nc (f : svec T) t t' : gives nc f t -> gives nc f t' -> t = t'.
Proof.
  intros [W G] [W' G']. apply (row_ext t t' 0 nc); auto. intros. rewrite G, G'; auto; lia.
Qed.

Lemma gives_cast {S T} (g : S -> T) nc f t :
  gives nc f t -> gives nc (fun j => option_map g (f j)) (cast_row g t).
Proof.
  intros [W G]. split; [apply wfrow_cast; auto|]. intros. rewrite rget_cast, G; auto.
Qed.

Lemma drop_drop {T} (m : row T) j k :
  j <= k -> drop_below (drop_below m j) k = drop_below m k.
Proof.
  intro H. induction m as [|[x v] m IH]; simpl; auto. ltb; simpl; ltb; auto; lia.
Qed.

Lemma filter_false {A} (f : A -> bool) l : (forall x, In x l -> f x = false) -> filter f l = [].
Proof.
  induction l as [|x l IH]; intro H; simpl; auto.
  rewrite (H x) by (left; auto). apply IH. intros; apply H; right; auto.
Qed.

Lemma filter_true {A} (f : A -> bool) l : (forall x, In x l -> f x = true) -> filter f l = l.
Proof.
  induction l as [|x l IH]; intro H; simpl; auto.
  rewrite (H x) by (left; auto). f_equal. apply IH. intros; apply H; right; auto.
Qed.

Lemma filter_wf {T} (f : nat * T -> bool) r : forall lo hi, wfrow lo hi r -> wfrow lo hi (filter f r).
Proof.
  induction r as [|[k v] r IH]; intros lo hi W; simpl; auto. destruct W as [H W].
  destruct (f (k, v)); simpl; [auto|]. eapply wfrow_weaken; [apply IH; eauto|lia|lia].
Qed.

Lemma filter_rget {T} (f : nat -> bool) (r : row T) : forall lo hi j, wfrow lo hi r ->
  rget (filter (fun p => f (fst p)) r) j = if f j then rget r j else None.
Proof.
  induction r as [|[k v] r IH]; intros lo hi j W; simpl; [destruct (f j); auto|].
  destruct W as [H W]. specialize (IH _ _ j W).
  destruct (f k) eqn:E; simpl.
  - ltb; subst; [rewrite E; auto|]. auto.
  - rewrite IH. ltb; subst; auto. rewrite E; auto.
Qed.

(** ** The mask iterator *)
Section M.
Context {TM : Type} (truthy : TM -> bool) (sf : bool).

(** What a mask row says about index [j]. *)
Definition mtest (rm : row TM) (j : nat) : bool :=
  match rget rm j with Some v => sf || truthy v | None => false end.

Definition agree (P : nat -> bool) (lo : nat) (m : row TM) : Prop :=
  forall k, lo <= k -> mask_at truthy sf (drop_below m k) k = P k.

Lemma agree_drop P lo m j : agree P lo m -> lo <= j -> agree P j (drop_below m j).
Proof. intros H Hj k Hk. rewrite drop_drop by auto. apply H. lia. Qed.

Lemma agree_weaken P lo lo' m : agree P lo m -> lo <= lo' -> agree P lo' m.
Proof. intros H Hj k Hk. apply H. lia. Qed.

Lemma mask_at_test m hi : wfrow 0 hi m -> agree (mtest m) 0 m.
Proof.
  intros W k _. unfold mtest. pose proof (drop_below_head m 0 hi k W) as H.
  destruct (drop_below m k) as [|[x v] r]; simpl.
  - rewrite H by lia. reflexivity.
  - destruct H as (H1 & H2 & H3 & H4 & H5 & H6). destruct (Nat.eqb_spec x k).
    + subst. rewrite H4. reflexivity.
    + rewrite H5 by lia. reflexivity.
Qed.

(** ** The helpers as filters *)
Section F.
Context (cf : bool) (P : nat -> bool).
Let allow (j : nat) : bool := xorb (P j) cf.
Let nallow (j : nat) : bool := negb (allow j).

Lemma eqb_allow j : Bool.eqb (P j) cf = negb (allow j).
Proof. unfold allow. destruct (P j), cf; reflexivity. Qed.

Lemma masked_axpy_filter {TA TB TT} (add : TT -> TT -> TT) (mult : TA -> TB -> TT) a b :
  forall c m lo hi, wfrow lo hi b -> agree P lo m ->
  masked_axpy_loop truthy sf cf add mult a c m b =
  axpy add mult a c (filter (fun p => allow (fst p)) b).
Proof.
  induction b as [|[j bj] b IH]; intros c m lo hi W H; simpl; auto.
  destruct W as [Hj W]. rewrite H by lia. rewrite eqb_allow.
  assert (H' : agree P (S j) (drop_below m j)).
  { apply agree_weaken with (lo := j); [|lia]. apply agree_drop with (lo := lo); auto. lia. }
  destruct (allow j); simpl; [|eapply IH; eauto].
  f_equal. destruct (drop_below c j) as [|[k y] c'].
  - f_equal. eapply IH; eauto.
  - destruct (k =? j); f_equal; eapply IH; eauto.
Qed.

Lemma mask_row_filter {TT TO} (g : TT -> TO) t :
  forall m lo hi, wfrow lo hi t -> agree P lo m ->
  mask_row_loop truthy sf cf g m t = cast_row g (filter (fun p => allow (fst p)) t).
Proof.
  induction t as [|[j v] t IH]; intros m lo hi W H; simpl; auto.
  destruct W as [Hj W]. rewrite H by lia. rewrite eqb_allow.
  assert (H' : agree P (S j) (drop_below m j)).
  { apply agree_weaken with (lo := j); [|lia]. apply agree_drop with (lo := lo); auto. lia. }
  destruct (allow j); simpl; [f_equal|]; eapply IH; eauto.
Qed.

Lemma ewise_or_before {D1 D2 D3} (op : D1 -> D2 -> D3) c1 c2 v1 i x v2 hi :
  wfrow (S i) hi v1 ->
  ewise_or op c1 c2 v1 ((i, x) :: v2) = (i, c2 x) :: ewise_or op c1 c2 v1 v2.
Proof.
  destruct v1 as [|[k y] v1]; intro W.
  - rewrite !ewise_or_nil_l. reflexivity.
  - destruct W as [H W]. rewrite ewise_or_cons. ltb; auto.
Qed.

Lemma masked_accum_nil {TC TT TZ} (f : TC -> TT -> TZ) cz tz c :
  forall m lo hi, wfrow lo hi c -> agree P lo m ->
  masked_accum truthy sf cf f cz tz [] m c = cast_row cz (filter (fun p => allow (fst p)) c).
Proof.
  induction c as [|[j v] c IH]; intros m lo hi W H; simpl; auto.
  destruct W as [Hj W]. rewrite H by lia. rewrite eqb_allow.
  assert (H' : agree P (S j) (drop_below m j)).
  { apply agree_weaken with (lo := j); [|lia]. apply agree_drop with (lo := lo); auto. lia. }
  destruct (allow j); simpl; [f_equal|]; eapply IH; eauto.
Qed.

Lemma masked_accum_filter {TC TT TZ} (f : TC -> TT -> TZ) cz tz t :
  forall c m lo hi, wfrow lo hi t -> wfrow lo hi c -> agree P lo m ->
  (forall p, In p t -> allow (fst p) = true) ->
  masked_accum truthy sf cf f cz tz t m c =
  ewise_or f cz tz (filter (fun p => allow (fst p)) c) t.
Proof.
  induction t as [|[ti tv] t IHt].
  { intros c m lo hi _ W H _. rewrite ewise_or_nil_r. eapply masked_accum_nil; eauto. }
  induction c as [|[ci cv] c IHc]; intros m lo hi Wt Wc H Ht.
  - destruct Wt as [Ht1 Wt].
    assert (Q : masked_accum truthy sf cf f cz tz t m [] = cast_row tz t).
    { rewrite (IHt [] m (S ti) hi); auto.
      - apply ewise_or_nil_l.
      - eapply agree_weaken; eauto. lia.
      - intros; apply Ht; right; auto. }
    simpl filter. rewrite ewise_or_nil_l. simpl cast_row. rewrite <- Q. reflexivity.
  - pose proof Wt as Wt0. destruct Wt as [Ht1 Wt]. pose proof Wc as Wc0. destruct Wc as [Hc1 Wc].
    assert (Ha : allow ti = true) by (apply (Ht (ti, tv)); left; auto).
    assert (Ht' : forall p, In p t -> allow (fst p) = true) by (intros; apply Ht; right; auto).
    change (masked_accum truthy sf cf f cz tz ((ti, tv) :: t) m ((ci, cv) :: c)) with
      (if ti <? ci then (ti, tz tv) :: masked_accum truthy sf cf f cz tz t m ((ci, cv) :: c)
       else if ci <? ti then
          if Bool.eqb (mask_at truthy sf (drop_below m ci) ci) cf
          then masked_accum truthy sf cf f cz tz ((ti, tv) :: t) (drop_below m ci) c
          else (ci, cz cv) :: masked_accum truthy sf cf f cz tz ((ti, tv) :: t) (drop_below m ci) c
       else (ti, f cv tv) :: masked_accum truthy sf cf f cz tz t m c).
    destruct (Nat.ltb_spec ti ci).
    + rewrite (ewise_or_before f cz tz _ ti tv t hi).
      * f_equal. apply (IHt _ m (S ti) hi); auto.
        -- simpl; auto. split; [lia|auto].
        -- eapply agree_weaken; eauto. lia.
      * apply filter_wf. simpl. split; [lia|auto].
    + destruct (Nat.ltb_spec ci ti).
      * rewrite H by lia. rewrite eqb_allow.
        assert (H' : agree P (S ci) (drop_below m ci)).
        { apply agree_weaken with (lo := ci); [|lia]. apply agree_drop with (lo := lo); auto. lia. }
        assert (Q : masked_accum truthy sf cf f cz tz ((ti, tv) :: t) (drop_below m ci) c =
                    ewise_or f cz tz (filter (fun p => allow (fst p)) c) ((ti, tv) :: t)).
        { apply (IHc _ (S ci) hi); auto. simpl. split; [lia|auto]. }
        simpl filter. destruct (allow ci); simpl negb; cbv iota; [|exact Q].
        rewrite Q. rewrite ewise_or_cons. ltb; auto.
      * assert (ti = ci) by lia. subst ci. simpl filter. rewrite Ha. rewrite ewise_or_cons.
        ltb. f_equal. apply (IHt _ m (S ti) hi); auto. eapply agree_weaken; eauto. lia.
Qed.

Lemma merge_rest_filter {TC} (ci : row TC) :
  forall m lo hi, wfrow lo hi ci -> agree P lo m ->
  merge_rest truthy sf cf m ci = filter (fun p => nallow (fst p)) ci.
Proof.
  induction ci as [|[j v] c IH]; intros m lo hi W H; simpl; auto.
  destruct W as [Hj W]. rewrite H by lia. rewrite eqb_allow.
  assert (H' : agree P (S j) (drop_below m j)).
  { apply agree_weaken with (lo := j); [|lia]. apply agree_drop with (lo := lo); auto. lia. }
  unfold nallow at 1. destruct (allow j); simpl; [|f_equal]; eapply IH; eauto.
Qed.

Lemma merge_below_filter {TC} (ci : row TC) :
  forall nz m lo hi, wfrow lo hi ci -> agree P lo m -> lo <= nz ->
  exists m', merge_below truthy sf cf nz m ci =
    (filter (fun p => nallow (fst p)) (take_below ci nz), m', drop_below ci nz) /\ agree P nz m'.
Proof.
  induction ci as [|[j v] c IH]; intros nz m lo hi W H Hn; simpl.
  - exists m. split; auto. eapply agree_weaken; eauto.
  - destruct W as [Hj W]. destruct (Nat.ltb_spec j nz).
    + rewrite H by lia. rewrite eqb_allow.
      assert (H' : agree P (S j) (drop_below m j)).
      { apply agree_weaken with (lo := j); [|lia]. apply agree_drop with (lo := lo); auto. lia. }
      destruct (IH nz _ _ _ W H') as (m' & E & A); [lia|]. rewrite E. exists m'. split; auto.
    + exists m. split; auto. eapply agree_weaken; eauto.
Qed.

Lemma filter_drop_S {TC} (r : row TC) nz lo hi :
  wfrow lo hi r -> allow nz = true ->
  filter (fun p => nallow (fst p)) (drop_below (drop_below r nz) (S nz)) =
  filter (fun p => nallow (fst p)) (drop_below r nz).
Proof.
  intros W E. rewrite drop_drop by lia.
  apply (row_ext _ _ 0 hi).
  - apply filter_wf. eapply wfrow_weaken; [apply drop_below_wf; eauto|lia|lia].
  - apply filter_wf. eapply wfrow_weaken; [apply drop_below_wf; eauto|lia|lia].
  - intros j _. pose proof (drop_below_wf r lo hi nz W). pose proof (drop_below_wf r lo hi (S nz) W).
    rewrite !(filter_rget nallow _ _ _ j) by eauto.
    rewrite !(rget_drop r lo hi) by auto.
    unfold nallow. destruct (allow j) eqn:Ej; simpl; auto. ltb; auto.
    assert (j = nz) by lia. congruence.
Qed.

Lemma masked_merge_cons {TC TZ} (zc : TZ -> TC) m ci nz x (z : row TZ) lo hi :
  wfrow lo hi ci -> agree P lo m -> lo <= nz -> wfrow (S nz) hi z ->
  allow nz = true ->
  exists m', agree P nz m' /\
  masked_merge truthy sf cf zc m ci ((nz, x) :: z) =
  filter (fun p => nallow (fst p)) (take_below ci nz) ++
  (nz, zc x) :: masked_merge truthy sf cf zc m' (drop_below ci nz) z.
Proof.
  intros Wc H Hn Wz Ha. unfold masked_merge. simpl.
  destruct (merge_below_filter ci nz m lo hi Wc H Hn) as (m' & E & A). rewrite E.
  exists m'. split; auto.
  pose proof (drop_below_wf ci lo hi nz Wc) as Wd.
  destruct z as [|[n2 x2] z].
  - simpl. rewrite <- app_assoc. simpl. f_equal. f_equal.
    rewrite (merge_rest_filter _ _ nz hi).
    + rewrite (filter_drop_S ci nz lo hi) by auto. symmetry. apply (merge_rest_filter _ _ nz hi); auto.
      eapply wfrow_weaken; eauto; lia.
    + eapply wfrow_weaken; [apply drop_below_wf; eauto|lia|lia].
    + auto.
  - destruct (merge_loop truthy sf cf zc ((n2, x2) :: z) m' (drop_below ci nz)) as [[o2 m2] c2] eqn:E2.
    rewrite <- app_assoc. simpl. f_equal. f_equal.
    destruct (rev z ++ [(n2, x2)]) as [|[a b] l] eqn:ER; [destruct (rev z); discriminate|].
    simpl. reflexivity.
Qed.

Lemma ewise_or_split {D1 D2} (op : D1 -> D2 -> D1) c2 l1 l2 i x v2 hi :
  wfrow 0 i l1 -> wfrow (S i) hi l2 ->
  ewise_or op (fun y => y) c2 (l1 ++ l2) ((i, x) :: v2) =
  l1 ++ (i, c2 x) :: ewise_or op (fun y => y) c2 l2 v2.
Proof.
  intros W1 W2. assert (G : forall lo, wfrow lo i l1 ->
    ewise_or op (fun y => y) c2 (l1 ++ l2) ((i, x) :: v2) =
    l1 ++ (i, c2 x) :: ewise_or op (fun y => y) c2 l2 v2); [|eauto].
  clear W1. induction l1 as [|[k y] l1 IH]; intros lo W1; simpl app.
  - eapply ewise_or_before; eauto.
  - destruct W1 as [H W1]. rewrite ewise_or_cons. ltb. f_equal. eapply IH; eauto.
Qed.

Lemma take_filter_wf {TC} (r : row TC) g lo hi j :
  wfrow lo hi r -> wfrow 0 j (filter g (take_below r j)).
Proof.
  intro W. apply filter_wf. eapply wfrow_weaken; [apply take_below_wf; eauto|lia|lia].
Qed.

Lemma masked_merge_filter {TC TZ} (zc : TZ -> TC) (z : row TZ) :
  forall m ci lo hi, wfrow lo hi z -> wfrow lo hi ci -> agree P lo m ->
  (forall p, In p z -> allow (fst p) = true) ->
  masked_merge truthy sf cf zc m ci z =
  ewise_or (fun _ x => zc x) (fun y => y) zc (filter (fun p => nallow (fst p)) ci) z.
Proof.
  induction z as [|[nz x] z IH]; intros m ci lo hi Wz Wc H Hz.
  - unfold masked_merge. simpl. rewrite ewise_or_nil_r, cast_id.
    eapply merge_rest_filter; eauto.
  - destruct Wz as [Hn Wz].
    assert (Ha : allow nz = true) by (apply (Hz (nz, x)); left; auto).
    destruct (masked_merge_cons zc m ci nz x z lo hi Wc H) as (m' & A & ->); auto; [lia|].
    pose proof (drop_below_wf ci lo hi nz Wc) as Wd.
    pose proof (drop_below_wf ci lo hi (S nz) Wc) as Wd2.
    assert (Q : filter (fun p => nallow (fst p)) ci =
      filter (fun p => nallow (fst p)) (take_below ci nz) ++
      filter (fun p => nallow (fst p)) (drop_below (drop_below ci nz) (S nz))).
    { rewrite (filter_drop_S ci nz lo hi) by auto. rewrite <- filter_app, take_drop. reflexivity. }
    rewrite Q. rewrite (ewise_or_split _ _ _ _ _ _ _ hi).
    + f_equal. f_equal. rewrite (filter_drop_S ci nz lo hi) by auto.
      destruct z as [|[n2 x2] z].
      * unfold masked_merge. simpl. rewrite ewise_or_nil_r, cast_id.
        apply (merge_rest_filter _ _ nz hi); auto. eapply wfrow_weaken; eauto; lia.
      * apply (IH _ _ nz hi); auto.
        -- eapply wfrow_weaken; eauto.
        -- eapply wfrow_weaken; eauto; lia.
        -- intros; apply Hz; right; auto.
    + eapply take_filter_wf; eauto.
    + apply filter_wf. rewrite drop_drop by lia. eapply wfrow_weaken; eauto; lia.
Qed.
End F.
End M.
