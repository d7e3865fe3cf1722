(** Lemmas on the vector container. *)
From Coq Require Import Lia.
From Verif Require Import Base ModelLil ModelVec ModelHelpers Spec ProofBase ProofRow ProofLil.

Lemma vget_oob {T} (w : bvec T) i : wfv0 w -> vsize w <= i -> vget w i = None.
Proof.
  intros [L1 L2] H. unfold vget.
  rewrite (proj2 (nth_error_None (vbits w) i)) by lia. reflexivity.
Qed.

Lemma vget_bit {T} (w : bvec T) i :
  wfv0 w -> i < vsize w -> nth_error (vbits w) i = Some (is_some (vget w i)).
Proof.
  intros [L1 L2] H. unfold vget.
  destruct (nth_error (vbits w) i) as [b|] eqn:Eb.
  - destruct (nth_error (vvals w) i) as [v|] eqn:Ev.
    + destruct b; reflexivity.
    + apply nth_error_None in Ev. lia.
  - apply nth_error_None in Eb. lia.
Qed.

Lemma vat_bit {T} (w : bvec T) i :
  wfv0 w -> i < vsize w -> vat (vbits w) i = Ok (is_some (vget w i)).
Proof. intros. unfold vat. rewrite vget_bit; auto. Qed.

Lemma vat_val {T} (w : bvec T) i v : vget w i = Some v -> vat (vvals w) i = Ok v.
Proof.
  unfold vget, vat. destruct (nth_error (vbits w) i) as [[|]|]; try discriminate.
  destruct (nth_error (vvals w) i); congruence.
Qed.

(** ** Counting *)
Lemma vcount_upd {T U} n i (u : svec T) (u' : svec U) :
  i < n -> (forall k, k < n -> k <> i -> is_some (u k) = is_some (u' k)) ->
  vcount n u + (if is_some (u' i) then 1 else 0) = vcount n u' + (if is_some (u i) then 1 else 0).
Proof.
  intros Hi H. unfold vcount.
  replace n with (i + S (n - S i)) by lia. rewrite seq_app. simpl seq.
  rewrite !filter_app, !app_length. simpl filter.
  rewrite (filter_ext_in' (fun i0 => is_some (u i0)) (fun i0 => is_some (u' i0)) (seq 0 i)).
  2:{ intros x Hx. apply in_seq in Hx. apply H; lia. }
  rewrite (filter_ext_in' (fun i0 => is_some (u i0)) (fun i0 => is_some (u' i0)) (seq (S i) _)).
  2:{ intros x Hx. apply in_seq in Hx. apply H; lia. }
  destruct (is_some (u i)), (is_some (u' i)); simpl; lia.
Qed.

Lemma filter_seq_bits (bs : list bool) b :
  length (filter (fun i => nth (i - b) bs false) (seq b (length bs))) =
  length (filter (fun x => x) bs).
Proof.
  revert b; induction bs as [|x bs IH]; intro b; simpl; auto.
  rewrite Nat.sub_diag. specialize (IH (S b)).
  rewrite (filter_ext_in' (fun i => match i - b with 0 => x | S m => nth m bs false end)
             (fun i => nth (i - S b) bs false)).
  2:{ intros y Hy. apply in_seq in Hy. replace (y - b) with (S (y - S b)) by lia. auto. }
  destruct x; simpl; lia.
Qed.

Lemma vcount_bits {T} (w : bvec T) n :
  wfv0 w -> n <= vsize w ->
  vcount n (vget w) = length (filter (fun x => x) (firstn n (vbits w))).
Proof.
  intros W H. pose proof W as [L1 L2]. unfold vcount.
  rewrite <- (filter_seq_bits (firstn n (vbits w)) 0).
  rewrite firstn_length_le by lia. f_equal. apply filter_ext_in'.
  intros i Hi. apply in_seq in Hi. rewrite Nat.sub_0_r, nth_firstn'. ltb.
  pose proof (vget_bit w i W ltac:(lia)) as E.
  rewrite (nth_error_nth _ _ false E). reflexivity.
Qed.

Lemma vcount_none {T} n (u : svec T) : (forall i, i < n -> u i = None) -> vcount n u = 0.
Proof.
  intro H. unfold vcount. rewrite (filter_ext_in' _ (fun _ => false)).
  - induction (seq 0 n); simpl; auto.
  - intros x Hx. apply in_seq in Hx. rewrite H; auto. lia.
Qed.

Lemma vcount_all {T} n (u : svec T) : (forall i, i < n -> is_some (u i) = true) -> vcount n u = n.
Proof.
  intro H. unfold vcount. rewrite (filter_ext_in' _ (fun _ => true)).
  - transitivity (length (seq 0 n)); [|apply seq_length].
    induction (seq 0 n); simpl; auto.
  - intros x Hx. apply in_seq in Hx. apply H; auto. lia.
Qed.

Lemma vcount_trunc {T} n m (u : svec T) :
  n <= m -> vcount m (fun i => if i <? n then u i else None) = vcount n u.
Proof.
  intro H. unfold vcount. replace m with (n + (m - n)) by lia.
  rewrite seq_app, filter_app, app_length.
  rewrite (filter_ext_in' _ (fun i => is_some (u i)) (seq 0 n)).
  2:{ intros x Hx. apply in_seq in Hx. ltb; auto. }
  rewrite (filter_ext_in' _ (fun _ => false) (seq (0 + n) _)).
  2:{ intros x Hx. apply in_seq in Hx. ltb; auto. }
  assert (E : forall l : list nat, filter (fun _ => false) l = []) by (induction l; auto).
  rewrite E. simpl; lia.
Qed.

(** ** Stores *)
Lemma vec_store_ok {T} (w : bvec T) i v n :
  wfv0 w -> i < vsize w ->
  exists w', vec_store w i v n = Ok w' /\ wfv0 w' /\ vsize w' = vsize w /\ vnvals w' = n /\
    forall k, vget w' k = if k =? i then Some v else vget w k.
Proof.
  intros [L1 L2] H. unfold vec_store. rewrite vset_ok by lia. simpl. rewrite vset_ok by lia. simpl.
  eexists; split; [reflexivity|]. unfold wfv0; simpl. rewrite !upd_length.
  repeat split; auto. intro k. unfold vget; simpl. rewrite !nth_error_upd by lia.
  destruct (k =? i); auto.
Qed.

Lemma getContents_ok {T} (w : bvec T) :
  wfv0 w ->
  exists c, getContents w = Ok c /\ wfrow 0 (vsize w) c /\ forall i, rget c i = vget w i.
Proof.
  intro W. unfold getContents.
  destruct (mfor_seq_inv (fun k acc => wfrow 0 k acc /\
      forall i, rget acc i = if i <? k then vget w i else None)
    (fun idx acc => b <- vat (vbits w) idx ;;
       if b then v <- vat (vvals w) idx ;; Ok (acc ++ [(idx, v)]) else Ok acc)
    (vsize w) []) as (c & E & P1 & P2).
  - simpl; auto.
  - intros i s Hi [P1 P2]. rewrite vat_bit by auto. simpl.
    destruct (vget w i) as [v|] eqn:Ev; simpl.
    + rewrite (vat_val _ _ _ Ev). simpl. eexists; split; [reflexivity|]. split.
      * apply wfrow_app with (mid := i); simpl; auto; lia.
      * intro k. rewrite rget_app, P2. simpl.
        destruct (Nat.lt_trichotomy k i) as [Hk|[->|Hk]]; ltb; auto.
        destruct (vget w k); auto.
    + eexists; split; [reflexivity|]. split.
      * eapply wfrow_weaken; eauto.
      * intro k. rewrite P2. destruct (Nat.lt_trichotomy k i) as [Hk|[->|Hk]]; ltb; auto.
  - exists c. split; auto. split; auto. intro i. rewrite P2. ltb; auto.
    symmetry; apply vget_oob; auto.
Qed.

Lemma vec_clear_wf {T} (w : bvec T) : wfv0 w -> wfv (vec_clear w) /\ forall i, vget (vec_clear w) i = None.
Proof.
  intros [L1 L2].
  assert (G : forall i, vget (vec_clear w) i = None).
  { intro i. unfold vget, vec_clear; simpl. rewrite nth_error_repeat'. ltb; auto. }
  split; auto. unfold wfv, wfv0; simpl. rewrite repeat_length. repeat split; auto.
  rewrite vcount_none; auto.
Qed.

Lemma wfv_store {T} (w w' : bvec T) i v :
  wfv w -> vec_store w i v (if is_some (vget w i) then vnvals w else vnvals w + 1)%Z = Ok w' ->
  i < vsize w -> wfv w'.
Proof.
  intros [W N] E H.
  destruct (vec_store_ok w i v (if is_some (vget w i) then vnvals w else vnvals w + 1)%Z W H) as (w2 & E2 & W2 & S2 & N2 & G2).
  rewrite E in E2. injection E2 as <-. split; auto. rewrite N2, S2.
  pose proof (vcount_upd (vsize w) i (vget w) (vget w') H) as Q.
  rewrite G2, Nat.eqb_refl in Q. simpl in Q.
  rewrite N. destruct (is_some (vget w i)).
  - f_equal. enough (vcount (vsize w) (vget w) + 1 = vcount (vsize w) (vget w') + 1) by lia.
    apply Q. intros k Hk Nk. rewrite G2. ltb; auto.
  - enough (vcount (vsize w) (vget w) + 1 = vcount (vsize w) (vget w') + 0) by lia.
    apply Q. intros k Hk Nk. rewrite G2. ltb; auto.
Qed.

Lemma setContents_gen {S T} (cast : S -> T) (c : row S) : forall (w : bvec T) lo,
  wfv w -> wfrow lo (vsize w) c -> (forall i, lo <= i -> vget w i = None) ->
  exists w', mfor c (fun '(i, v) w' => vec_store w' i (cast v) (vnvals w' + 1)%Z) w = Ok w' /\
    wfv w' /\ vsize w' = vsize w /\
    forall i, vget w' i = match rget c i with Some v => Some (cast v) | None => vget w i end.
Proof.
  induction c as [|[j v] c IH]; intros w lo W Hc Hn; simpl.
  - exists w. auto.
  - destruct Hc as [H1 H2].
    destruct (vec_store_ok w j (cast v) (vnvals w + 1)%Z (proj1 W) ltac:(lia))
      as (w1 & E1 & W1 & S1 & N1 & G1).
    rewrite E1. simpl.
    assert (Ww1 : wfv w1).
    { apply (wfv_store w w1 j (cast v)); auto; try lia. rewrite Hn by lia. exact E1. }
    destruct (IH w1 (Datatypes.S j) Ww1) as (w' & E' & W' & S' & G').
    { rewrite S1; auto. }
    { intros i Hi. rewrite G1. ltb. apply Hn; lia. }
    exists w'. split; [exact E'|]. split; [auto|]. split; [congruence|].
    intro i. rewrite G', G1. rewrite (Nat.eqb_sym j i).
    destruct (Nat.eqb_spec i j) as [->|]; auto.
    rewrite (rget_lt c (Datatypes.S j) (vsize w)); auto.
Qed.

Lemma setContents_ok {S T} (cast : S -> T) (w : bvec T) (c : row S) :
  wfv0 w -> wfrow 0 (vsize w) c ->
  exists w', setContents cast w c = Ok w' /\ wfv w' /\ vsize w' = vsize w /\
    forall i, vget w' i = option_map cast (rget c i).
Proof.
  intros W Hc. destruct (vec_clear_wf w W) as [Wc Gc].
  destruct (setContents_gen cast c (vec_clear w) 0 Wc Hc) as (w' & E & W' & S' & G').
  { auto. }
  exists w'. repeat split; auto; try apply W'.
  intro i. rewrite G', Gc. destruct (rget c i); auto.
Qed.

(** ** Element operations *)
Lemma vec_hasElement_ok {T} (w : bvec T) i :
  wfv0 w -> vec_hasElement w i =
    if i <? vsize w then Ok (is_some (vget w i)) else Throw IndexOutOfBoundsException.
Proof.
  intro W. unfold vec_hasElement. ltb; auto. apply vat_bit; auto.
Qed.

Lemma vec_extractElement_ok {T} (w : bvec T) i :
  wfv0 w -> vec_extractElement w i =
    if i <? vsize w then match vget w i with Some v => Ok v | None => Throw NoValueException end
    else Throw IndexOutOfBoundsException.
Proof.
  intro W. unfold vec_extractElement. ltb; auto. rewrite vat_bit by auto. simpl.
  destruct (vget w i) eqn:E; simpl; auto. apply vat_val; auto.
Qed.

Lemma vec_setElement_ok {T} (w : bvec T) i v :
  wfv0 w -> i < vsize w ->
  exists w', vec_setElement w i v = Ok w' /\ wfv0 w' /\ vsize w' = vsize w /\
    vnvals w' = (vnvals w + if is_some (vget w i) then 0 else 1)%Z /\
    (forall k, vget w' k = if k =? i then Some v else vget w k) /\
    (wfv w -> wfv w').
Proof.
  intros W H. unfold vec_setElement. ltb. rewrite vat_bit by auto. simpl.
  destruct (vec_store_ok w i v (if is_some (vget w i) then vnvals w else vnvals w + 1)%Z W H)
    as (w' & E & W' & S' & N' & G').
  exists w'. repeat split; auto; try apply W'.
  - rewrite N'. destruct (is_some (vget w i)); lia.
  - destruct (wfv_store w w' i v H1 E H) as [_ Q]. exact Q.
Qed.

Lemma vec_removeElement_ok {T} (w : bvec T) i :
  wfv0 w -> i < vsize w ->
  exists w', vec_removeElement w i = Ok w' /\ wfv0 w' /\ vsize w' = vsize w /\
    vnvals w' = (vnvals w - if is_some (vget w i) then 1 else 0)%Z /\
    (forall k, vget w' k = if k =? i then None else vget w k) /\
    (wfv w -> wfv w').
Proof.
  intros W H. pose proof W as [L1 L2].
  unfold vec_removeElement. ltb. rewrite vat_bit by auto. simpl.
  destruct (vget w i) eqn:E; simpl.
  - rewrite vset_ok by lia. simpl. eexists; split; [reflexivity|].
    set (w' := mkVec _ _ _ _).
    assert (G : forall k, vget w' k = if k =? i then None else vget w k).
    { intro k. unfold vget, w'; simpl. rewrite nth_error_upd by lia. destruct (k =? i); auto. }
    assert (W' : wfv0 w') by (unfold wfv0, w'; simpl; rewrite upd_length; auto).
    split; [exact W'|]. split; [auto|]. split; [auto|]. split; [exact G|].
    intros [_ N]. split; [exact W'|].
    pose proof (vcount_upd (vsize w) i (vget w) (vget w') H) as Q.
    rewrite G, Nat.eqb_refl, E in Q. simpl in Q.
    change (vnvals w') with (vnvals w - 1)%Z. change (vsize w') with (vsize w). rewrite N.
    enough (vcount (vsize w) (vget w) + 0 = vcount (vsize w) (vget w') + 1) by lia.
    apply Q. intros k Hk Nk. rewrite G. ltb; auto.
  - exists w. repeat split; auto; try lia; try apply H1. intro k. ltb; subst; auto.
Qed.

(** ** Resize *)
Lemma vec_resize_ok {T} (dflt : T) (w : bvec T) n :
  wfv0 w ->
  wfv0 (vec_resize dflt w n) /\ vsize (vec_resize dflt w n) = n /\
  (forall i, vget (vec_resize dflt w n) i = if i <? n then vget w i else None) /\
  (wfv w -> wfv (vec_resize dflt w n)).
Proof.
  intro W. pose proof W as [L1 L2].
  assert (Hdiv : (n <? n / 2) = false).
  { apply Nat.ltb_ge. apply Nat.div_le_upper_bound; lia. }
  assert (G : forall nv, n <> vsize w ->
    forall i, vget (mkVec n nv (vresize (vvals w) n dflt) (vresize (vbits w) n false)) i =
      if i <? n then vget w i else None).
  { intros nv Hn i. unfold vget; simpl.
    destruct (Nat.ltb_spec i n).
    - rewrite (nth_error_nth' (vresize (vbits w) n false) false) by (rewrite vresize_length; auto).
      rewrite (nth_error_nth' (vresize (vvals w) n dflt) dflt) by (rewrite vresize_length; auto).
      rewrite !nth_vresize. ltb.
      destruct (Nat.lt_ge_cases i (vsize w)).
      + rewrite (nth_error_nth' (vbits w) false) by lia.
        rewrite (nth_error_nth' (vvals w) dflt) by lia. reflexivity.
      + rewrite (nth_overflow (vbits w)) by lia.
        rewrite (proj2 (nth_error_None (vbits w) i)) by lia. reflexivity.
    - rewrite (proj2 (nth_error_None _ i)); auto. rewrite vresize_length; lia. }
  unfold vec_resize. rewrite Hdiv.
  destruct (Nat.ltb_spec n (vsize w)); [|destruct (Nat.ltb_spec (vsize w) n)].
  - specialize (fun nv => G nv ltac:(lia)).
    split; [|split; [auto|split; [auto|]]].
    + unfold wfv0; simpl; rewrite !vresize_length; auto.
    + intros [_ N]. split; [unfold wfv0; simpl; rewrite !vresize_length; auto|].
      simpl. rewrite N. unfold count_true.
      match goal with |- _ = Z.of_nat (vcount n ?u) => rewrite (vcount_ext n u (vget w)) end.
      2:{ intros i Hi. rewrite G. ltb; auto. }
      rewrite !vcount_bits by (auto; lia).
      rewrite (firstn_all2 (n := vsize w)) by lia.
      rewrite <- (firstn_skipn n (vbits w)) at 1.
      rewrite filter_app, app_length. lia.
  - specialize (fun nv => G nv ltac:(lia)).
    split; [|split; [auto|split; [auto|]]].
    + unfold wfv0; simpl; rewrite !vresize_length; auto.
    + intros [_ N]. split; [unfold wfv0; simpl; rewrite !vresize_length; auto|].
      simpl. rewrite N. f_equal.
      rewrite <- (vcount_trunc (vsize w) n) by lia.
      apply vcount_ext. intros i Hi. rewrite G. ltb; auto.
      rewrite vget_oob; auto.
  - assert (n = vsize w) as -> by lia. split; [auto|split; [auto|split; [|auto]]].
    intro i. ltb; auto. apply vget_oob; auto.
Qed.

(** ** Build *)
Lemma vget_blank {T} n nv (dflt : T) i :
  vget (mkVec n nv (repeat dflt n) (repeat false n)) i = None.
Proof. unfold vget; simpl. rewrite nth_error_repeat'. ltb; auto. Qed.

Lemma wfv0_blank {T} n nv (dflt : T) : wfv0 (mkVec n nv (repeat dflt n) (repeat false n)).
Proof. unfold wfv0; simpl. rewrite !repeat_length; auto. Qed.

Lemma vec_build_loop {T} (dup : T -> T -> T) n ts : forall (f : bvec T),
  wfv0 f -> vsize f = n -> Forall (fun t => fst t < n) ts ->
  exists f', mfor ts
         (fun '(i, v) acc =>
            _ <- throw_if (n <=? i) IndexOutOfBoundsException ;;
            b <- vat (vbits acc) i ;;
            if b then
              old <- vat (vvals acc) i ;;
              vec_store acc i (dup old v) 0
            else vec_store acc i v 0) f = Ok f' /\ wfv0 f' /\ vsize f' = n /\
    forall i, vget f' i =
      osum dup (vget f i :: map (fun t => Some (snd t)) (filter (fun t => fst t =? i) ts)).
Proof.
  induction ts as [|[i v] ts IH]; intros f W Sf F.
  - exists f. simpl. split; [auto|]. split; [auto|]. split; [auto|].
    intro i. unfold osum; simpl. destruct (vget f i); auto.
  - inversion F as [|? ? Hi F']; subst. simpl in Hi. simpl.
    replace (throw_if (vsize f <=? i) IndexOutOfBoundsException) with (Ok tt : res unit)
      by (unfold throw_if; ltb; auto). simpl.
    rewrite vat_bit by auto. simpl.
    set (nv := match vget f i with Some old => dup old v | None => v end).
    assert (Q : (if is_some (vget f i) then old <- vat (vvals f) i;; vec_store f i (dup old v) 0
                 else vec_store f i v 0) = vec_store f i nv 0).
    { unfold nv. destruct (vget f i) eqn:E; simpl; auto. rewrite (vat_val _ _ _ E). reflexivity. }
    rewrite Q.
    destruct (vec_store_ok f i nv 0%Z W Hi) as (f1 & E1 & W1 & S1 & N1 & G1).
    rewrite E1. simpl.
    destruct (IH f1 W1 S1 F') as (f' & E' & W' & S' & G').
    exists f'. split; [exact E'|]. split; [auto|]. split; [auto|].
    intro k. rewrite G', G1. rewrite (Nat.eqb_sym i k).
    destruct (Nat.eqb_spec k i) as [->|]; simpl; auto.
    unfold nv, osum; simpl. destruct (vget f i); reflexivity.
Qed.

Lemma vec_build_ok {T} (dflt : T) dup (w : bvec T) ts :
  Forall (fun t => fst t < vsize w) ts ->
  exists w', vec_build dflt dup w ts = Ok w' /\ wfv0 w' /\ vsize w' = vsize w /\
    vnvals w' = Z.of_nat (length ts) /\
    forall i, vget w' i =
      osum dup (map (fun t => Some (snd t)) (filter (fun t => fst t =? i) ts)).
Proof.
  intro F. unfold vec_build.
  destruct (vec_build_loop dup (vsize w) ts _ (wfv0_blank (vsize w) 0 dflt) eq_refl F)
    as (f & E & W & Sf & G).
  rewrite E. simpl. eexists; split; [reflexivity|].
  destruct W as [W1 W2]. unfold wfv0; simpl. rewrite W1, W2. repeat split; auto.
  intro i. specialize (G i). rewrite vget_blank in G. exact G.
Qed.

Lemma vec_build_throw {T} (dflt : T) dup (w : bvec T) ts :
  ~ Forall (fun t => fst t < vsize w) ts ->
  vec_build dflt dup w ts = Throw IndexOutOfBoundsException.
Proof.
  intro NF. unfold vec_build.
  assert (H : forall f, wfv0 f -> vsize f = vsize w ->
    mfor ts
         (fun '(i, v) acc =>
            _ <- throw_if (vsize w <=? i) IndexOutOfBoundsException ;;
            b <- vat (vbits acc) i ;;
            if b then
              old <- vat (vvals acc) i ;;
              vec_store acc i (dup old v) 0
            else vec_store acc i v 0) f = Throw IndexOutOfBoundsException).
  { induction ts as [|[i v] ts IH]; intros f W Sf; [exfalso; apply NF; constructor|].
    simpl. unfold throw_if at 1. destruct (Nat.leb_spec (vsize w) i); simpl; auto.
    assert (NF' : ~ Forall (fun t => fst t < vsize w) ts).
    { intro F. apply NF. constructor; auto. }
    rewrite vat_bit by (auto; lia). simpl.
    destruct (vget f i) eqn:Ev; simpl.
    - rewrite (vat_val _ _ _ Ev). simpl.
      destruct (vec_store_ok f i (dup t v) 0%Z W ltac:(lia)) as (f1 & E1 & W1 & S1 & N1 & G1).
      rewrite E1. simpl. apply IH; auto. congruence.
    - destruct (vec_store_ok f i v 0%Z W ltac:(lia)) as (f1 & E1 & W1 & S1 & N1 & G1).
      rewrite E1. simpl. apply IH; auto. congruence. }
  rewrite H; auto. apply wfv0_blank.
Qed.

(** Distinct indices: every tuple adds one element. *)
Lemma vcount_ind n (l : list nat) :
  NoDup l -> Forall (fun i => i < n) l ->
  length (filter (fun i => existsb (Nat.eqb i) l) (seq 0 n)) = length l.
Proof.
  intros ND F. apply Nat.le_antisymm.
  - apply NoDup_incl_length.
    + apply NoDup_filter, seq_NoDup.
    + intros x Hx. apply filter_In in Hx. destruct Hx as [_ Hx].
      apply existsb_exists in Hx. destruct Hx as (y & Hy & E). apply Nat.eqb_eq in E. subst; auto.
  - apply NoDup_incl_length; auto.
    intros x Hx. apply filter_In. split.
    + apply in_seq. rewrite Forall_forall in F. specialize (F x Hx). lia.
    + apply existsb_exists. exists x. split; auto. apply Nat.eqb_refl.
Qed.

Lemma filter_fst_none {T} (ts : list (nat * T)) i :
  existsb (Nat.eqb i) (map fst ts) = false -> filter (fun t => fst t =? i) ts = [].
Proof.
  induction ts as [|[k v] ts IH]; simpl; auto. rewrite orb_false_iff.
  intros [H1 H2]. rewrite Nat.eqb_sym, H1. auto.
Qed.

Lemma filter_fst_some {T} (ts : list (nat * T)) i :
  existsb (Nat.eqb i) (map fst ts) = true -> filter (fun t => fst t =? i) ts <> [].
Proof.
  induction ts as [|[k v] ts IH]; simpl; [discriminate|]. rewrite orb_true_iff.
  rewrite (Nat.eqb_sym i k). destruct (k =? i); [intros _; discriminate|].
  intros [H|H]; [discriminate|auto].
Qed.

Lemma fold_oadd_some {T} (dup : T -> T -> T) l a :
  exists b, fold_left (oadd dup) l (Some a) = Some b.
Proof.
  revert a; induction l as [|[x|] l IH]; intro a; simpl; eauto.
Qed.

Lemma osum_some {T} (dup : T -> T -> T) (ts : list (nat * T)) :
  is_some (osum dup (map (fun t => Some (snd t)) ts)) = match ts with [] => false | _ => true end.
Proof.
  destruct ts as [|[k v] ts]; auto. unfold osum; simpl.
  destruct (fold_oadd_some dup (map (fun t => Some (snd t)) ts) v) as (b & E).
  rewrite E; auto.
Qed.

Lemma vec_build_wf {T} (dflt : T) dup (w w' : bvec T) ts :
  vec_build dflt dup w ts = Ok w' -> NoDup (map fst ts) ->
  Forall (fun t => fst t < vsize w) ts -> wfv w'.
Proof.
  intros E ND F. destruct (vec_build_ok dflt dup w ts F) as (w2 & E2 & W & S & N & G).
  rewrite E in E2. injection E2 as <-. split; auto. rewrite N, S. f_equal.
  rewrite <- (map_length fst ts). rewrite <- (vcount_ind (vsize w) (map fst ts)); auto.
  - unfold vcount. f_equal. apply filter_ext_in'. intros i Hi. rewrite G, osum_some.
    destruct (existsb (Nat.eqb i) (map fst ts)) eqn:Ex.
    + apply filter_fst_some in Ex. destruct (filter _ ts); auto. congruence.
    + rewrite (filter_fst_none _ _ Ex). reflexivity.
  - apply Forall_map; auto.
Qed.

(** ** Equality *)
Lemma vec_eqb_spec {T} eqb (u v : bvec T) :
  (forall a b : T, eqb a b = true <-> a = b) -> wfv0 u -> wfv0 v ->
  exists b, vec_eqb eqb u v = Ok b /\
    (b = true <-> vsize u = vsize v /\ vnvals u = vnvals v /\
       forall i, i < vsize u -> vget u i = vget v i).
Proof.
  intros H Wu Wv. unfold vec_eqb.
  destruct (Nat.eqb_spec (vsize u) (vsize v)) as [Es|]; simpl.
  2:{ exists false. split; auto. split; [discriminate|]. intros [? _]; contradiction. }
  destruct (Z.eqb_spec (vnvals u) (vnvals v)) as [En|]; simpl.
  2:{ exists false. split; auto. split; [discriminate|]. intros (_ & ? & _); contradiction. }
  match goal with |- exists b, mfor _ ?f _ = _ /\ _ => set (body := f) end.
  destruct (mfor_seq_inv (fun k ans => (ans = true <-> forall i, i < k -> vget u i = vget v i))
    body (vsize u) true) as (b & E & P).
  - split; auto. intros _ i Hi. lia.
  - intros i ans Hi P. unfold body. destruct ans; simpl.
    + rewrite (vat_bit u) by auto. simpl. rewrite (vat_bit v) by (auto; lia). simpl.
      assert (Q : forall b, (b = true <-> vget u i = vget v i) ->
         (b = true <-> forall k, k < S i -> vget u k = vget v k)).
      { intros b Hb. rewrite Hb. split.
        - intros E k Hk. destruct (Nat.eq_dec k i) as [->|]; auto. apply P; auto. lia.
        - intro F. apply F. lia. }
      destruct (vget u i) as [a|] eqn:Eu; destruct (vget v i) as [c|] eqn:Ev; simpl.
      * rewrite (vat_val _ _ _ Eu). simpl. rewrite (vat_val _ _ _ Ev). simpl.
        eexists; split; [reflexivity|]. apply Q. rewrite H. split; congruence.
      * eexists; split; [reflexivity|]. apply Q. split; discriminate.
      * eexists; split; [reflexivity|]. apply Q. split; discriminate.
      * eexists; split; [reflexivity|]. apply Q. split; auto.
    + eexists; split; [reflexivity|]. split; [discriminate|]. intro F.
      exfalso. assert (false = true) by (apply P; intros; apply F; lia). discriminate.
  - exists b. split; auto. rewrite P. tauto.
Qed.

(** ** Dense construction *)
Lemma vec_dense_ok {T} (rhs : list T) :
  rhs <> [] ->
  exists w, vec_dense rhs = Ok w /\ wfv w /\ vsize w = length rhs /\
    forall i, vget w i = nth_error rhs i.
Proof.
  intro H. unfold vec_dense. destruct (Nat.eqb_spec (length rhs) 0) as [E|].
  { destruct rhs; simpl in *; congruence. }
  eexists; split; [reflexivity|].
  assert (G : forall i, vget (mkVec (length rhs) (Z.of_nat (length rhs)) rhs
                                (repeat true (length rhs))) i = nth_error rhs i).
  { intro i. unfold vget; simpl. rewrite nth_error_repeat'. destruct (Nat.ltb_spec i (length rhs)).
    - destruct (nth_error rhs i); auto.
    - symmetry. apply nth_error_None; auto. }
  split; [|auto]. split.
  - unfold wfv0; simpl. rewrite repeat_length; auto.
  - simpl. rewrite vcount_all; auto. intros i Hi. rewrite G.
    destruct (nth_error rhs i) eqn:E; auto. apply nth_error_None in E. lia.
Qed.

Lemma vec_dense_zero_ok {T} (dflt : T) keep (rhs : list T) :
  rhs <> [] ->
  exists w, vec_dense_zero dflt keep rhs = Ok w /\ wfv w /\ vsize w = length rhs /\
    forall i, vget w i = match nth_error rhs i with
                         | Some v => if keep v then Some v else None
                         | None => None
                         end.
Proof.
  intro H. unfold vec_dense_zero. destruct (Nat.eqb_spec (length rhs) 0) as [E|].
  { destruct rhs; simpl in *; congruence. }
  match goal with |- exists w, mfor _ ?f ?s = _ /\ _ => set (body := f); set (s0 := s) end.
  destruct (mfor_seq_inv (fun k w => wfv w /\ vsize w = length rhs /\
      forall i, vget w i = if i <? k then match nth_error rhs i with
                         | Some v => if keep v then Some v else None
                         | None => None
                         end else None) body (length rhs) s0) as (w & E & W & S & G).
  - assert (G0 : forall i, vget s0 i = None) by (intro; apply vget_blank).
    split; [split; [apply wfv0_blank|]|split; auto].
    unfold s0; simpl. rewrite vcount_none; auto.
  - intros i w Hi (W & S & G). unfold body.
    destruct (nth_error rhs i) as [v|] eqn:Ev; [|apply nth_error_None in Ev; lia].
    unfold vat. rewrite Ev. simpl. destruct (keep v) eqn:K.
    + assert (Gi : vget w i = None) by (rewrite G; ltb; auto).
      destruct (vec_store_ok w i v (vnvals w + 1)%Z (proj1 W) ltac:(lia)) as (w1 & E1 & W1 & S1 & N1 & G1).
      exists w1. split; auto. split; [|split; [congruence|]].
      * apply (wfv_store w w1 i v); auto; try lia. rewrite Gi. exact E1.
      * intro k. rewrite G1, G. destruct (Nat.lt_trichotomy k i) as [Hk|[->|Hk]]; ltb; auto.
        rewrite Ev, K; auto.
    + exists w. split; auto. split; [auto|split; [auto|]].
      intro k. rewrite G. destruct (Nat.lt_trichotomy k i) as [Hk|[->|Hk]]; ltb; auto.
      rewrite Ev, K; auto.
  - exists w. split; auto. split; auto. split; auto. intro i. rewrite G.
    destruct (Nat.ltb_spec i (length rhs)); auto.
    rewrite (proj2 (nth_error_None rhs i)); auto.
Qed.

Lemma vec_new_ok {T} (dflt : T) n :
  n <> 0 -> exists w, vec_new dflt n = Ok w /\ wfv w /\ vsize w = n /\ forall i, vget w i = None.
Proof.
  intro H. unfold vec_new. destruct (Nat.eqb_spec n 0); [lia|].
  eexists; split; [reflexivity|].
  assert (G : forall i, vget (mkVec n 0 (repeat dflt n) (repeat false n)) i = None)
    by (intro; apply vget_blank).
  split; [split; [apply wfv0_blank|]|auto]. simpl. rewrite vcount_none; auto.
Qed.
