(** Proofs about assign. *)
From Coq Require Import Lia Permutation Sorted.
From Verif Require Import Base ModelLil ModelVec ModelHelpers ModelViews ModelIndex.
From Verif Require Import Spec SpecOps SpecIndex ProofBase ProofRow ProofLil ProofVec ProofWrite.
From Verif Require Import ProofViews ProofMask ProofMul ProofElem ProofKron ProofIndex.

(** ** Positions in an index list *)

Definition lpos (l : list nat) (o : nat) : option nat :=
  find (fun k => match nth_error l k with Some i => i =? o | None => false end)
    (seq 0 (length l)).

Lemma lpos_some l o k : lpos l o = Some k -> nth_error l k = Some o.
Proof.
  intro H. apply find_some in H. destruct H as [_ H].
  destruct (nth_error l k); [|discriminate]. apply Nat.eqb_eq in H. congruence.
Qed.

Lemma lpos_in l o : In o l -> exists k, lpos l o = Some k.
Proof.
  intro H. destruct (lpos l o) as [k|] eqn:E; eauto. exfalso.
  apply In_nth_error in H. destruct H as (k & H).
  pose proof (find_none _ _ E k) as N. simpl in N. rewrite H, Nat.eqb_refl in N.
  assert (k < length l) by (apply nth_error_Some; congruence).
  assert (true = false) by (apply N; apply in_seq; lia). discriminate.
Qed.

Lemma lpos_none l o : lpos l o = None <-> ~ In o l.
Proof.
  split.
  - intros H I. destruct (lpos_in l o I). congruence.
  - intro H. destruct (lpos l o) as [k|] eqn:E; auto. exfalso. apply H.
    eapply nth_error_In. eapply lpos_some; eauto.
Qed.

Lemma lpos_nodup l o k : NoDup l -> nth_error l k = Some o -> lpos l o = Some k.
Proof.
  intros N H. destruct (lpos_in l o) as [k' E]; [eapply nth_error_In; eauto|].
  rewrite E. f_equal. pose proof (lpos_some _ _ _ E) as H'.
  eapply NoDup_nth_error; eauto; [|congruence]. apply nth_error_Some. congruence.
Qed.

Lemma pos_lpos s n o : idx_size s n -> pos s n o = lpos (idx_list (setupIndices s n)) o.
Proof.
  intro S. unfold pos, lpos. rewrite idx_size_length by auto.
  assert (H : forall l, (forall k, In k l -> k < n) ->
    find (fun k => match sel s k with Some i => i =? o | None => false end) l =
    find (fun k => match nth_error (idx_list (setupIndices s n)) k with
                   | Some i => i =? o | None => false end) l).
  { induction l as [|k l IH]; intro Hl; simpl; auto.
    rewrite IH by (intros; apply Hl; right; auto).
    rewrite sel_list by (eapply idx_size_fwd; eauto).
    pose proof (Hl k (or_introl eq_refl)).
    destruct s; auto. simpl. ltb; auto. }
  apply H. intros k Hk. apply in_seq in Hk. lia.
Qed.

Lemma idx_list_nodup s n : idx_nodup s -> idx_fwd s -> NoDup (idx_list (setupIndices s n)).
Proof.
  destruct s as [|l|b e]; simpl; auto; intros.
  - apply seq_NoDup.
  - destruct (Nat.leb_spec b e); [|lia]. apply seq_NoDup.
Qed.

Lemma search_lpos s n o :
  searchIndices (setupIndices s n) o = is_some (lpos (idx_list (setupIndices s n)) o).
Proof.
  assert (H : forall l, existsb (fun it => it =? o) l = is_some (lpos l o)).
  { intro l. destruct (lpos l o) as [k|] eqn:E; simpl.
    - apply existsb_exists. exists o. split; [|apply Nat.eqb_refl].
      eapply nth_error_In. eapply lpos_some; eauto.
    - apply lpos_none in E. apply not_true_is_false. intro X. apply existsb_exists in X.
      destruct X as (x & Hx & Ex). apply Nat.eqb_eq in Ex. subst. auto. }
  destruct s; simpl; apply H.
Qed.

(** ** The sorted mapping *)

Lemma insert_perm p l : Permutation (insert_pair p l) (p :: l).
Proof.
  induction l as [|q l IH]; simpl; auto. destruct (fst q <? fst p); auto.
  rewrite IH. apply perm_swap.
Qed.
Lemma sort_perm l : Permutation (sort_pairs l) l.
Proof. induction l as [|p l IH]; simpl; auto. rewrite insert_perm. auto. Qed.

Lemma insert_sorted p l : StronglySorted fst_lt l -> Forall (fun q => fst q <> fst p) l ->
  StronglySorted fst_lt (insert_pair p l).
Proof.
  induction l as [|q l IH]; intros S N; simpl.
  - repeat constructor.
  - inversion S as [|? ? S' F]; subst. inversion N as [|? ? Nq N']; subst.
    destruct (Nat.ltb_spec (fst q) (fst p)).
    + constructor; auto. eapply Permutation_Forall; [symmetry; apply insert_perm|].
      constructor; auto.
    + constructor; auto. constructor; [unfold fst_lt; lia|].
      eapply Forall_impl; [|exact F]. unfold fst_lt. intros; lia.
Qed.

Lemma sort_sorted l : NoDup (map fst l) -> StronglySorted fst_lt (sort_pairs l).
Proof.
  induction l as [|p l IH]; intro N; simpl; [constructor|].
  inversion N as [|? ? Hp N']; subst. apply insert_sorted; auto.
  eapply Permutation_Forall; [symmetry; apply sort_perm|].
  apply Forall_forall. intros q Hq E. apply Hp. rewrite <- E. apply in_map; auto.
Qed.

Lemma mapping_in l o i : In (o, i) (compute_outin_mapping l) <-> nth_error l i = Some o.
Proof.
  unfold compute_outin_mapping. split.
  - intro H. eapply Permutation_in in H; [|apply sort_perm].
    rewrite (enum_map l 0), map_map in H. apply in_map_iff in H. destruct H as (k & E & Hk).
    inversion E; subst. apply in_seq in Hk. apply nth_error_nth'. lia.
  - intro H. eapply Permutation_in; [symmetry; apply sort_perm|].
    rewrite (enum_map l 0), map_map. apply in_map_iff. exists i.
    assert (i < length l) by (apply nth_error_Some; congruence).
    split; [|apply in_seq; lia]. rewrite (nth_error_nth l i 0 H). auto.
Qed.

Lemma mapping_sorted l : NoDup l -> StronglySorted fst_lt (compute_outin_mapping l).
Proof.
  intro N. apply sort_sorted. rewrite (enum_map l 0), !map_map.
  rewrite (map_ext _ (fun i => nth i l 0)) by reflexivity. rewrite map_nth_seq. auto.
Qed.

(** ** vectorExpand *)

Lemma expand_walk_drop {T} (r : row T) j : expand_walk r j = drop_below r j.
Proof.
  induction r as [|[k v] r IH]; simpl; auto. rewrite IH. ltb; auto.
Qed.

Lemma drop_drop {T} (r : row T) a b : a <= b -> drop_below (drop_below r a) b = drop_below r b.
Proof.
  intro H. induction r as [|[k v] r IH]; simpl; auto.
  destruct (Nat.ltb_spec k a); auto. ltb; auto.
Qed.

Lemma drop_0 {T} (r : row T) : drop_below r 0 = r.
Proof. destruct r as [|[k v] r]; auto. Qed.

(** The elements [(o, f i)] for the listed pairs [(o, i)]. *)
Definition pairs_row {T} (f : nat -> option T) (pairs : list (nat * nat)) : row T :=
  flat_map (fun p => opt1 (fst p) (f (snd p))) pairs.
Definition expand {T} (src : row T) (pairs : list (nat * nat)) : row T :=
  pairs_row (rget src) pairs.

Lemma expand_loop_eq {T} (src : row T) lo hi pairs : wfrow lo hi src ->
  forall it dest,
  match pairs with
  | [] => True
  | (_, i) :: _ => exists k0, k0 <= i /\ it = drop_below src k0
  end ->
  expand_loop src it pairs dest = dest ++ expand src pairs.
Proof.
  intro W. induction pairs as [|[o i] pairs IH]; intros it dest H; simpl.
  - rewrite app_nil_r; auto.
  - destruct H as (k0 & Hk & ->). rewrite expand_walk_drop, drop_drop by auto.
    rewrite (find_dest src lo hi) by auto. rewrite IH.
    + rewrite app_assoc. reflexivity.
    + destruct pairs as [|[o' i'] pairs]; auto.
      pose proof (drop_below_head src lo hi i W) as DH.
      destruct (drop_below src i) as [|[k v] r] eqn:E.
      * exists 0. rewrite drop_0. split; auto. lia.
      * destruct (Nat.ltb_spec i' k).
        -- exists 0. rewrite drop_0. split; auto. lia.
        -- exists i. split; auto. lia.
Qed.

Lemma vectorExpand_eq {T} (src : row T) lo hi pairs : wfrow lo hi src ->
  vectorExpand src pairs = expand src pairs.
Proof.
  intro W. unfold vectorExpand. rewrite (expand_loop_eq src lo hi); auto.
  destruct pairs as [|[o i] pairs]; auto. exists 0. rewrite drop_0. split; auto. lia.
Qed.

Section PairsRow.
Context {T : Type} (f : nat -> option T).

Lemma pairs_wf pairs n lo :
  StronglySorted fst_lt pairs -> Forall (fun p => lo <= fst p < n) pairs ->
  wfrow lo n (pairs_row f pairs).
Proof.
  revert lo. induction pairs as [|[o i] pairs IH]; intros lo St F; simpl; auto.
  inversion St as [|? ? S' Fo]; subst. inversion F as [|? ? H F']; subst. simpl in H.
  assert (W : wfrow (S o) n (pairs_row f pairs)).
  { apply IH; auto. rewrite Forall_forall in *. intros q Hq.
    pose proof (Fo q Hq) as X. unfold fst_lt in X. simpl in X. pose proof (F' q Hq). lia. }
  destruct (f i); simpl; [split; auto|]. eapply wfrow_weaken; eauto. lia.
Qed.

Lemma pairs_get_none pairs o :
  (forall i, ~ In (o, i) pairs) -> rget (pairs_row f pairs) o = None.
Proof.
  induction pairs as [|[o' i'] pairs IH]; intro H; simpl; auto.
  assert (X : rget (pairs_row f pairs) o = None).
  { apply IH. intros i Hi. apply (H i). right; auto. }
  destruct (f i'); simpl; auto. destruct (Nat.eqb_spec o' o); auto.
  subst. exfalso. apply (H i'). left; auto.
Qed.

Lemma pairs_get_in pairs o i :
  StronglySorted fst_lt pairs -> In (o, i) pairs -> rget (pairs_row f pairs) o = f i.
Proof.
  induction pairs as [|[o' i'] pairs IH]; intros St H; [contradiction|].
  inversion St as [|? ? S' F]; subst. destruct H as [E|H].
  - inversion E; subst. simpl.
    destruct (f i) eqn:G; simpl.
    + rewrite Nat.eqb_refl. auto.
    + apply pairs_get_none. intros j Hj. rewrite Forall_forall in F. apply F in Hj.
      unfold fst_lt in Hj. simpl in Hj. lia.
  - simpl. rewrite Forall_forall in F. pose proof (F _ H) as X. unfold fst_lt in X. simpl in X.
    destruct (f i'); simpl; auto. destruct (Nat.eqb_spec o' o); [lia|]. auto.
Qed.

Lemma pairs_get l o : NoDup l ->
  rget (pairs_row f (compute_outin_mapping l)) o = obind (lpos l o) f.
Proof.
  intro N. destruct (lpos l o) as [k|] eqn:E; simpl.
  - apply pairs_get_in; [apply mapping_sorted; auto|]. apply mapping_in. apply lpos_some; auto.
  - apply pairs_get_none. intros i Hi. apply mapping_in in Hi. apply nth_error_In in Hi.
    apply lpos_none in E. auto.
Qed.

Lemma pairs_mapping_wf l n : NoDup l -> Forall (fun i => i < n) l ->
  wfrow 0 n (pairs_row f (compute_outin_mapping l)).
Proof.
  intros N F. apply pairs_wf; [apply mapping_sorted; auto|]. apply Forall_forall.
  intros [o i] H. apply mapping_in in H. apply nth_error_In in H.
  rewrite Forall_forall in F. apply F in H. simpl. lia.
Qed.
End PairsRow.

(** ** matrixExpand *)

(** A loop that sets distinct rows of an empty matrix. *)
Lemma setrows_loop {T} (body : nat -> lil T -> res (lil T)) (F : nat -> row T) (l : list nat)
    nr nc :
  NoDup l -> Forall (fun i => i < nr) l ->
  (forall k M, k < length l -> length (data M) = nr -> nth (nth k l 0) (data M) [] = [] ->
     body k M = Ok (setrow_pure M (nth k l 0) (F k))) ->
  exists M', mfor (seq 0 (length l)) body (lil_new nr nc) = Ok M' /\ length (data M') = nr /\
    (forall i, nth i (data M') [] = match lpos l i with Some k => F k | None => [] end).
Proof.
  intros N B Hb.
  destruct (mfor_seq_inv (fun n M => length (data M) = nr /\
    (forall i, nth i (data M) [] = match lpos l i with
       | Some k => if k <? n then F k else [] | None => [] end)) body (length l) (lil_new nr nc))
    as (M' & E & L & G).
  - simpl. split; [apply repeat_length|]. intro i. rewrite nth_repeat'.
    destruct (lpos l i); ltb; auto.
  - intros k M Hk (L & G).
    assert (P : lpos l (nth k l 0) = Some k) by (apply lpos_nodup; auto; apply nth_error_nth'; auto).
    assert (Hn : nth k l 0 < nr).
    { rewrite Forall_forall in B. apply B. apply nth_In; auto. }
    exists (setrow_pure M (nth k l 0) (F k)). split.
    + apply Hb; auto. rewrite G, P. ltb; auto.
    + simpl. rewrite upd_length. split; auto. intro i. rewrite nth_upd by lia.
      destruct (Nat.eqb_spec i (nth k l 0)) as [->|Ni].
      * rewrite P. ltb; auto.
      * rewrite G. destruct (lpos l i) as [k'|] eqn:Ei; auto.
        assert (k' <> k).
        { intro X; subst k'. apply lpos_some in Ei. apply Ni. symmetry.
          apply nth_error_nth; auto. }
        ltb; auto.
  - exists M'. split; [auto|]. split; [auto|]. intro i. rewrite G.
    destruct (lpos l i) as [k|] eqn:Ei; auto.
    apply lpos_some in Ei. assert (k < length l) by (apply nth_error_Some; congruence).
    ltb; auto.
Qed.

(** A loop that appends columns to the rows of a matrix. *)
Lemma pushcols_list {X T P} (g : X -> T) (body : nat * P -> lil T -> res (lil T))
    (R : nat * P -> row X) nr (l : list (nat * P)) :
  (forall p, In p l -> wfrow 0 nr (R p)) ->
  (forall p M, In p l -> length (data M) = nr -> body p M = pushcol g (fst p) (R p) M) ->
  forall M, length (data M) = nr ->
  exists M', mfor l body M = Ok M' /\ length (data M') = nr /\
    (forall j, j < nr -> nth j (data M') [] =
       nth j (data M) [] ++ flat_map (fun p => opt1 (fst p) (option_map g (rget (R p) j))) l).
Proof.
  induction l as [|p l IH]; intros HR Hb M LM; simpl.
  - exists M. split; [auto|]. split; [auto|]. intros. rewrite app_nil_r; auto.
  - rewrite Hb by (auto; left; auto). unfold pushcol.
    destruct (scatter_loop (fun v t => t ++ [(fst p, g v)])
      (fun q M' => pushrow M' (fst q) (fst p, g (snd q))) (R p) 0 M) as (M1 & E1 & L1 & G1).
    + rewrite LM. apply HR. left; auto.
    + intros q M1 Hq L1. apply pushrow_ok. rewrite L1, LM.
      destruct q as [k v]. eapply wfrow_In in Hq; [|apply HR; left; auto]. simpl; lia.
    + rewrite E1. cbn [bind]. destruct (IH) with (M := M1) as (M2 & E2 & L2 & G2).
      * intros; apply HR; right; auto.
      * intros; apply Hb; auto; right; auto.
      * lia.
      * exists M2. split; [auto|]. split; [auto|]. intros j Hj. rewrite G2, G1 by auto.
        destruct (rget (R p) j); simpl; auto. rewrite <- app_assoc. reflexivity.
Qed.

Lemma matrixExpand_gives {T} nr nc (A : mview T) ri ci :
  wfview A -> length ri = vrows A -> length ci = vcols A ->
  NoDup ri -> NoDup ci -> Forall (fun i => i < nr) ri -> Forall (fun i => i < nc) ci ->
  tgives nr nc (fun i j => obind (lpos ri i) (fun i' => obind (lpos ci j) (fun j' => sview A i' j')))
    (matrixExpand nr nc A ri ci).
Proof.
  intros WA Lr Lc Nr Nc Br Bc. unfold matrixExpand.
  destruct A as [A|A]; cbn [vrows vcols wfview sview] in *; cbv zeta.
  - match goal with |- tgives _ _ _ (mfor _ ?b _) =>
      destruct (setrows_loop b
         (fun k => expand (nth k (data A) []) (compute_outin_mapping ci)) ri nr nc Nr Br)
        as (M & E & L & G)
    end.
    + intros k M Hk LM HN.
      assert (HB : nth k ri 0 < nr).
      { rewrite Forall_forall in Br. apply Br. apply nth_In; auto. }
      rewrite getrow_ok by (rewrite wfm_len; auto; lia). cbn [bind].
      rewrite (vat_ok ri k 0) by auto. cbn [bind]. cbv zeta.
      rewrite (vectorExpand_eq _ 0 (ncols A)) by (apply wfm_row; auto).
      rewrite setRow_nonempty by (auto; lia).
      destruct (empty (nth k (data A) [])) eqn:Ee; auto.
      apply empty_nil in Ee. rewrite Ee.
      assert (X : expand (@nil (nat * T)) (compute_outin_mapping ci) = []).
      { unfold expand. generalize (compute_outin_mapping ci) as q.
        induction q as [|[o i] q IH]; simpl; auto. }
      rewrite X. rewrite <- HN. rewrite setrow_pure_self. auto.
    + rewrite E.
      apply (tgives_rows nr nc M (fun i => match lpos ri i with
        | Some k => expand (nth k (data A) []) (compute_outin_mapping ci) | None => [] end)); auto.
      * intros i Hi. destruct (lpos ri i); [|exact I]. apply pairs_mapping_wf; auto.
      * intros i j Hi Hj. destruct (lpos ri i); simpl; auto.
        unfold expand; rewrite pairs_get by auto. reflexivity.
  - match goal with |- tgives _ _ _ (mfor _ ?b _) =>
      destruct (pushcols_list (fun v => v) b
         (fun p => expand (nth (snd p) (data A) []) (compute_outin_mapping ri)) nr
         (compute_outin_mapping ci)) with (M := @lil_new T nr nc) as (M & E & L & G)
    end.
    + intros. apply pairs_mapping_wf; auto.
    + intros [o i] M Hp LM. apply mapping_in in Hp.
      assert (i < length ci) by (apply nth_error_Some; congruence).
      rewrite getrow_ok by (rewrite wfm_len; auto; lia). cbn [bind fst snd].
      rewrite (vectorExpand_eq _ 0 (ncols A)) by (apply wfm_row; auto). reflexivity.
    + apply repeat_length.
    + rewrite E.
      assert (Q : forall i, i < nr -> nth i (data M) [] =
        pairs_row (fun k => obind (lpos ri i) (mget A k)) (compute_outin_mapping ci)).
      { intros i Hi. rewrite G by auto. simpl. rewrite nth_repeat'. ltb. simpl.
        apply flat_map_ext. intros [o k]. simpl. unfold expand; rewrite pairs_get by auto.
        rewrite option_map_id'. reflexivity. }
      apply (tgives_rows nr nc M (fun i =>
        pairs_row (fun k => obind (lpos ri i) (mget A k)) (compute_outin_mapping ci))); auto.
      * intros i Hi. apply pairs_mapping_wf; auto.
      * intros i j Hi Hj. rewrite pairs_get by auto.
        destruct (lpos ri i), (lpos ci j); reflexivity.
Qed.

(** ** The merge with the old contents *)

Lemma stencil_accum_1D_ok {TW TT TZ} (a : accum TW TT TZ) (cz' : TW -> TZ) (w : bvec TW)
    (t : row TT) s :
  wfv0 w -> wfrow 0 (vsize w) t ->
  (forall i, rget t i <> None -> searchIndices s i = true) ->
  exists z, ewise_or_stencil_opt_accum_1D a cz' w t s = Ok z /\ wfrow 0 (vsize w) z /\
    forall i, rget z i = spec_assign a cz' (searchIndices s i) (vget w i) (rget t i).
Proof.
  intros W Wt R. unfold ewise_or_stencil_opt_accum_1D.
  destruct (getContents_ok w W) as (c & Ec & Wc & Gc). rewrite Ec. cbn [bind].
  destruct a as [tz|f cz tz]; (eexists; split; [reflexivity|]).
  - destruct (stencil_spec cz' tz s c t 0 (vsize w) Wc Wt) as [W1 G1]. split; auto.
    intro i. rewrite G1, Gc. unfold comb_stencil. simpl. specialize (R i).
    destruct (rget t i); simpl.
    + rewrite R by congruence. auto.
    + destruct (searchIndices s i); auto.
  - destruct (ewise_or_spec f cz tz c t 0 (vsize w) Wc Wt) as [W1 G1]. split; auto.
    intro i. rewrite G1, Gc. reflexivity.
Qed.

Lemma stencil_accum_ok {TC TT TZ} (a : accum TC TT TZ) (cz' : TC -> TZ) (C : lil TC) (T : lil TT)
    rs cs nr nc :
  wfrows nr nc (data C) -> wfrows nr nc (data T) ->
  (forall i j, mget T i j <> None -> searchIndices rs i = true /\ searchIndices cs j = true) ->
  exists Z, ewise_or_stencil_opt_accum a cz' (lil_new nr nc) C T rs cs = Ok Z /\ wfm Z /\
    nrows Z = nr /\ ncols Z = nc /\
    forall i j, i < nr -> mget Z i j =
      spec_assign a cz' (searchIndices rs i && searchIndices cs j) (mget C i j) (mget T i j).
Proof.
  intros WC WT R. pose proof WC as [LC FC]. pose proof WT as [LT FT].
  unfold ewise_or_stencil_opt_accum. destruct a as [tz|f cz tz].
  - destruct (rows_loop_full (fun i Z' =>
           c <- getrow C i ;;
           if searchIndices rs i then
             t <- getrow T i ;;
             setRow (fun x => x) Z' i (ewise_or_stencil cz' tz cs c t)
           else setRow cz' Z' i c)
       (fun i => if searchIndices rs i
                 then ewise_or_stencil cz' tz cs (nth i (data C) []) (nth i (data T) [])
                 else cast_row cz' (nth i (data C) [])) (lil_new nr nc))
      as (D & E & WD & RD & CD & GD).
    + apply lil_new_wf.
    + simpl. intros i M Hi HR HC HL HN. rewrite !getrow_ok by lia. cbn [bind].
      destruct (searchIndices rs i).
      * rewrite setRow_ok by lia. rewrite cast_id. auto.
      * rewrite setRow_ok by lia. auto.
    + simpl. intros i Hi. destruct (searchIndices rs i).
      * eapply (stencil_spec cz' tz cs _ _ 0 nc); eapply wfrows_nth; eauto.
      * apply wfrow_cast. eapply wfrows_nth; eauto.
    + exists D. split; [auto|]. split; [auto|]. split; [auto|]. split; [auto|].
      intros i j Hi. rewrite GD by auto. specialize (R i j). simpl. unfold mget in *.
      destruct (searchIndices rs i) eqn:Er; simpl.
      * destruct (stencil_spec cz' tz cs (nth i (data C) []) (nth i (data T) []) 0 nc) as [_ G];
          try (eapply wfrows_nth; eauto). rewrite G. unfold comb_stencil.
        destruct (rget (nth i (data T) []) j); simpl.
        -- destruct R as [_ ->]; [congruence|]. auto.
        -- destruct (searchIndices cs j); auto.
      * rewrite rget_cast. auto.
  - destruct (rows_loop_full (fun i Z' =>
           c <- getrow C i ;;
           t <- getrow T i ;;
           setRow (fun x => x) Z' i (ewise_or f cz tz c t))
       (fun i => ewise_or f cz tz (nth i (data C) []) (nth i (data T) [])) (lil_new nr nc))
      as (D & E & WD & RD & CD & GD).
    + apply lil_new_wf.
    + simpl. intros i M Hi HR HC HL HN. rewrite !getrow_ok by lia. cbn [bind].
      rewrite setRow_ok by lia. rewrite cast_id. auto.
    + simpl. intros i Hi. eapply (ewise_or_spec f cz tz _ _ 0 nc); eapply wfrows_nth; eauto.
    + exists D. split; [auto|]. split; [auto|]. split; [auto|]. split; [auto|].
      intros i j Hi. rewrite GD by auto.
      destruct (ewise_or_spec f cz tz (nth i (data C) []) (nth i (data T) []) 0 nc) as [_ G];
        try (eapply wfrows_nth; eauto). rewrite G. reflexivity.
Qed.

(** ** The operations *)

Lemma idx_bound s nsrc ndst : idx_size s nsrc -> idx_in s ndst -> all_fits s nsrc ndst ->
  Forall (fun i => i < ndst) (idx_list (setupIndices s nsrc)).
Proof.
  intros S I A. pose proof (idx_size_fwd _ _ S) as F. destruct s as [|l|b e]; simpl in *; auto.
  - apply Forall_forall. intros x Hx. rewrite Nat.sub_0_r in Hx. apply in_seq in Hx. lia.
  - destruct (Nat.leb_spec b e); [|lia]. apply Forall_forall. intros x Hx. apply in_seq in Hx. lia.
Qed.

Section Assign.
Context {TM : Type} (truthy : TM -> bool).

Lemma assign_v_backend_ok {TU TW TZ} (cz' : TW -> TZ) (zc : TZ -> TW) (a : accum TW TU TZ)
    (m : mask (bvec TM)) outp (w : bvec TW) (u : bvec TU) s :
  wfv0 w -> wfv0 u -> wfvmask m ->
  vmask_fits m (vsize w) -> idx_size s (vsize u) -> idx_in s (vsize w) ->
  idx_nodup s -> all_fits s (vsize u) (vsize w) ->
  vassigned cz' truthy zc a m outp w (in_idx s (vsize u)) (sassign (vget u) (vsize u) s)
    (assign_v_backend cz' truthy zc a m outp w u s).
Proof.
  intros Ww Wu Wm Fm S I N A. unfold assign_v_backend.
  pose proof (idx_size_fwd _ _ S) as F.
  rewrite check_content_ok by auto. cbn [bind]. cbv zeta.
  destruct (getContents_ok u Wu) as (uc & E & W & G). rewrite E. cbn [bind].
  set (l := idx_list (setupIndices s (vsize u))).
  assert (Nl : NoDup l) by (apply idx_list_nodup; auto).
  assert (Bl : Forall (fun i => i < vsize w) l) by (apply idx_bound; auto).
  rewrite (vectorExpand_eq uc 0 (vsize u)) by auto.
  assert (Gt : forall i, rget (expand uc (compute_outin_mapping l)) i =
                         sassign (vget u) (vsize u) s i).
  { intro i. unfold expand, sassign. rewrite pairs_get, pos_lpos by auto. fold l.
    destruct (lpos l i); simpl; auto. }
  assert (Rg : forall i, searchIndices (setupIndices s (vsize u)) i = in_idx s (vsize u) i).
  { intro i. rewrite search_lpos. unfold in_idx. rewrite pos_lpos by auto. reflexivity. }
  destruct (stencil_accum_1D_ok a cz' w (expand uc (compute_outin_mapping l))
              (setupIndices s (vsize u))) as (z & Ez & Wz & Gz); auto.
  - apply pairs_mapping_wf; auto.
  - intros i. rewrite Gt, Rg. unfold sassign, in_idx. destruct (pos s (vsize u) i); simpl; congruence.
  - rewrite Ez. cbn [bind].
    destruct (write_with_opt_mask_1D_ok truthy zc w z m outp Ww Wz Wm Fm) as (w' & E' & W' & S' & G').
    exists w'. split; [auto|]. split; [auto|]. split; [auto|]. intros i Hi.
    rewrite G', Gz, Gt, Rg by auto. reflexivity.
Qed.

Lemma assign_v_ok {TU TW TZ} (cz' : TW -> TZ) (zc : TZ -> TW) (a : accum TW TU TZ)
    (m : mask (bvec TM)) outp (w : bvec TW) (u : bvec TU) s :
  wfv0 w -> wfv0 u -> wfvmask m -> vassign_conforms m w u s ->
  idx_nodup s -> all_fits s (vsize u) (vsize w) ->
  vassigned cz' truthy zc a m outp w (in_idx s (vsize u)) (sassign (vget u) (vsize u) s)
    (assign_v cz' truthy zc a m outp w u s).
Proof.
  intros Ww Wu Wm (Fm & S & I) N A. unfold assign_v.
  rewrite check_mask_size_ok by auto. cbn [bind].
  rewrite check_nindices_ok by auto. cbn [bind]. apply assign_v_backend_ok; auto.
Qed.

Lemma assign_m_ok {TA TC TZ} (cz' : TC -> TZ) (zc : TZ -> TC) (a : accum TC TA TZ)
    (m : mask (lil TM)) outp (C : lil TC) (A : mview TA) rs cs :
  wfm C -> wfview A -> wfmask m -> assign_conforms m C A rs cs ->
  idx_nodup rs -> idx_nodup cs ->
  all_fits rs (vrows A) (nrows C) -> all_fits cs (vcols A) (ncols C) ->
  assigned cz' truthy zc a m outp C
    (fun i j => in_idx rs (vrows A) i && in_idx cs (vcols A) j)
    (smassign (sview A) (vrows A) (vcols A) rs cs)
    (assign_m cz' truthy zc a m outp C A rs cs).
Proof.
  intros WC WA Wm (Fm & Sr & Sc & Ir & Ic) Nr Nc Ar Ac. unfold assign_m.
  pose proof (idx_size_fwd _ _ Sr) as Fr. pose proof (idx_size_fwd _ _ Sc) as Fc.
  destruct (check_mask_ok m _ _ Fm) as [E1 E2]. rewrite E1. cbn [bind]. rewrite E2. cbn [bind].
  rewrite !check_nindices_ok by auto. cbn [bind].
  rewrite !check_content_ok by auto. cbn [bind]. cbv zeta.
  set (ri := idx_list (setupIndices rs (vrows A))).
  set (ci := idx_list (setupIndices cs (vcols A))).
  destruct (matrixExpand_gives (nrows C) (ncols C) A ri ci) as (T & E & WT & GT); auto.
  { apply idx_size_length; auto. } { apply idx_size_length; auto. }
  { apply idx_list_nodup; auto. } { apply idx_list_nodup; auto. }
  { apply idx_bound; auto. } { apply idx_bound; auto. }
  rewrite E. cbn [bind].
  assert (Gt : forall i j, i < nrows C -> j < ncols C ->
    mget T i j = smassign (sview A) (vrows A) (vcols A) rs cs i j).
  { intros i j Hi Hj. rewrite GT by auto. unfold smassign. rewrite !pos_lpos by auto. reflexivity. }
  assert (Rr : forall i, searchIndices (setupIndices rs (vrows A)) i = in_idx rs (vrows A) i).
  { intro i. rewrite search_lpos. unfold in_idx. rewrite pos_lpos by auto. reflexivity. }
  assert (Rc : forall i, searchIndices (setupIndices cs (vcols A)) i = in_idx cs (vcols A) i).
  { intro i. rewrite search_lpos. unfold in_idx. rewrite pos_lpos by auto. reflexivity. }
  destruct (stencil_accum_ok a cz' C T (setupIndices rs (vrows A)) (setupIndices cs (vcols A))
              (nrows C) (ncols C)) as (Z & EZ & WZ & RZ & CZ & GZ); auto.
  - apply WC.
  - intros i j H. destruct (lt_dec i (nrows C)) as [Hi|Hi].
    2:{ exfalso. apply H. unfold mget. rewrite nth_overflow; auto. destruct WT. lia. }
    destruct (lt_dec j (ncols C)) as [Hj|Hj].
    2:{ exfalso. apply H. unfold mget. eapply rget_ge; [eapply wfrows_nth; eauto|lia]. }
    rewrite Gt in H by auto. rewrite Rr, Rc. unfold in_idx, smassign in *.
    destruct (pos rs (vrows A) i), (pos cs (vcols A) j); simpl in *; auto; congruence.
  - rewrite EZ. cbn [bind].
    destruct (write_with_opt_mask_ok truthy zc C Z m outp WC) as (C' & E' & W' & R' & K' & G'); auto.
    { rewrite <- RZ, <- CZ. apply WZ. }
    exists C'. split; [auto|]. split; [auto|]. split; [auto|]. split; [auto|].
    intros i j Hi Hj. rewrite G', GZ, Gt, Rr, Rc by auto. reflexivity.
Qed.
End Assign.
