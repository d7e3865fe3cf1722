(** Proofs about assign to a row or a column, assign of a constant, and errors. *)
From Coq Require Import Lia Permutation Sorted.
From Verif Require Import Base ModelLil ModelVec ModelHelpers ModelViews ModelIndex.
From Verif Require Import Spec SpecOps SpecIndex ProofBase ProofRow ProofLil ProofVec ProofWrite.
From Verif Require Import ProofViews ProofMask ProofMul ProofElem ProofKron ProofIndex ProofAssign.

(** ** Rows and columns as vectors *)

Lemma setElements_ok {T} (r : row T) : forall lo (c : bvec T), wfrow lo (vsize c) r -> wfv c ->
  exists c', mfor r (fun '(i, v) c => vec_setElement c i v) c = Ok c' /\ wfv c' /\
    vsize c' = vsize c /\
    forall i, vget c' i = match rget r i with Some v => Some v | None => vget c i end.
Proof.
  induction r as [|[k v] r IH]; intros lo c W Wc; simpl.
  - exists c. auto.
  - destruct W as [Hk W].
    destruct (vec_setElement_ok c k v) as (c1 & E1 & _ & S1 & _ & G1 & W1); [apply Wc|lia|].
    rewrite E1. cbn [bind]. destruct (IH (S k) c1) as (c2 & E2 & W2 & S2 & G2).
    + rewrite S1. auto.
    + auto.
    + exists c2. split; [auto|]. split; [auto|]. split; [congruence|]. intro i.
      rewrite G2, G1. destruct (Nat.eqb_spec k i) as [->|N].
      * rewrite (rget_lt r (S i) (vsize c)) by (auto; lia). ltb; auto.
      * destruct (rget r i); auto. ltb; auto.
Qed.

Lemma vec_of_row_ok {T} (dflt : T) n r : n <> 0 -> wfrow 0 n r ->
  exists c, vec_of_row dflt n r = Ok c /\ wfv c /\ vsize c = n /\ forall i, vget c i = rget r i.
Proof.
  intros Hn W. unfold vec_of_row.
  destruct (vec_new_ok dflt n Hn) as (c & E & Wc & S & G). rewrite E. cbn [bind].
  destruct (setElements_ok r 0 c) as (c' & E' & W' & S' & G'); [rewrite S; auto|auto|].
  exists c'. split; [auto|]. split; [auto|]. split; [congruence|]. intro i.
  rewrite G', G. destruct (rget r i); auto.
Qed.

Lemma row_of_vec_ok {T} (c : bvec T) : wfv c ->
  exists t, row_of_vec c = Ok t /\ wfrow 0 (vsize c) t /\ forall i, rget t i = vget c i.
Proof.
  intros [W N]. unfold row_of_vec, vec_extractTuples.
  destruct (getContents_ok c W) as (t & E & Wt & G). rewrite E. cbn [bind].
  exists t. split; auto. rewrite N.
  rewrite (wfrow_vcount (vsize c) t) by auto.
  rewrite (vcount_ext (vsize c) (rget t) (vget c)) by (intros; rewrite G; auto).
  rewrite Z.eqb_refl. auto.
Qed.

Lemma setCol_ok {TS T} (cast : TS -> T) (M : lil T) j (col : row TS) :
  wfm M -> j < ncols M -> wfrow 0 (nrows M) col ->
  exists M', setCol cast M j col = Ok M' /\ wfm M' /\ nrows M' = nrows M /\ ncols M' = ncols M /\
    forall i k, i < nrows M ->
      mget M' i k = if k =? j then option_map cast (rget col i) else mget M i k.
Proof.
  intros WM Hj Wc. unfold setCol.
  match goal with |- context [mfor _ ?b _] =>
    destruct (mfor_seq_inv (fun n '(M', it) => wfm M' /\ nrows M' = nrows M /\ ncols M' = ncols M /\
      it = drop_below col n /\
      forall i k, mget M' i k = if (i <? n) && (k =? j) then option_map cast (rget col i)
                                else mget M i k) b (nrows M) (M, col)) as ([M' it] & E & W & R & K & _ & G)
  end.
  - split; [auto|]. split; [auto|]. split; [auto|]. split; [rewrite drop_0; auto|]. intros. auto.
  - intros i [M' it] Hi (W & R & K & D & G).
    assert (ER : forall b, let '(r', b') := row_remove (nth i (data M') []) j in
      (d <- vset (data M') i r' ;;
       Ok (mkLil (nrows M') (ncols M') (if b' then nvals M' - 1 else nvals M')%Z d, b)) =
      (M1 <- lil_removeElement M' i j ;; Ok (M1, b : row TS))).
    { intro b. unfold lil_removeElement. rewrite (proj2 (oob_spec M' i j)) by lia.
      rewrite getrow_ok by (rewrite wfm_len by auto; lia). cbn [bind].
      destruct (row_remove _ j) as [r' b']. destruct (vset _ i r'); reflexivity. }
    assert (ES : forall v b, let '(r', b') := row_set (fun _ new => new) (nth i (data M') []) j (cast v) in
      (d <- vset (data M') i r' ;;
       Ok (mkLil (nrows M') (ncols M') (if b' then nvals M' + 1 else nvals M')%Z d, b)) =
      (M1 <- lil_setElement_merge (fun _ new => new) M' i j (cast v) ;; Ok (M1, b : row TS))).
    { intros v b. unfold lil_setElement_merge. rewrite (proj2 (oob_spec M' i j)) by lia.
      rewrite getrow_ok by (rewrite wfm_len by auto; lia). cbn [bind].
      destruct (row_set _ _ j _) as [r' b']. destruct (vset _ i r'); reflexivity. }
    rewrite getrow_ok by (rewrite wfm_len by auto; lia). cbn [bind]. cbv zeta.
    destruct (removeElement_ok M' i j W) as (Mr & Er & Wr & Rr & Kr & Gr); [lia|lia|].
    pose proof (drop_below_head col 0 (nrows M) i Wc) as DH. rewrite <- D in DH.
    (* no element at [i] *)
    assert (Erase : rget col i = None -> it = drop_below col (S i) ->
      exists s', (let '(r', b) := row_remove (nth i (data M') []) j in
        d <- vset (data M') i r' ;;
        Ok (mkLil (nrows M') (ncols M') (if b then nvals M' - 1 else nvals M')%Z d, it)) = Ok s' /\
      (let '(M1, it1) := s' in wfm M1 /\ nrows M1 = nrows M /\ ncols M1 = ncols M /\
        it1 = drop_below col (1 + i) /\
        forall i0 k, mget M1 i0 k = if (i0 <? 1 + i) && (k =? j) then option_map cast (rget col i0)
                                    else mget M i0 k)).
    { intros Hn Hd. exists (Mr, it). split.
      - specialize (ER it). destruct (row_remove _ j). rewrite ER, Er. reflexivity.
      - split; [auto|]. split; [congruence|]. split; [congruence|]. split; [auto|].
        intros i0 k. rewrite Gr, G. destruct (Nat.eqb_spec i0 i) as [->|N]; simpl.
        + destruct (k =? j); [rewrite Hn|]; ltb; auto.
        + destruct (k =? j); ltb; auto. }
    destruct it as [|[k v] it'].
    + apply Erase; [apply DH; auto|]. rewrite <- (drop_drop col i (S i)) by lia.
      rewrite <- D. reflexivity.
    + destruct DH as (H1 & H2 & H3 & H4 & H5 & H6). destruct (Nat.ltb_spec i k).
      * apply Erase; [apply H5; lia|]. rewrite <- (drop_drop col i (S i)) by lia.
        rewrite <- D. simpl. ltb; auto.
      * assert (k = i) by lia. subst k. rewrite Nat.eqb_refl.
        destruct (setElement_merge_ok (fun _ new => new) M' i j (cast v) W)
          as (Ms & Es & Ws & Rs & Ks & Gs); [lia|lia|].
        exists (Ms, it'). split.
        -- specialize (ES v it'). destruct (row_set _ _ j _). rewrite ES, Es. reflexivity.
        -- split; [auto|]. split; [congruence|]. split; [congruence|]. split.
           ++ change (1 + i) with (S i). rewrite <- (drop_drop col i (S i)) by lia.
              rewrite <- D. simpl. ltb. destruct it' as [|[k' v'] it'']; auto.
              simpl. destruct H3 as [H3 _]. ltb; auto.
           ++ intros i0 k. rewrite Gs. destruct (Nat.eqb_spec i0 i) as [->|N]; simpl.
              ** rewrite (proj2 (Nat.ltb_lt i (S i))) by lia.
                 destruct (Nat.eqb_spec k j); simpl.
                 --- rewrite H4. destruct (mget M' i j); auto.
                 --- rewrite G. ltb; auto.
              ** rewrite G. destruct (k =? j); ltb; auto.
  - exists M'. rewrite E. split; [reflexivity|]. split; [auto|]. split; [auto|]. split; [auto|].
    intros i k Hi. rewrite G. ltb; auto.
Qed.

(** ** Row and column assign *)
Section RC.
Context {TM : Type} (truthy : TM -> bool).

Lemma assign_col_ok {TU TC TZ} (dflt : TC) (cz' : TC -> TZ) (zc : TZ -> TC) (a : accum TC TU TZ)
    (m : mask (bvec TM)) outp (C : lil TC) (u : bvec TU) rs j :
  wfm C -> wfv0 u -> wfvmask m -> cassign_conforms m C u rs j -> nrows C <> 0 ->
  idx_nodup rs -> all_fits rs (vsize u) (nrows C) ->
  exists C', assign_col dflt cz' truthy zc a m outp C u rs j = Ok C' /\ wfm C' /\
    nrows C' = nrows C /\ ncols C' = ncols C /\
    forall i k, i < nrows C -> k < ncols C ->
      mget C' i k =
        if k =? j then
          spec_write zc (vmask_allows truthy m i) outp (mget C i j)
            (spec_assign a cz' (in_idx rs (vsize u) i) (mget C i j)
               (sassign (vget u) (vsize u) rs i))
        else mget C i k.
Proof.
  intros WC Wu Wm (Fm & S & Hj & I) Hn N A. unfold assign_col, check_index_within.
  pose proof (idx_size_fwd _ _ S) as F.
  rewrite check_mask_size_ok by auto. cbn [bind].
  rewrite check_nindices_ok by auto. cbn [bind].
  destruct (Nat.leb_spec (ncols C) j); [lia|]. cbn [throw_if bind].
  rewrite check_content_ok by auto. cbn [bind].
  destruct (getCol_ok C j (proj1 WC)) as (c & Ec & Wc & Gc). rewrite Ec. cbn [bind].
  destruct (vec_of_row_ok dflt (nrows C) c Hn Wc) as (cv & Ev & Wv & Sv & Gv).
  rewrite Ev. cbn [bind].
  destruct (assign_v_backend_ok truthy cz' zc a m outp cv u rs) as (cv' & Ea & Wa & Sa & Ga);
    rewrite ?Sv; auto. { apply Wv. }
  rewrite Ea. cbn [bind].
  destruct (row_of_vec_ok cv' Wa) as (t & Et & Wt & Gt). rewrite Et. cbn [bind].
  destruct (setCol_ok (fun x => x) C j t WC Hj) as (C' & E & W & R & K & G).
  { rewrite <- Sv, <- Sa. auto. }
  exists C'. split; [auto|]. split; [auto|]. split; [auto|]. split; [auto|].
  intros i k Hi Hk. rewrite G by auto. destruct (Nat.eqb_spec k j); auto.
  rewrite option_map_id', Gt, Ga, Gv, Gc by lia. reflexivity.
Qed.

Lemma assign_row_ok {TU TC TZ} (dflt : TC) (cz' : TC -> TZ) (zc : TZ -> TC) (a : accum TC TU TZ)
    (m : mask (bvec TM)) outp (C : lil TC) (u : bvec TU) i cs :
  wfm C -> wfv0 u -> wfvmask m -> rassign_conforms m C u i cs -> ncols C <> 0 ->
  idx_nodup cs -> all_fits cs (vsize u) (ncols C) ->
  exists C', assign_row dflt cz' truthy zc a m outp C u i cs = Ok C' /\ wfm C' /\
    nrows C' = nrows C /\ ncols C' = ncols C /\
    forall k j, k < nrows C -> j < ncols C ->
      mget C' k j =
        if k =? i then
          spec_write zc (vmask_allows truthy m j) outp (mget C i j)
            (spec_assign a cz' (in_idx cs (vsize u) j) (mget C i j)
               (sassign (vget u) (vsize u) cs j))
        else mget C k j.
Proof.
  intros WC Wu Wm (Fm & S & Hi & I) Hn N A. unfold assign_row, check_index_within.
  pose proof (idx_size_fwd _ _ S) as F.
  rewrite check_mask_size_ok by auto. cbn [bind].
  rewrite check_nindices_ok by auto. cbn [bind].
  destruct (Nat.leb_spec (nrows C) i); [lia|]. cbn [throw_if bind].
  rewrite check_content_ok by auto. cbn [bind].
  rewrite getrow_ok by (rewrite wfm_len; auto). cbn [bind].
  destruct (vec_of_row_ok dflt (ncols C) _ Hn (wfm_row C i WC)) as (cv & Ev & Wv & Sv & Gv).
  rewrite Ev. cbn [bind].
  destruct (assign_v_backend_ok truthy cz' zc a m outp cv u cs) as (cv' & Ea & Wa & Sa & Ga);
    rewrite ?Sv; auto. { apply Wv. }
  rewrite Ea. cbn [bind].
  destruct (row_of_vec_ok cv' Wa) as (t & Et & Wt & Gt). rewrite Et. cbn [bind].
  rewrite setRow_ok by (rewrite wfm_len; auto). rewrite cast_id.
  exists (setrow_pure C i t). split; [auto|]. split.
  { apply setrow_pure_wf; auto. rewrite <- Sv, <- Sa. auto. }
  split; [auto|]. split; [auto|].
  intros k j Hk Hj. rewrite mget_setrow_pure by (rewrite wfm_len; auto).
  destruct (Nat.eqb_spec k i); auto. rewrite Gt, Ga, Gv by lia. reflexivity.
Qed.

(** ** Constants *)

Lemma const_row_wf {T} (v : T) l n lo : StronglySorted lt l -> Forall (fun i => lo <= i < n) l ->
  wfrow lo n (map (fun i => (i, v)) l).
Proof.
  revert lo. induction l as [|i l IH]; intros lo St F; simpl; auto.
  inversion St as [|? ? S' Fi]; subst. inversion F as [|? ? Hi F']; subst.
  split; auto. apply IH; auto. rewrite Forall_forall in *. intros x Hx.
  pose proof (Fi x Hx). pose proof (F' x Hx). lia.
Qed.

Lemma const_row_get {T} (v : T) l i :
  rget (map (fun i => (i, v)) l) i = if existsb (fun k => k =? i) l then Some v else None.
Proof. induction l as [|k l IH]; simpl; auto. destruct (k =? i); simpl; auto. Qed.

Lemma sorted_of_nth l :
  (forall a b i j, a < b -> nth_error l a = Some i -> nth_error l b = Some j -> i < j) ->
  StronglySorted lt l.
Proof.
  induction l as [|x l IH]; intro H; constructor.
  - apply IH. intros a b i j Hab Ha Hb. apply (H (S a) (S b) i j); auto. lia.
  - apply Forall_forall. intros y Hy. apply In_nth_error in Hy. destruct Hy as (b & Hb).
    apply (H 0 (S b) x y); auto. lia.
Qed.

Lemma idx_sorted_list s n : idx_sorted s -> idx_fwd s -> StronglySorted lt (idx_list (setupIndices s n)).
Proof.
  destruct s as [|l|b e]; simpl; intros H F.
  - apply sorted_seq.
  - apply sorted_of_nth; auto.
  - destruct (Nat.leb_spec b e); [|lia]. apply sorted_seq.
Qed.

Lemma in_count s n i : idx_fwd s ->
  searchIndices (setupIndices s n) i = in_idx s (idx_count s n) i.
Proof.
  intro F. rewrite search_lpos. unfold in_idx, pos, lpos.
  assert (L : length (idx_list (setupIndices s n)) = idx_count s n).
  { destruct s as [|l|b e]; simpl in *; auto.
    - rewrite Nat.sub_0_r, seq_length; auto.
    - destruct (Nat.leb_spec b e); [|lia]. rewrite seq_length; auto. }
  rewrite L. f_equal.
  assert (H : forall l, (forall k, In k l -> k < idx_count s n) ->
    find (fun k => match nth_error (idx_list (setupIndices s n)) k with
                   | Some x => x =? i | None => false end) l =
    find (fun k => match sel s k with Some x => x =? i | None => false end) l).
  { induction l as [|k l IH]; intro Hl; simpl; auto.
    rewrite IH by (intros; apply Hl; right; auto).
    rewrite sel_list by auto.
    pose proof (Hl k (or_introl eq_refl)).
    destruct s; auto. simpl in *. ltb; auto. }
  apply H. intros k Hk. apply in_seq in Hk. lia.
Qed.

Lemma check_within_ok s n : idx_size_le s n -> check_nindices_within s n = Ok tt.
Proof.
  destruct s as [|l|b e]; simpl; auto; intro H.
  - destruct (Nat.ltb_spec n (length l)); [lia|auto].
  - destruct (Nat.leb_spec b e); [|lia]. rewrite seq_length.
    destruct (Nat.ltb_spec n (e - b)); [lia|auto].
Qed.

Lemma assign_const_v_ok {TV TW TZ} (cz' : TW -> TZ) (zc : TZ -> TW) (a : accum TW TV TZ)
    (m : mask (bvec TM)) outp (w : bvec TW) (val : TV) s :
  wfv0 w -> wfvmask m -> vcassign_conforms m w s -> idx_sorted s ->
  vassigned cz' truthy zc a m outp w (in_idx s (idx_count s (vsize w)))
    (fun i => if in_idx s (idx_count s (vsize w)) i then Some val else None)
    (assign_const_v cz' truthy zc a m outp w val s).
Proof.
  intros Ww Wm (Fm & S & I) St. unfold assign_const_v.
  pose proof (idx_size_le_fwd _ _ S) as F.
  rewrite check_mask_size_ok by auto. cbn [bind].
  rewrite check_within_ok by auto. cbn [bind].
  rewrite check_content_ok by auto. cbn [bind]. cbv zeta.
  assert (Gt : forall i, rget (map (fun i => (i, val)) (idx_list (setupIndices s (vsize w)))) i =
     if in_idx s (idx_count s (vsize w)) i then Some val else None).
  { intro i. rewrite const_row_get, <- in_count by auto. destruct s; reflexivity. }
  edestruct (stencil_accum_1D_ok a cz' w) as (z & Ez & Wz & Gz).
  4:{ rewrite Ez. cbn [bind].
    destruct (write_with_opt_mask_1D_ok truthy zc w z m outp Ww Wz Wm Fm) as (w' & E' & W' & S' & G').
    exists w'. split; [auto|]. split; [auto|]. split; [auto|]. intros i Hi.
    rewrite G', Gz, Gt, in_count by auto. reflexivity. }
  - auto.
  - apply const_row_wf; [apply idx_sorted_list; auto|].
    eapply Forall_impl; [|apply idx_in_Forall; auto]. simpl. intros; lia.
  - intros i. rewrite Gt, in_count by auto. destruct (in_idx _ _ i); congruence.
Qed.

Lemma assign_const_m_ok {TV TC TZ} (cz' : TC -> TZ) (zc : TZ -> TC) (a : accum TC TV TZ)
    (m : mask (lil TM)) outp (C : lil TC) (val : TV) rs cs :
  wfm C -> wfmask m -> mcassign_conforms m C rs cs -> idx_nodup rs -> idx_sorted cs ->
  assigned cz' truthy zc a m outp C
    (fun i j => in_idx rs (idx_count rs (nrows C)) i && in_idx cs (idx_count cs (ncols C)) j)
    (fun i j => if in_idx rs (idx_count rs (nrows C)) i && in_idx cs (idx_count cs (ncols C)) j
                then Some val else None)
    (assign_const_m cz' truthy zc a m outp C val rs cs).
Proof.
  intros WC Wm (Fm & Sr & Sc & Ir & Ic) Nr St. unfold assign_const_m.
  pose proof (idx_size_le_fwd _ _ Sr) as Fr. pose proof (idx_size_le_fwd _ _ Sc) as Fc.
  destruct (check_mask_ok m _ _ Fm) as [E1 E2]. rewrite E1. cbn [bind]. rewrite E2. cbn [bind].
  rewrite !check_within_ok by auto. cbn [bind].
  rewrite !check_content_ok by auto. cbn [bind]. cbv zeta.
  set (out_row := map (fun j => (j, val)) (idx_list (setupIndices cs (ncols C)))).
  assert (Wo : wfrow 0 (ncols C) out_row).
  { apply const_row_wf; [apply idx_sorted_list; auto|].
    eapply Forall_impl; [|apply idx_in_Forall; auto]. simpl. intros; lia. }
  assert (Go : forall j, rget out_row j =
     if in_idx cs (idx_count cs (ncols C)) j then Some val else None).
  { intro j. unfold out_row. rewrite const_row_get, <- in_count by auto. destruct cs; reflexivity. }
  set (ri := idx_list (setupIndices rs (nrows C))).
  assert (T : tgives (nrows C) (ncols C)
    (fun i j => if in_idx rs (idx_count rs (nrows C)) i && in_idx cs (idx_count cs (ncols C)) j
                then Some val else None)
    (mfor ri (fun row_it T' => if empty out_row then Ok T'
                               else setRow (fun x => x) T' row_it out_row)
       (lil_new (nrows C) (ncols C)))).
  { rewrite <- (map_nth_seq ri 0) at 1. rewrite mfor_map.
    destruct (setrows_loop (fun k T' => if empty out_row then Ok T'
        else setRow (fun x => x) T' (nth k ri 0) out_row) (fun _ => out_row) ri (nrows C) (ncols C))
      as (M & E & L & G).
    - apply idx_list_nodup; auto.
    - apply idx_in_Forall; auto.
    - intros k M Hk LM HN. apply setRow_nonempty; auto. rewrite LM.
      pose proof (idx_in_Forall rs _ Fr Ir) as B. rewrite Forall_forall in B.
      apply B. apply nth_In; auto.
    - rewrite E. apply (tgives_rows _ _ M (fun i => match lpos ri i with
        | Some _ => out_row | None => [] end)); auto.
      + intros i Hi. destruct (lpos ri i); [auto|exact I].
      + intros i j Hi Hj. simpl. rewrite <- in_count by auto.
        rewrite search_lpos. fold ri. destruct (lpos ri i); simpl; auto. }
  destruct T as (T & E & WT & GT). rewrite E. cbn [bind].
  destruct (stencil_accum_ok a cz' C T (setupIndices rs (nrows C)) (setupIndices cs (ncols C))
              (nrows C) (ncols C)) as (Z & EZ & WZ & RZ & CZ & GZ); auto.
  - apply WC.
  - intros i j H. destruct (lt_dec i (nrows C)) as [Hi|Hi].
    2:{ exfalso. apply H. unfold mget. rewrite nth_overflow; auto. destruct WT. lia. }
    destruct (lt_dec j (ncols C)) as [Hj|Hj].
    2:{ exfalso. apply H. unfold mget. eapply rget_ge; [eapply wfrows_nth; eauto|lia]. }
    rewrite GT in H by auto. rewrite !in_count by auto.
    destruct (in_idx rs _ i), (in_idx cs _ j); simpl in *; auto; congruence.
  - rewrite EZ. cbn [bind].
    destruct (write_with_opt_mask_ok truthy zc C Z m outp WC) as (C' & E' & W' & R' & K' & G'); auto.
    { rewrite <- RZ, <- CZ. apply WZ. }
    exists C'. split; [auto|]. split; [auto|]. split; [auto|]. split; [auto|].
    intros i j Hi Hj. rewrite G', GZ, GT, !in_count by auto. reflexivity.
Qed.
End RC.
