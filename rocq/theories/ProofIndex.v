(** Proofs about extract. *)
From Coq Require Import Lia.
From Verif Require Import Base ModelLil ModelVec ModelHelpers ModelViews ModelIndex.
From Verif Require Import Spec SpecOps SpecIndex ProofBase ProofRow ProofLil ProofVec ProofWrite.
From Verif Require Import ProofViews ProofMask ProofMul ProofElem ProofKron.

(** ** Index sequences *)

Lemma nth_error_seq b n k : nth_error (seq b n) k = if k <? n then Some (b + k) else None.
Proof.
  destruct (Nat.ltb_spec k n).
  - rewrite (nth_error_nth' _ 0) by (rewrite seq_length; auto). rewrite seq_nth by auto. auto.
  - apply nth_error_None. rewrite seq_length. auto.
Qed.

Lemma sel_list s n k : idx_fwd s ->
  nth_error (idx_list (setupIndices s n)) k =
    match s with AllIdx => if k <? n then Some k else None | _ => sel s k end.
Proof.
  destruct s as [|l|b e]; simpl; intro H; auto.
  - rewrite Nat.sub_0_r, nth_error_seq. auto.
  - destruct (Nat.leb_spec b e); [|lia]. rewrite nth_error_seq. ltb; auto.
Qed.

Lemma idx_size_fwd s n : idx_size s n -> idx_fwd s.
Proof. destruct s; simpl; auto. lia. Qed.
Lemma idx_size_le_fwd s n : idx_size_le s n -> idx_fwd s.
Proof. destruct s; simpl; auto. lia. Qed.

Lemma idx_size_length s n : idx_size s n -> length (idx_list (setupIndices s n)) = n.
Proof.
  destruct s as [|l|b e]; simpl; auto; intro H.
  - rewrite Nat.sub_0_r, seq_length. auto.
  - destruct (Nat.leb_spec b e); [|lia]. rewrite seq_length. lia.
Qed.

Lemma idx_in_Forall s n : idx_fwd s -> idx_in s n -> Forall (fun i => i < n) (idx_list (setupIndices s n)).
Proof.
  destruct s as [|l|b e]; simpl; auto; intros F H.
  - apply Forall_forall. intros x Hx. rewrite Nat.sub_0_r in Hx. apply in_seq in Hx. lia.
  - destruct (Nat.leb_spec b e); [|lia]. apply Forall_forall. intros x Hx. apply in_seq in Hx. lia.
Qed.

Lemma check_content_ok s n : idx_fwd s -> idx_in s n -> check_index_array_content s n = Ok tt.
Proof.
  intros F H. destruct s as [|l|b e]; auto.
  - simpl in *. induction H; simpl; auto. destruct (Nat.leb_spec n x); [lia|]. auto.
  - pose proof (idx_in_Forall _ _ F H) as G.
    unfold check_index_array_content. simpl setupIndices in G. revert G.
    generalize (idx_list (IdxRange b e)). induction l as [|x l IH]; intro G; auto.
    inversion G; subst. simpl. destruct (Nat.leb_spec n x); [lia|]. simpl. auto.
Qed.

Lemma check_nindices_ok s n : idx_size s n -> check_nindices n s = Ok tt.
Proof.
  intro H. pose proof (idx_size_length _ _ H) as L. destruct s as [|l|b e]; auto;
    apply check_eq_ok; auto.
Qed.

Lemma wrapped_in b e N : b < N -> In (N - 1) (seq b (N - b) ++ seq 0 e).
Proof. intro H. apply in_or_app. left. apply in_seq. lia. Qed.

Lemma wrapped_last b e : (Z.of_nat b < 2 ^ 64)%Z -> exists x, In x (wrapped_range b e) /\
  Z.of_nat x = (2 ^ 64 - 1)%Z.
Proof.
  intro H.
  unfold wrapped_range. destruct two64_sig as [N HN]. cbn [proj1_sig].
  exists (N - 1). split.
  - apply wrapped_in. lia.
  - lia.
Qed.

Lemma check_content_loop l n :
  (exists x, In x l /\ n <= x) ->
  mfor l (fun ix _ => throw_if (n <=? ix) IndexOutOfBoundsException) tt =
  Throw IndexOutOfBoundsException.
Proof.
  intros (x & Hx & Hn). induction l as [|y l IH]; [contradiction|]. simpl.
  destruct (Nat.leb_spec n y); auto. simpl. apply IH. destruct Hx; auto. subst. lia.
Qed.

Lemma check_content_throw s n : idx_fwd s -> ~ idx_in s n ->
  check_index_array_content s n = Throw IndexOutOfBoundsException.
Proof.
  destruct s as [|l|b e]; simpl; intros F H; [tauto| |].
  - apply check_content_loop. apply Exists_exists. apply neg_Forall_Exists_neg in H.
    + eapply Exists_impl; [|exact H]. simpl. intros. lia.
    + intro x. destruct (lt_dec x n); auto.
  - apply check_content_loop. destruct (Nat.leb_spec b e); [|lia].
    exists (e - 1). split; [apply in_seq|]; lia.
Qed.

Lemma check_content_wrap b e n : (Z.of_nat b < 2 ^ 64)%Z -> (Z.of_nat n < 2 ^ 64)%Z -> e < b ->
  check_index_array_content (IdxRange b e) n = Throw IndexOutOfBoundsException.
Proof.
  intros Hb Hn He. simpl. apply check_content_loop.
  destruct (Nat.leb_spec b e); [lia|]. destruct (wrapped_last b e Hb) as (x & Hx & Ex).
  exists x. split; auto. lia.
Qed.

Lemma check_nindices_throw s n : idx_fwd s -> ~ idx_size s n -> check_nindices n s = Throw DimensionException.
Proof.
  destruct s as [|l|b e]; simpl; intros F H; [tauto| |].
  - apply check_eq_throw. auto.
  - apply check_eq_throw. destruct (Nat.leb_spec b e); [|lia]. rewrite seq_length. lia.
Qed.

Lemma idx_size_dec s n : {idx_size s n} + {~ idx_size s n}.
Proof. destruct s; simpl; auto; apply Nat.eq_dec. Qed.
Lemma idx_in_dec s n : {idx_in s n} + {~ idx_in s n}.
Proof.
  destruct s as [|l|b e]; simpl; auto.
  - apply Forall_dec. intro x. apply lt_dec.
  - destruct (lt_dec b e); [destruct (le_dec e n)|]; [left|right|left]; lia.
Qed.
Lemma idx_fwd_dec s : {idx_fwd s} + {~ idx_fwd s}.
Proof. destruct s; simpl; auto. apply le_dec. Qed.

(** ** Loops over an index list *)

Lemma enum_map {X} (l : list X) d : enum l = map (fun i => (i, nth i l d)) (seq 0 (length l)).
Proof.
  unfold enum. rewrite <- (map_nth_seq l d) at 2. generalize (seq 0 (length l)) as q.
  induction q as [|k q IH]; simpl; auto. f_equal; auto.
Qed.

(** ** vectorExtract *)

Lemma find_dest {T} (src : row T) lo hi o w (dest : row T) :
  wfrow lo hi src ->
  match drop_below src w with
  | (k, v) :: _ => if k =? w then dest ++ [(o, v)] else dest
  | [] => dest
  end = dest ++ opt1 o (rget src w).
Proof.
  intro W. pose proof (drop_below_head src lo hi w W) as H.
  destruct (drop_below src w) as [|[k v] r].
  - rewrite H by lia. simpl. rewrite app_nil_r; auto.
  - destruct H as (H1 & _ & _ & H2 & H3 & _). destruct (Nat.eqb_spec k w).
    + subst. rewrite H2. auto.
    + rewrite H3 by lia. simpl. rewrite app_nil_r; auto.
Qed.

Definition vext {T} (src : row T) (ix : list nat) : nat -> option T :=
  fun k => obind (nth_error ix k) (rget src).

Lemma fold_append {A B} (g : A -> list B) l t :
  fold_left (fun d i => d ++ g i) l t = t ++ flat_map g l.
Proof.
  revert t. induction l as [|i l IH]; intro t; simpl.
  - rewrite app_nil_r; auto.
  - rewrite IH, app_assoc. auto.
Qed.

Lemma vectorExtract_eq {T} (src : row T) lo hi ix : wfrow lo hi src ->
  vectorExtract src ix = genrow (vext src ix) 0 (length ix).
Proof.
  intro W. unfold vectorExtract. rewrite (enum_map ix 0), fold_map.
  rewrite (fold_left_ext_in _ (fun dest i => dest ++ opt1 i (vext src ix i))).
  - rewrite fold_append. reflexivity.
  - intros x i Hi. apply in_seq in Hi. rewrite (find_dest src lo hi) by auto.
    unfold vext. rewrite (nth_error_nth' ix 0) by lia. reflexivity.
Qed.

Lemma vectorExtract_wf {T} (src : row T) lo hi ix n : wfrow lo hi src -> length ix <= n ->
  wfrow 0 n (vectorExtract src ix).
Proof.
  intros W H. erewrite vectorExtract_eq by eauto.
  eapply wfrow_weaken; [apply genrow_wf0|lia|lia].
Qed.

Lemma vectorExtract_get {T} (src : row T) lo hi ix k : wfrow lo hi src ->
  rget (vectorExtract src ix) k = vext src ix k.
Proof.
  intros W. erewrite vectorExtract_eq by eauto. rewrite genrow_get.
  destruct (Nat.ltb_spec k (length ix)); auto.
  unfold vext. rewrite (proj2 (nth_error_None _ _)) by lia. reflexivity.
Qed.

(** A sequence as used by extract: [AllIndices] stands for the smaller of the two sizes. *)
Lemma ext_list s nw nu : idx_size s nw -> idx_in s nu ->
  let l := idx_list (setupIndices s (Nat.min nu nw)) in
  length l <= nw /\ Forall (fun i => i < nu) l /\
  forall k (T : Type) (f : nat -> option T), (forall i, nu <= i -> f i = None) -> k < nw ->
    obind (nth_error l k) f = obind (sel s k) f.
Proof.
  intros S I l. pose proof (idx_size_fwd _ _ S) as F. split; [|split].
  - destruct s as [|q|b e].
    + unfold l; simpl. rewrite seq_length. lia.
    + simpl in *. unfold l; simpl. lia.
    + unfold l. simpl in *. destruct (Nat.leb_spec b e); [|lia]. rewrite seq_length. lia.
  - destruct s as [|q|b e].
    + unfold l; simpl. apply Forall_forall. intros x Hx. apply in_seq in Hx. lia.
    + auto.
    + exact (idx_in_Forall _ _ F I).
  - intros k T f Hf Hk. unfold l. rewrite sel_list by auto. destruct s as [|q|b e]; auto.
    simpl. destruct (Nat.ltb_spec k (Nat.min nu nw)); auto. simpl. rewrite Hf; auto. lia.
Qed.

(** ** matrixExtract *)

Lemma setRow_nonempty {T} (M : lil T) i r :
  i < length (data M) -> nth i (data M) [] = [] ->
  (if empty r then Ok M else setRow (fun x => x) M i r) = Ok (setrow_pure M i r).
Proof.
  intros Hi Hn. destruct r as [|p r]; simpl.
  - rewrite <- Hn. rewrite setrow_pure_self. auto.
  - rewrite setRow_ok by auto. rewrite cast_id. auto.
Qed.

Lemma matrixExtract_A_gives {T} nr nc (A : lil T) ri ci :
  wfm A -> length ri <= nr -> Forall (fun i => i < nrows A) ri -> length ci <= nc ->
  tgives nr nc (fun i j => obind (nth_error ri i) (fun i' => obind (nth_error ci j) (mget A i')))
    (matrixExtract_A nr nc A ri ci).
Proof.
  intros WA L FR LC. unfold matrixExtract_A. rewrite (enum_map ri 0), mfor_map. cbv beta iota.
  match goal with |- tgives _ _ _ (mfor _ ?b _) =>
    destruct (rows_loop b (fun i => vectorExtract (nth (nth i ri 0) (data A) []) ci)
                (lil_new nr nc) (length ri)) as (M & E & R & K & LM & G & _)
  end.
  - simpl. rewrite repeat_length. auto.
  - intros i M Hi _ _ LM HN. rewrite getrow_ok.
    + cbn [bind]. cbv zeta. simpl in LM, HN. rewrite repeat_length in LM.
      apply setRow_nonempty; [lia|]. rewrite HN, nth_repeat'. ltb; auto.
    + rewrite wfm_len by auto. eapply Forall_forall in FR; [exact FR|]. apply nth_In; auto.
  - rewrite E. simpl in LM. rewrite repeat_length in LM.
    apply (tgives_rows nr nc M (fun i => if i <? length ri
      then vectorExtract (nth (nth i ri 0) (data A) []) ci else [])); auto.
    + intros i Hi. rewrite G. simpl. rewrite nth_repeat'. ltb; auto.
    + intros i Hi. ltb; [|exact I]. eapply vectorExtract_wf; [apply wfm_row|]; auto.
    + intros i j Hi Hj. destruct (Nat.ltb_spec i (length ri)).
      * erewrite vectorExtract_get by (apply wfm_row; auto).
        rewrite (nth_error_nth' ri 0) by auto. reflexivity.
      * rewrite (proj2 (nth_error_None _ _)) by auto. reflexivity.
Qed.

(** The inner loop of the transposed variant pushes the extracted row as a column. *)
Lemma extract_pushcol {T} (ra : row T) lo hi o ri : wfrow lo hi ra -> forall k (C : lil T),
  mfor (combine (seq k (length ri)) ri)
    (fun '(out_col_idx, wanted_idx) C =>
       match drop_below ra wanted_idx with
       | (k, v) :: _ =>
           if k =? wanted_idx then pushrow C out_col_idx (o, v) else Ok C
       | [] => Ok C
       end) C
  = pushcol (fun v => v) o
      (flat_map (fun '(k, w) => opt1 k (rget ra w)) (combine (seq k (length ri)) ri)) C.
Proof.
  intro W. unfold pushcol. induction ri as [|w ri IH]; intros k C; simpl; auto.
  rewrite mfor_app.
  assert (H : match drop_below ra w with
       | (k0, v) :: _ => if k0 =? w then pushrow C k (o, v) else Ok C
       | [] => Ok C
       end = mfor (opt1 k (rget ra w)) (fun p M' => pushrow M' (fst p) (o, snd p)) C).
  { pose proof (drop_below_head ra lo hi w W) as H.
    destruct (drop_below ra w) as [|[k0 v] r].
    - rewrite H by lia. reflexivity.
    - destruct H as (H1 & _ & _ & H2 & H3 & _). destruct (Nat.eqb_spec k0 w).
      + subst. rewrite H2. simpl. destruct (pushrow C k (o, v)); reflexivity.
      + rewrite H3 by lia. reflexivity. }
  rewrite H. destruct (mfor (opt1 k (rget ra w)) _ C); simpl; auto.
Qed.

Lemma vectorExtract_flat {T} (src : row T) lo hi ix : wfrow lo hi src ->
  vectorExtract src ix = flat_map (fun '(k, w) => opt1 k (rget src w)) (enum ix).
Proof.
  intro W. unfold vectorExtract.
  rewrite (fold_left_ext_in _ (fun d p => d ++ (fun '(k, w) => opt1 k (rget src w)) p)).
  - rewrite fold_append. auto.
  - intros d [k w] _. eapply find_dest; eauto.
Qed.

Lemma matrixExtract_AT_gives {T} nr nc (A : lil T) ri ci :
  wfm A -> length ri <= nr -> Forall (fun i => i < nrows A) ci -> length ci <= nc ->
  tgives nr nc (fun i j => obind (nth_error ri i) (fun i' => obind (nth_error ci j)
     (fun j' => mget A j' i')))
    (matrixExtract_AT nr nc A ri ci).
Proof.
  intros WA L FC LC. unfold matrixExtract_AT. rewrite (enum_map ci 0), mfor_map. cbv beta iota.
  match goal with |- tgives _ _ _ (mfor _ ?b _) =>
    destruct (pushcol_loop (fun v => v) b
      (fun o => vectorExtract (nth (nth o ci 0) (data A) []) ri) nr nc (length ci))
      as (M & E & LM & G)
  end.
  - intros i Hi. eapply vectorExtract_wf; [apply wfm_row|]; auto.
  - intros o M Ho LM. erewrite vectorExtract_flat by (apply wfm_row; auto).
    unfold enum. erewrite <- extract_pushcol by (apply wfm_row; auto).
    apply mfor_ext. intros [k w] C _. rewrite getrow_ok; [reflexivity|].
    rewrite wfm_len by auto. eapply Forall_forall in FC; [exact FC|]. apply nth_In; auto.
  - rewrite E.
    apply (tgives_rows nr nc M (fun i => genrow (fun j => option_map (fun v => v)
      (rget (vectorExtract (nth (nth j ci 0) (data A) []) ri) i)) 0 (length ci))); auto.
    + intros i Hi. eapply wfrow_weaken; [apply genrow_wf0|lia|lia].
    + intros i j Hi Hj. rewrite genrow_get. destruct (Nat.ltb_spec j (length ci)).
      * erewrite vectorExtract_get by (apply wfm_row; auto). rewrite option_map_id'.
        rewrite (nth_error_nth' ci 0) by auto. unfold vext.
        destruct (nth_error ri i); reflexivity.
      * rewrite (proj2 (nth_error_None ci j)) by auto. destruct (nth_error ri i); reflexivity.
Qed.

(** ** extractColumn *)

Lemma scan_first_get {T} (r : row T) lo hi j : wfrow lo hi r -> scan_first r j = rget r j.
Proof.
  revert lo. induction r as [|[k v] r IH]; intros lo W; simpl; auto.
  destruct W as [H W]. destruct (Nat.eqb_spec k j); auto.
  destruct (Nat.ltb_spec j k); [|eauto]. rewrite (rget_lt r (S k) hi); auto.
Qed.

Lemma scan_all_get {T} (r : row T) lo hi j : wfrow lo hi r ->
  scan_all r j = match rget r j with Some v => [v] | None => [] end.
Proof.
  revert lo. induction r as [|[k v] r IH]; intros lo W; simpl; auto.
  destruct W as [H W]. destruct (Nat.eqb_spec k j); auto.
  - subst. erewrite IH by eauto. rewrite (rget_lt r (S j) hi); auto.
  - destruct (Nat.ltb_spec j k); [|eauto]. rewrite (rget_lt r (S k) hi); auto.
Qed.

Lemma extractColumn_gives {T} (A : mview T) ri c n :
  wfview A -> Forall (fun i => i < vrows A) ri -> c < vcols A -> length ri <= n ->
  vgives n (fun k => obind (nth_error ri k) (fun i => sview A i c)) (extractColumn A ri c).
Proof.
  intros WA FR Hc L. unfold extractColumn.
  assert (K : forall k, k < length ri -> nth k ri 0 < vrows A).
  { intros k Hk. eapply Forall_forall in FR; [exact FR|]. apply nth_In; auto. }
  set (f := fun k => obind (nth_error ri k) (fun i => sview A i c)).
  assert (D : vgives n f (Ok ([] ++ genrow f 0 (length ri)))).
  { eexists. split; [reflexivity|]. simpl. split; [eapply wfrow_weaken; [apply genrow_wf0|lia|lia]|].
    intros i Hi. rewrite genrow_get. destruct (Nat.ltb_spec i (length ri)); auto.
    unfold f. rewrite (proj2 (nth_error_None _ _)) by auto. auto. }
  destruct A as [A|A]; simpl in *.
  - rewrite (enum_map ri 0), mfor_map. cbv beta iota. rewrite (append_loop f); auto.
    intros i t Hi. rewrite getrow_ok by (rewrite wfm_len; auto). cbn [bind].
    erewrite scan_first_get by (apply wfm_row; auto).
    unfold f. rewrite (nth_error_nth' ri 0) by auto. simpl. unfold mget.
    destruct (rget _ c); simpl; auto. rewrite app_nil_r; auto.
  - rewrite getrow_ok by (rewrite wfm_len; auto). cbn [bind].
    rewrite (enum_map ri 0), mfor_map. cbv beta iota. rewrite (append_loop f); auto.
    intros i t Hi. erewrite scan_all_get by (apply wfm_row; auto).
    unfold f. rewrite (nth_error_nth' ri 0) by auto. simpl. unfold stran, mget.
    destruct (rget _ (nth i ri 0)); simpl; auto.
Qed.

(** ** The operations *)

Section Extract.
Context {TM : Type} (truthy : TM -> bool).

Lemma extract_v_ok {TU TW TZ} (zc : TZ -> TW) (a : accum TW TU TZ) (m : mask (bvec TM)) outp
    (w : bvec TW) (u : bvec TU) s :
  wfv0 w -> wfv0 u -> wfvmask m -> vextract_conforms m w u s ->
  vwritten truthy zc a m outp w (sextract (vget u) s) (extract_v truthy zc a m outp w u s).
Proof.
  intros Ww Wu Wm (Fm & S & I). unfold extract_v.
  pose proof (idx_size_fwd _ _ S) as F.
  rewrite check_mask_size_ok by auto. cbn [bind].
  rewrite check_nindices_ok by auto. cbn [bind].
  rewrite check_content_ok by auto. cbn [bind].
  destruct (getContents_ok u Wu) as (uc & E & W & G). rewrite E. cbn [bind].
  destruct (ext_list s (vsize w) (vsize u) S I) as (L & _ & Sel). cbv zeta.
  rewrite Nat.min_comm. apply accum_write_1D_ok; auto.
  - eapply vectorExtract_wf; eauto.
  - intros i Hi. erewrite vectorExtract_get by eauto. unfold vext, sextract.
    rewrite Sel; auto.
    + destruct (sel s i); simpl; auto.
    + intros k Hk. rewrite G. apply vget_oob; auto.
Qed.

Lemma sview_oob {T} (A : mview T) i j : wfview A -> vrows A <= i \/ vcols A <= j -> sview A i j = None.
Proof.
  destruct A as [A|A]; simpl; intros W H; unfold stran; apply mget_oob; auto; tauto.
Qed.

Lemma extract_m_ok {TA TC TZ} (zc : TZ -> TC) (a : accum TC TA TZ) (m : mask (lil TM)) outp
    (C : lil TC) (A : mview TA) rs cs :
  wfm C -> wfview A -> wfmask m -> extract_conforms m C A rs cs ->
  written truthy zc a m outp C (smextract (sview A) rs cs)
    (extract_m truthy zc a m outp C A rs cs).
Proof.
  intros WC WA Wm (Fm & Sr & Sc & Ir & Ic). unfold extract_m.
  pose proof (idx_size_fwd _ _ Sr) as Fr. pose proof (idx_size_fwd _ _ Sc) as Fc.
  destruct (check_mask_ok m _ _ Fm) as [E1 E2]. rewrite E1. cbn [bind]. rewrite E2. cbn [bind].
  rewrite !check_nindices_ok by auto. cbn [bind].
  rewrite !check_content_ok by auto. cbn [bind].
  destruct (ext_list rs (nrows C) (vrows A) Sr Ir) as (Lr & Br & Selr).
  destruct (ext_list cs (ncols C) (vcols A) Sc Ic) as (Lc & Bc & Selc).
  set (ri := idx_list (setupIndices rs _)) in *. set (ci := idx_list (setupIndices cs _)) in *.
  assert (T : tgives (nrows C) (ncols C) (smextract (sview A) rs cs)
                (matrixExtract (nrows C) (ncols C) A ri ci)).
  { eapply tgives_ext with (f := fun i j => obind (nth_error ri i) (fun i' =>
       obind (nth_error ci j) (fun j' => sview A i' j'))).
    - intros i j Hi Hj. rewrite Selr; auto.
      + unfold smextract. destruct (sel rs i) as [i'|]; simpl; auto. rewrite Selc; auto.
        intros. apply sview_oob; auto.
      + intros i' Hi'. rewrite Selc; auto.
        * destruct (sel cs j); simpl; auto. apply sview_oob; auto.
        * intros. apply sview_oob; auto.
    - destruct A as [A|A]; simpl in *.
      + apply matrixExtract_A_gives; auto.
      + apply matrixExtract_AT_gives; auto. }
  destruct T as (T & E & WT & GT). rewrite E. cbn [bind]. apply accum_write_ok; auto.
Qed.

Lemma extract_col_ok {TA TW TZ} (zc : TZ -> TW) (a : accum TW TA TZ) (m : mask (bvec TM)) outp
    (w : bvec TW) (A : mview TA) rs col :
  wfv0 w -> wfview A -> wfvmask m -> cextract_conforms m w A rs col ->
  vwritten truthy zc a m outp w (scextract (sview A) rs col)
    (extract_col truthy zc a m outp w A rs col).
Proof.
  intros Ww WA Wm (Fm & S & Hc & I). unfold extract_col.
  pose proof (idx_size_fwd _ _ S) as F.
  rewrite check_mask_size_ok by auto. cbn [bind].
  rewrite check_nindices_ok by auto. cbn [bind].
  unfold check_index_within. destruct (Nat.leb_spec (vcols A) col); [lia|]. cbn [throw_if bind].
  rewrite check_content_ok by auto. cbn [bind].
  destruct (ext_list rs (vsize w) (vrows A) S I) as (L & B & Sel).
  destruct (extractColumn_gives A _ col (vsize w) WA B Hc L) as (t & E & Wt & Gt).
  rewrite E. cbn [bind]. apply accum_write_1D_ok; auto.
  intros i Hi. rewrite Gt by auto. rewrite Sel; auto.
  intros. apply sview_oob; auto.
Qed.

(** *** Errors *)

Lemma check_nindices_bind {A} s n (k : unit -> res A) : idx_fwd s ->
  (idx_size s n -> k tt = Throw DimensionException) ->
  bind (check_nindices n s) k = Throw DimensionException.
Proof.
  intros F H. destruct (idx_size_dec s n).
  - rewrite check_nindices_ok by auto. cbn [bind]. auto.
  - rewrite check_nindices_throw by auto. reflexivity.
Qed.

Lemma extract_v_errors {TU TW TZ} (zc : TZ -> TW) (a : accum TW TU TZ) (m : mask (bvec TM)) outp
    (w : bvec TW) (u : bvec TU) s : idx_fwd s ->
  (~ (vmask_fits m (vsize w) /\ idx_size s (vsize w)) ->
   extract_v truthy zc a m outp w u s = Throw DimensionException) /\
  (vmask_fits m (vsize w) /\ idx_size s (vsize w) -> ~ idx_in s (vsize u) ->
   extract_v truthy zc a m outp w u s = Throw IndexOutOfBoundsException).
Proof.
  intro F. unfold extract_v. split.
  - intro H. apply check_vmask_bind. intro Fm. apply check_nindices_bind; auto. tauto.
  - intros [Fm S] I. rewrite check_mask_size_ok by auto. cbn [bind].
    rewrite check_nindices_ok by auto. cbn [bind]. rewrite check_content_throw by auto. reflexivity.
Qed.

Lemma extract_m_errors {TA TC TZ} (zc : TZ -> TC) (a : accum TC TA TZ) (m : mask (lil TM)) outp
    (C : lil TC) (A : mview TA) rs cs : idx_fwd rs -> idx_fwd cs ->
  (~ (mask_fits m (nrows C) (ncols C) /\ idx_size rs (nrows C) /\ idx_size cs (ncols C)) ->
   extract_m truthy zc a m outp C A rs cs = Throw DimensionException) /\
  (mask_fits m (nrows C) (ncols C) /\ idx_size rs (nrows C) /\ idx_size cs (ncols C) ->
   ~ (idx_in rs (vrows A) /\ idx_in cs (vcols A)) ->
   extract_m truthy zc a m outp C A rs cs = Throw IndexOutOfBoundsException).
Proof.
  intros Fr Fc. unfold extract_m. split.
  - intro H. apply check_mask_bind. intro Fm. apply check_nindices_bind; auto.
    intro. apply check_nindices_bind; auto. tauto.
  - intros (Fm & Sr & Sc) I. destruct (check_mask_ok m _ _ Fm) as [-> ->]. cbn [bind].
    rewrite !check_nindices_ok by auto. cbn [bind].
    destruct (idx_in_dec rs (vrows A)).
    + rewrite check_content_ok by auto. cbn [bind]. rewrite check_content_throw by tauto. reflexivity.
    + rewrite check_content_throw by auto. reflexivity.
Qed.

Lemma extract_col_errors {TA TW TZ} (zc : TZ -> TW) (a : accum TW TA TZ) (m : mask (bvec TM)) outp
    (w : bvec TW) (A : mview TA) rs col : idx_fwd rs ->
  (~ (vmask_fits m (vsize w) /\ idx_size rs (vsize w)) ->
   extract_col truthy zc a m outp w A rs col = Throw DimensionException) /\
  (vmask_fits m (vsize w) /\ idx_size rs (vsize w) -> vcols A <= col ->
   extract_col truthy zc a m outp w A rs col = Throw InvalidIndexException) /\
  (vmask_fits m (vsize w) /\ idx_size rs (vsize w) -> col < vcols A -> ~ idx_in rs (vrows A) ->
   extract_col truthy zc a m outp w A rs col = Throw IndexOutOfBoundsException).
Proof.
  intro F. unfold extract_col, check_index_within. split; [|split].
  - intro H. apply check_vmask_bind. intro Fm. apply check_nindices_bind; auto. tauto.
  - intros [Fm S] I. rewrite check_mask_size_ok by auto. cbn [bind].
    rewrite check_nindices_ok by auto. cbn [bind].
    destruct (Nat.leb_spec (vcols A) col); [reflexivity|lia].
  - intros [Fm S] Hc I. rewrite check_mask_size_ok by auto. cbn [bind].
    rewrite check_nindices_ok by auto. cbn [bind].
    destruct (Nat.leb_spec (vcols A) col); [lia|]. cbn [throw_if bind].
    rewrite check_content_throw by auto. reflexivity.
Qed.
End Extract.
