(** Lemmas on the matrix container. *)
From Coq Require Import Lia.
From Verif Require Import Base ModelLil ModelVec ModelHelpers Spec ProofBase ProofRow.

(** ** Counting *)

(** Sum of the row sizes. *)
Definition tot {T} (d : list (row T)) : Z :=
  fold_right (fun r n => (Z.of_nat (length r) + n)%Z) 0%Z d.

Lemma tot_nonneg {T} (d : list (row T)) : (0 <= tot d)%Z.
Proof. induction d; simpl; lia. Qed.

Lemma count_rows_tot {T} (d : list (row T)) : count_rows d = tot d.
Proof.
  unfold count_rows.
  assert (H : forall n, fold_left (fun n r => (n + Z.of_nat (length r))%Z) d n = (n + tot d)%Z).
  { induction d as [|r d IH]; intro n; simpl; [lia|]. rewrite IH. lia. }
  rewrite H. lia.
Qed.

Lemma tot_app {T} (d1 d2 : list (row T)) : tot (d1 ++ d2) = (tot d1 + tot d2)%Z.
Proof. induction d1; simpl; lia. Qed.

Lemma tot_repeat_nil {T} n : tot (repeat (@nil (nat * T)) n) = 0%Z.
Proof. induction n; simpl; auto. Qed.

Lemma tot_upd {T} (d : list (row T)) i r :
  i < length d ->
  tot (upd d i r) = (tot d + Z.of_nat (length r) - Z.of_nat (length (nth i d [])))%Z.
Proof.
  revert i; induction d as [|x d IH]; intros [|i] H; simpl in *; try lia.
  rewrite IH by lia. lia.
Qed.

Lemma tot_cast {S T} (f : S -> T) d : tot (map (cast_row f) d) = tot d.
Proof. induction d; simpl; auto. rewrite cast_length. lia. Qed.

Lemma mcount_rows {T} nr nc (A : smat T) :
  mcount nr nc A = list_sum (map (fun i => vcount nc (A i)) (seq 0 nr)).
Proof.
  unfold mcount. induction (seq 0 nr) as [|i l IH]; simpl; auto.
  rewrite filter_app, app_length, IH. change list_sum with (fold_right Nat.add 0).
  cbv beta. apply f_equal2; [|reflexivity].
  unfold vcount. clear IH. induction (seq 0 nc) as [|j l' IH']; simpl; auto.
  destruct (is_some (A i j)); simpl; auto.
Qed.

Lemma vcount_ext {T U} n (u : svec T) (v : svec U) :
  (forall i, i < n -> is_some (u i) = is_some (v i)) -> vcount n u = vcount n v.
Proof.
  intro H. unfold vcount. f_equal. apply filter_ext_in'.
  intros x Hx. apply in_seq in Hx. apply H. lia.
Qed.

Lemma mcount_ext {T U} nr nc (A : smat T) (B : smat U) :
  (forall i j, i < nr -> j < nc -> is_some (A i j) = is_some (B i j)) ->
  mcount nr nc A = mcount nr nc B.
Proof.
  intro H. rewrite !mcount_rows. f_equal. apply map_ext_in. intros i Hi.
  apply in_seq in Hi. apply vcount_ext. intros; apply H; lia.
Qed.

Lemma wfrow_vcount {T} nc (r : row T) : wfrow 0 nc r -> length r = vcount nc (rget r).
Proof. intro H. unfold vcount. rewrite (row_length_count r 0 nc H), Nat.sub_0_r. reflexivity. Qed.

Lemma wfrows_count {T} nr nc (d : list (row T)) :
  wfrows nr nc d ->
  tot d = Z.of_nat (mcount nr nc (fun i j => rget (nth i d []) j)).
Proof.
  intros [L W]. rewrite mcount_rows. subst nr.
  replace (map (fun i => vcount nc (fun j => rget (nth i d []) j)) (seq 0 (length d)))
    with (map (fun r => vcount nc (rget r)) d).
  2:{ rewrite <- (map_nth_seq d []) at 1. rewrite map_map. reflexivity. }
  induction W as [|r d H W IH]; [reflexivity|].
  cbn [tot fold_right map]. fold (tot d). rewrite IH, (wfrow_vcount nc r H).
  rewrite <- Nat2Z.inj_add. reflexivity.
Qed.

(** Well-formedness phrased with row sizes. *)
Lemma wfm_tot {T} (M : lil T) :
  wfm M <-> wfrows (nrows M) (ncols M) (data M) /\ nvals M = tot (data M).
Proof.
  unfold wfm. split; intros [H1 H2]; split; auto.
  - rewrite H2. symmetry. apply wfrows_count; auto.
  - rewrite H2. apply wfrows_count; auto.
Qed.

Lemma wfrows_nth {T} nr nc (d : list (row T)) i : wfrows nr nc d -> wfrow 0 nc (nth i d []).
Proof. intros [L W]. apply Forall_nth'; simpl; auto. Qed.

Lemma wfm_row {T} (M : lil T) i : wfm M -> wfrow 0 (ncols M) (nth i (data M) []).
Proof. intros [W _]. eapply wfrows_nth; eauto. Qed.

Lemma wfm_len {T} (M : lil T) : wfm M -> length (data M) = nrows M.
Proof. intros [[L _] _]; auto. Qed.

Lemma mget_oob {T} (M : lil T) i j :
  wfm M -> nrows M <= i \/ ncols M <= j -> mget M i j = None.
Proof.
  intros H [Hi|Hj]; unfold mget.
  - rewrite nth_overflow; auto. rewrite wfm_len; auto.
  - eapply rget_ge; eauto. apply wfm_row; auto.
Qed.

Lemma mget_some_bounds {T} (M : lil T) i j v :
  wfm M -> mget M i j = Some v -> i < nrows M /\ j < ncols M.
Proof.
  intros H E.
  destruct (Nat.lt_ge_cases i (nrows M)); destruct (Nat.lt_ge_cases j (ncols M)); auto;
    rewrite mget_oob in E; auto; discriminate.
Qed.

(** Equal dimensions and entries make equal matrices. *)
Lemma lil_ext {T} (A B : lil T) :
  wfm A -> wfm B -> nrows A = nrows B -> ncols A = ncols B ->
  (forall i j, i < nrows A -> j < ncols A -> mget A i j = mget B i j) -> A = B.
Proof.
  intros HA HB En Ec E.
  assert (Ed : data A = data B).
  { apply nth_ext' with (d := []).
    - rewrite (wfm_len A HA), (wfm_len B HB); auto.
    - intros i Hi. rewrite (wfm_len A HA) in Hi.
      apply row_ext with (lo := 0) (hi := ncols A).
      + apply wfm_row; auto.
      + rewrite Ec; apply wfm_row; auto.
      + intros j Hj. apply E; lia. }
  apply wfm_tot in HA. apply wfm_tot in HB. destruct HA as [_ HA], HB as [_ HB].
  destruct A, B; simpl in *; subst. reflexivity.
Qed.

(** ** Row updates *)

Definition setrow_pure {T} (M : lil T) (i : nat) (r : row T) : lil T :=
  mkLil (nrows M) (ncols M)
        (nvals M + Z.of_nat (length r) - Z.of_nat (length (nth i (data M) []))) (upd (data M) i r).

Lemma getrow_ok {T} (M : lil T) i : i < length (data M) -> getrow M i = Ok (nth i (data M) []).
Proof. intro H. apply vat_ok; auto. Qed.

Lemma setRow_ok {S T} (f : S -> T) (M : lil T) i r :
  i < length (data M) -> setRow f M i r = Ok (setrow_pure M i (cast_row f r)).
Proof.
  intro H. unfold setRow, setrow_pure. rewrite getrow_ok by auto. simpl.
  rewrite vset_ok by auto. simpl. rewrite cast_length. reflexivity.
Qed.

Lemma setrow_pure_self {T} (M : lil T) i : setrow_pure M i (nth i (data M) []) = M.
Proof.
  unfold setrow_pure. rewrite upd_self. destruct M; simpl. f_equal. lia.
Qed.

Lemma setrow_pure_wf {T} (M : lil T) i r :
  wfm M -> i < nrows M -> wfrow 0 (ncols M) r -> wfm (setrow_pure M i r).
Proof.
  intros H Hi Hr. apply wfm_tot in H. destruct H as [[L W] N].
  apply wfm_tot. split; simpl.
  - split; [rewrite upd_length; auto|apply Forall_upd; auto].
  - rewrite tot_upd by lia. lia.
Qed.

Lemma mget_setrow_pure {T} (M : lil T) i r i' j :
  i < length (data M) ->
  mget (setrow_pure M i r) i' j = if i' =? i then rget r j else mget M i' j.
Proof.
  intro H. unfold mget, setrow_pure; simpl. rewrite nth_upd by auto. ltb; auto.
Qed.

(** A loop that replaces rows [0..n-1], row [i] by [F i]. *)
Lemma rows_loop {T} (body : nat -> lil T -> res (lil T)) (F : nat -> row T) (M0 : lil T) n :
  n <= length (data M0) ->
  (forall i M, i < n -> nrows M = nrows M0 -> ncols M = ncols M0 ->
     length (data M) = length (data M0) ->
     nth i (data M) [] = nth i (data M0) [] ->
     body i M = Ok (setrow_pure M i (F i))) ->
  exists M', mfor (seq 0 n) body M0 = Ok M' /\
    nrows M' = nrows M0 /\ ncols M' = ncols M0 /\ length (data M') = length (data M0) /\
    (forall i, nth i (data M') [] = if i <? n then F i else nth i (data M0) []) /\
    nvals M' = (nvals M0 + tot (data M') - tot (data M0))%Z.
Proof.
  intros Hn Hb.
  destruct (mfor_seq_inv (fun k M =>
    nrows M = nrows M0 /\ ncols M = ncols M0 /\ length (data M) = length (data M0) /\
    (forall i, nth i (data M) [] = if i <? k then F i else nth i (data M0) []) /\
    nvals M = (nvals M0 + tot (data M) - tot (data M0))%Z) body n M0) as (M' & E & P).
  - repeat split; auto. lia.
  - intros i M Hi (R & C & L & G & N).
    assert (Ni : nth i (data M) [] = nth i (data M0) []).
    { rewrite G. ltb; auto. }
    exists (setrow_pure M i (F i)). split; [apply Hb; auto|].
    unfold setrow_pure; simpl. repeat split; auto.
    + rewrite upd_length; auto.
    + intro k. rewrite nth_upd by lia. rewrite G. ltb; subst; auto; lia.
    + rewrite tot_upd by lia. lia.
  - exists M'. tauto.
Qed.

(** The same for a well-formed matrix all of whose rows are replaced. *)
Lemma rows_loop_full {T} (body : nat -> lil T -> res (lil T)) (F : nat -> row T) (M0 : lil T) :
  wfm M0 ->
  (forall i M, i < nrows M0 -> nrows M = nrows M0 -> ncols M = ncols M0 ->
     length (data M) = nrows M0 ->
     nth i (data M) [] = nth i (data M0) [] ->
     body i M = Ok (setrow_pure M i (F i))) ->
  (forall i, i < nrows M0 -> wfrow 0 (ncols M0) (F i)) ->
  exists M', mfor (seq 0 (nrows M0)) body M0 = Ok M' /\ wfm M' /\
    nrows M' = nrows M0 /\ ncols M' = ncols M0 /\
    (forall i j, i < nrows M0 -> mget M' i j = rget (F i) j).
Proof.
  intros W Hb HF. pose proof (wfm_len M0 W) as L0.
  destruct (rows_loop body F M0 (nrows M0)) as (M' & E & R & C & L & G & N).
  - lia.
  - intros; apply Hb; auto. congruence.
  - exists M'. split; [auto|]. split; [|split; [auto|split; [auto|]]].
    + apply wfm_tot. split; [split; [congruence|]|].
      * apply Forall_of_nth with (d := []). intros i Hi. rewrite G.
        rewrite L, L0 in Hi. ltb. rewrite C. apply HF; auto.
      * rewrite N. apply wfm_tot in W. destruct W as [_ W]. rewrite W. lia.
    + intros i j Hi. unfold mget. rewrite G. ltb; auto.
Qed.

(** ** Element operations *)

Lemma lil_new_wf {T} nr nc : wfm (@lil_new T nr nc).
Proof.
  apply wfm_tot. unfold lil_new; simpl. split; [split|].
  - apply repeat_length.
  - apply Forall_forall. intros r H. apply repeat_spec in H. subst; simpl; auto.
  - rewrite tot_repeat_nil; auto.
Qed.

Lemma mget_new {T} nr nc i j : mget (@lil_new T nr nc) i j = None.
Proof.
  unfold mget, lil_new; simpl. rewrite nth_repeat'. ltb; auto.
Qed.

Lemma lil_clear_eq {T} (M : lil T) :
  length (data M) = nrows M -> lil_clear M = lil_new (nrows M) (ncols M).
Proof.
  intro H. unfold lil_clear, lil_new. f_equal. rewrite <- H. clear H.
  induction (data M); simpl; congruence.
Qed.

Lemma oob_spec {T} (M : lil T) i j :
  oob M i j = false <-> i < nrows M /\ j < ncols M.
Proof.
  unfold oob. rewrite orb_false_iff, !Nat.leb_gt. tauto.
Qed.

Lemma oob_true {T} (M : lil T) i j :
  oob M i j = true <-> nrows M <= i \/ ncols M <= j.
Proof.
  unfold oob. rewrite orb_true_iff, !Nat.leb_le. tauto.
Qed.

Lemma setElement_merge_ok {T} merge (M : lil T) i j v :
  wfm M -> i < nrows M -> j < ncols M ->
  exists M', lil_setElement_merge merge M i j v = Ok M' /\ wfm M' /\
    nrows M' = nrows M /\ ncols M' = ncols M /\
    forall i' j', mget M' i' j' =
      if (i' =? i) && (j' =? j)
      then Some (match mget M i j with Some w => merge w v | None => v end)
      else mget M i' j'.
Proof.
  intros W Hi Hj. unfold lil_setElement_merge.
  rewrite (proj2 (oob_spec M i j)) by auto.
  pose proof (wfm_len M W) as L. rewrite getrow_ok by lia. simpl.
  pose proof (wfm_row M i W) as Wr.
  pose proof (row_set_wf merge _ 0 _ j v Wr ltac:(lia)) as RW.
  pose proof (fun k => row_set_get merge _ 0 _ j v k Wr) as RG.
  pose proof (row_set_flag merge _ 0 _ j v Wr) as [RF RL].
  destruct (row_set merge (nth i (data M) []) j v) as [r' b] eqn:E. simpl in *.
  rewrite vset_ok by lia. simpl. eexists; split; [reflexivity|].
  assert (EM : mkLil (nrows M) (ncols M) (if b then (nvals M + 1)%Z else nvals M)
                 (upd (data M) i r') = setrow_pure M i r').
  { unfold setrow_pure. f_equal. destruct b; lia. }
  rewrite EM. split; [apply setrow_pure_wf; auto|]. split; auto. split; auto.
  intros i' j'. rewrite mget_setrow_pure by lia.
  destruct (Nat.eqb_spec i' i) as [->|N]; simpl; auto.
  exact (RG j').
Qed.

Lemma removeElement_ok {T} (M : lil T) i j :
  wfm M -> i < nrows M -> j < ncols M ->
  exists M', lil_removeElement M i j = Ok M' /\ wfm M' /\
    nrows M' = nrows M /\ ncols M' = ncols M /\
    forall i' j', mget M' i' j' = if (i' =? i) && (j' =? j) then None else mget M i' j'.
Proof.
  intros W Hi Hj. unfold lil_removeElement.
  rewrite (proj2 (oob_spec M i j)) by auto.
  pose proof (wfm_len M W) as L. rewrite getrow_ok by lia. simpl.
  pose proof (wfm_row M i W) as Wr.
  pose proof (row_remove_wf _ 0 _ j Wr) as RW.
  pose proof (fun k => row_remove_get _ 0 _ j k Wr) as RG.
  pose proof (row_remove_flag _ 0 _ j Wr) as [RF RL].
  destruct (row_remove (nth i (data M) []) j) as [r' b] eqn:E. simpl in *.
  rewrite vset_ok by lia. simpl. eexists; split; [reflexivity|].
  assert (EM : mkLil (nrows M) (ncols M) (if b then (nvals M - 1)%Z else nvals M)
                 (upd (data M) i r') = setrow_pure M i r').
  { unfold setrow_pure. f_equal. destruct b; lia. }
  rewrite EM. split; [apply setrow_pure_wf; auto|]. split; auto. split; auto.
  intros i' j'. rewrite mget_setrow_pure by lia.
  destruct (Nat.eqb_spec i' i) as [->|N]; simpl; auto.
  exact (RG j').
Qed.

Lemma hasElement_ok {T} (M : lil T) i j :
  wfm M -> i < nrows M -> j < ncols M -> lil_hasElement M i j = Ok (is_some (mget M i j)).
Proof.
  intros W Hi Hj. unfold lil_hasElement.
  rewrite (proj2 (oob_spec M i j)) by auto.
  pose proof (wfm_len M W) as L.
  destruct (data M) as [|r0 d] eqn:E; [simpl in L; lia|]. rewrite <- E in *.
  rewrite getrow_ok by lia. simpl. rewrite row_find_rget. unfold mget.
  destruct (rget _ _); reflexivity.
Qed.

Lemma extractElement_ok {T} (M : lil T) i j :
  wfm M -> i < nrows M -> j < ncols M ->
  lil_extractElement M i j =
    match mget M i j with Some v => Ok v | None => Throw NoValueException end.
Proof.
  intros W Hi Hj. unfold lil_extractElement.
  rewrite (proj2 (oob_spec M i j)) by auto.
  pose proof (wfm_len M W) as L.
  destruct (data M) as [|r0 d] eqn:E; [simpl in L; lia|]. rewrite <- E in *.
  rewrite getrow_ok by lia. simpl. rewrite row_find_rget. reflexivity.
Qed.

Lemma element_oob {T} merge (M : lil T) i j v :
  nrows M <= i \/ ncols M <= j ->
  lil_hasElement M i j = Throw IndexOutOfBoundsException /\
  lil_extractElement M i j = Throw IndexOutOfBoundsException /\
  lil_setElement_merge merge M i j v = Throw IndexOutOfBoundsException /\
  lil_removeElement M i j = Throw IndexOutOfBoundsException.
Proof.
  intro H. apply oob_true in H.
  unfold lil_hasElement, lil_extractElement, lil_setElement_merge, lil_removeElement.
  rewrite H. auto.
Qed.

(** ** Resize *)
Lemma resize_trunc_fold {T} nc (d : list (row T)) n acc :
  fold_left (fun '(n, acc) r =>
     let r' := row_truncate nc r in
     ((n - (Z.of_nat (length r) - Z.of_nat (length r')))%Z, acc ++ [r'])) d (n, acc)
  = ((n - (tot d - tot (map (row_truncate nc) d)))%Z, acc ++ map (row_truncate nc) d).
Proof.
  revert n acc; induction d as [|r d IH]; intros n acc; simpl.
  - rewrite app_nil_r. f_equal. lia.
  - rewrite IH, <- app_assoc. f_equal. lia.
Qed.

Lemma resize_ok {T} (M : lil T) nr nc :
  wfm M ->
  wfm (lil_resize M nr nc) /\ nrows (lil_resize M nr nc) = nr /\
  ncols (lil_resize M nr nc) = nc /\
  forall i j, mget (lil_resize M nr nc) i j =
    if (i <? nr) && (j <? nc) then mget M i j else None.
Proof.
  intro W. pose proof (wfm_len M W) as L.
  set (d1 := vresize (data M) nr []).
  assert (W1 : Forall (wfrow 0 (ncols M)) d1).
  { unfold d1, vresize. apply Forall_app. split.
    - destruct W as [[_ W] _]. rewrite <- (firstn_skipn nr (data M)) in W.
      apply Forall_app in W. tauto.
    - apply Forall_forall. intros r H. apply repeat_spec in H. subst; simpl; auto. }
  assert (G1 : forall i, nth i d1 [] = if i <? nr then nth i (data M) [] else []).
  { intro i. apply nth_vresize. }
  assert (L1 : length d1 = nr) by apply vresize_length.
  assert (N1 : (if nr <? nrows M then count_rows d1 else nvals M) = tot d1).
  { rewrite count_rows_tot. destruct (Nat.ltb_spec nr (nrows M)); auto.
    unfold d1, vresize. rewrite firstn_all2 by lia. rewrite tot_app, tot_repeat_nil.
    apply wfm_tot in W. destruct W as [_ W]. lia. }
  assert (E : lil_resize M nr nc =
    mkLil nr nc
      (if nc <? ncols M then tot (map (row_truncate nc) d1) else tot d1)
      (if nc <? ncols M then map (row_truncate nc) d1 else d1)).
  { unfold lil_resize. fold d1. rewrite N1. destruct (nc <? ncols M); auto.
    rewrite resize_trunc_fold. simpl. f_equal. lia. }
  rewrite E. clear E. simpl. split; [|split; [auto|split; [auto|]]].
  - apply wfm_tot. simpl. destruct (Nat.ltb_spec nc (ncols M)); split; auto; split; auto.
    + rewrite map_length; auto.
    + apply Forall_map. eapply Forall_impl; [|exact W1]. intros r Hr. simpl in Hr |- *.
      rewrite row_truncate_take. eapply wfrow_weaken; [apply take_below_wf; eauto|lia|lia].
    + eapply Forall_impl; [|exact W1]. intros r Hr.
      eapply wfrow_weaken; eauto.
  - intros i j. unfold mget; simpl. destruct (Nat.ltb_spec nc (ncols M)) as [Hc|Hc].
    + change (@nil (nat * T)) with (row_truncate nc (@nil (nat * T))) at 1.
      rewrite map_nth, row_truncate_take. rewrite G1.
      destruct (Nat.ltb_spec i nr); simpl.
      * rewrite (rget_take _ 0 (ncols M)); auto. apply wfm_row; auto.
      * reflexivity.
    + rewrite G1. destruct (Nat.ltb_spec i nr); simpl; auto.
      destruct (Nat.ltb_spec j nc); auto.
      eapply rget_ge; [apply wfm_row; auto|lia].
Qed.

(** ** Build *)
Lemma build_ok {T} dup ts : forall (M : lil T),
  wfm M -> Forall (fun '(i, j, _) => i < nrows M /\ j < ncols M) ts ->
  exists M', lil_build dup M ts = (M', Ok tt) /\ wfm M' /\
    nrows M' = nrows M /\ ncols M' = ncols M /\
    forall i j, mget M' i j =
      osum dup (mget M i j ::
        map (fun t => Some (snd t)) (filter (fun '(i', j', _) => (i' =? i) && (j' =? j)) ts)).
Proof.
  induction ts as [|[[i0 j0] v0] ts IH]; intros M W F.
  - exists M. simpl. split; [auto|]. split; [auto|]. split; [auto|]. split; [auto|].
    intros i j. unfold osum; simpl. destruct (mget M i j); reflexivity.
  - inversion F as [|? ? H12 F']; subst. cbn in H12. destruct H12 as [H1 H2]. simpl.
    destruct (setElement_merge_ok dup M i0 j0 v0 W H1 H2) as (M1 & E & W1 & R1 & C1 & G1).
    rewrite E. destruct (IH M1 W1) as (M' & E' & W' & R' & C' & G').
    { rewrite R1, C1. exact F'. }
    exists M'. rewrite E'. split; [auto|]. split; [auto|]. split; [congruence|]. split; [congruence|].
    intros i j. rewrite G', G1. rewrite (Nat.eqb_sym i i0), (Nat.eqb_sym j j0).
    destruct (Nat.eqb_spec i0 i) as [->|]; destruct (Nat.eqb_spec j0 j) as [->|]; simpl; auto.
    unfold osum; simpl. destruct (mget M i j); reflexivity.
Qed.

(** On failure a prefix of the tuples has been inserted. *)
Lemma build_prefix {T} dup ts1 i j v ts2 (M M' : lil T) :
  lil_build dup M ts1 = (M', Ok tt) -> oob M' i j = true ->
  lil_build dup M (ts1 ++ (i, j, v) :: ts2) = (M', Throw IndexOutOfBoundsException).
Proof.
  revert M; induction ts1 as [|[[a b] x] ts1 IH]; intros M E H; simpl in *.
  - injection E as <-. unfold lil_setElement_merge. rewrite H. reflexivity.
  - destruct (lil_setElement_merge dup M a b x); try discriminate. apply IH; auto.
Qed.

Lemma build_wf {T} dup ts : forall (M : lil T),
  wfm M -> wfm (fst (lil_build dup M ts)) /\
    nrows (fst (lil_build dup M ts)) = nrows M /\ ncols (fst (lil_build dup M ts)) = ncols M /\
    snd (lil_build dup M ts) =
      if forallb (fun '(i, j, _) => (i <? nrows M) && (j <? ncols M)) ts
      then Ok tt else Throw IndexOutOfBoundsException.
Proof.
  induction ts as [|[[i0 j0] v0] ts IH]; intros M W; [simpl; repeat split; auto; apply W|].
  simpl. destruct (oob M i0 j0) eqn:O.
  - unfold lil_setElement_merge at 1 2 3 4. unfold lil_setElement_merge. rewrite O. simpl.
    repeat split; auto; try apply W. apply oob_true in O.
    destruct (Nat.ltb_spec i0 (nrows M)), (Nat.ltb_spec j0 (ncols M)); simpl; auto; lia.
  - apply oob_spec in O. destruct O as [O1 O2].
    destruct (setElement_merge_ok dup M i0 j0 v0 W O1 O2) as (M1 & E & W1 & R1 & C1 & G1).
    rewrite E. specialize (IH M1 W1). rewrite R1, C1 in IH.
    apply Nat.ltb_lt in O1; apply Nat.ltb_lt in O2. rewrite O1, O2. simpl. exact IH.
Qed.

(** ** Equality *)
Lemma row_eqb_spec {T} eqb (r1 r2 : row T) :
  (forall a b : T, eqb a b = true <-> a = b) -> (row_eqb eqb r1 r2 = true <-> r1 = r2).
Proof.
  intro H. revert r2; induction r1 as [|[i a] r1 IH]; intros [|[j b] r2]; simpl;
    try (split; congruence).
  rewrite !andb_true_iff, Nat.eqb_eq, H, IH. split.
  - intros [[-> ->] ->]; auto.
  - intros [= -> -> ->]; auto.
Qed.

Lemma rows_eqb_spec {T} eqb (l1 l2 : list (row T)) :
  (forall a b : T, eqb a b = true <-> a = b) -> (rows_eqb eqb l1 l2 = true <-> l1 = l2).
Proof.
  intro H. revert l2; induction l1 as [|r1 l1 IH]; intros [|r2 l2]; simpl;
    try (split; congruence).
  rewrite andb_true_iff, (row_eqb_spec eqb) by auto. rewrite IH. split.
  - intros [-> ->]; auto.
  - intros [= -> ->]; auto.
Qed.

Lemma lil_eqb_spec {T} eqb (A B : lil T) :
  (forall a b : T, eqb a b = true <-> a = b) -> (lil_eqb eqb A B = true <-> A = B).
Proof.
  intro H. unfold lil_eqb. rewrite !andb_true_iff, !Nat.eqb_eq, Z.eqb_eq, (rows_eqb_spec eqb) by auto.
  split.
  - intros [[[? ?] ?] ?]. destruct A, B; simpl in *; congruence.
  - intros ->; auto.
Qed.

(** ** Tuples *)
Lemma tuples_from_In {T} (d : list (row T)) b i j v :
  In (i, j, v) (tuples_from b d) <-> b <= i /\ In (j, v) (nth (i - b) d []).
Proof.
  revert b; induction d as [|r d IH]; intro b; simpl.
  - split; [tauto|]. intros [_ H]. destruct (i - b); auto.
  - rewrite in_app_iff, IH, in_map_iff. split.
    + intros [([j' v'] & E & H)|[H1 H2]].
      * injection E as -> -> ->. rewrite Nat.sub_diag. auto.
      * split; [lia|]. replace (i - b) with (S (i - S b)) by lia. auto.
    + intros [H1 H2]. destruct (Nat.eq_dec b i) as [->|N].
      * left. rewrite Nat.sub_diag in H2. exists (j, v); auto.
      * right. split; [lia|]. replace (i - b) with (S (i - S b)) in H2 by lia. auto.
Qed.

Lemma tuples_from_length {T} (d : list (row T)) b : Z.of_nat (length (tuples_from b d)) = tot d.
Proof.
  revert b; induction d as [|r d IH]; intro b; simpl; auto.
  rewrite app_length, map_length. specialize (IH (S b)). lia.
Qed.

(** ** Column access *)
Lemma flat_map_find {T} (r : row T) lo hi (i : nat) j :
  wfrow lo hi r ->
  flat_map (fun '(k, v) => if k =? j then [(i, v)] else []) r =
    match rget r j with Some v => [(i, v)] | None => [] end.
Proof.
  revert lo; induction r as [|[k v] r IH]; intros lo H; simpl; auto.
  destruct H as [H1 H2]. rewrite (IH _ H2). destruct (Nat.eqb_spec k j); auto.
  subst. rewrite (rget_lt r (S j) hi); auto.
Qed.

Lemma getCol_ok {T} (M : lil T) j :
  wfrows (nrows M) (ncols M) (data M) ->
  exists c, getCol M j = Ok c /\ wfrow 0 (nrows M) c /\
    forall i, rget c i = mget M i j.
Proof.
  intros W. unfold getCol.
  destruct (mfor_seq_inv (fun k acc => wfrow 0 k acc /\
      forall i, rget acc i = if i <? k then mget M i j else None)
    (fun ii acc => r <- getrow M ii ;;
       Ok (acc ++ flat_map (fun '(k, v) => if k =? j then [(ii, v)] else []) r))
    (nrows M) []) as (c & E & P1 & P2).
  - simpl; auto.
  - intros i s Hi [P1 P2]. rewrite getrow_ok by (destruct W; lia). simpl.
    eexists; split; [reflexivity|].
    pose proof (wfrows_nth _ _ _ i W) as Wr.
    rewrite (flat_map_find _ _ _ _ _ Wr). split.
    + apply wfrow_app with (mid := i); auto; try lia.
      destruct (rget _ j); simpl; auto.
    + intro k. rewrite rget_app, P2. unfold mget.
      destruct (Nat.lt_trichotomy k i) as [Hk|[->|Hk]]; ltb.
      * destruct (rget (nth k (data M) []) j); auto.
        destruct (rget _ j); simpl; ltb; auto.
      * destruct (rget _ j); simpl; ltb; auto.
      * destruct (rget _ j); simpl; ltb; auto.
  - exists c. split; auto. split; auto. intro i. rewrite P2. ltb; auto.
    unfold mget. rewrite nth_overflow; auto. destruct W; lia.
Qed.
