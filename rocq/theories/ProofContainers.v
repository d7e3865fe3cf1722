(** Lemmas behind the container properties. *)
From Coq Require Import Lia Permutation Sorted.
From Verif Require Import Base ModelLil ModelVec Spec ModelCalls SpecCalls
  ProofBase ProofRow ProofLil ProofVec ProofCalls.

Lemma Forall2_nth_l {X Y} (R : X -> Y -> Prop) l l' k x :
  Forall2 R l l' -> nth_error l k = Some x -> exists y, nth_error l' k = Some y /\ R x y.
Proof.
  intros F E. pose proof (Forall2_nth_error R l l' k F) as H. rewrite E in H.
  destruct (nth_error l' k); [eauto|contradiction].
Qed.

Lemma reach_wfm {T} (eqb : T -> T -> bool) cs k M :
  nth_error (fst (run (mstep eqb) [] cs)) k = Some M -> wfm M.
Proof.
  intro E. destruct (Forall2_nth_l _ _ _ _ _ (mrun_wf eqb cs [] [] (Forall2_nil _)) E)
    as (S & _ & H). apply H.
Qed.

Lemma wfm_count_has {T} (M : lil T) :
  wfm M -> nvals M = Z.of_nat (mcount (nrows M) (ncols M) (mhas M)).
Proof.
  intro W. pose proof W as [_ N]. rewrite N. f_equal. apply mcount_ext. intros i j Hi Hj.
  unfold mhas. rewrite hasElement_ok by auto. destruct (mget M i j); auto.
Qed.

Lemma tuples_In {T} (M : lil T) i j v :
  wfm M -> (In (i, j, v) (lil_extractTuples M) <-> mget M i j = Some v).
Proof.
  intro W. unfold lil_extractTuples. rewrite tuples_from_In, Nat.sub_0_r. unfold mget.
  rewrite (rget_In _ 0 (ncols M)) by (apply wfm_row; auto). intuition lia.
Qed.

Lemma wfm_no_outside {T} (M : lil T) i j v :
  wfm M -> In (i, j, v) (lil_extractTuples M) -> i < nrows M /\ j < ncols M.
Proof. intros W H. apply tuples_In in H; auto. eapply mget_some_bounds; eauto. Qed.

Lemma reach_wfv {T} (dflt : T) eqb cs k w :
  Forall vclean_call cs -> nth_error (fst (run (vstep dflt eqb) [] cs)) k = Some w -> wfv w.
Proof.
  intros P E. destruct (Forall2_nth_l _ _ _ _ _
    (vrun_wf dflt eqb true cs [] [] ltac:(eapply Forall_impl; [|apply P];
        intros c Hc; destruct c; auto) (Forall2_nil _)) E) as (S & _ & H). apply H.
Qed.

Lemma reach_wfv0 {T} (dflt : T) eqb cs k w :
  nth_error (fst (run (vstep dflt eqb) [] cs)) k = Some w -> wfv0 w.
Proof.
  intros E. destruct (Forall2_nth_l _ _ _ _ _
    (vrun_wf dflt eqb false cs [] [] ltac:(apply Forall_forall;
        intros c Hc; destruct c; simpl; auto) (Forall2_nil _)) E) as (S & _ & H). apply H.
Qed.

Lemma wfv_count_has {T} (w : bvec T) :
  wfv w -> vnvals w = Z.of_nat (vcount (vsize w) (vhas w)).
Proof.
  intros [W N]. rewrite N. f_equal. apply vcount_ext. intros i Hi.
  unfold vhas. rewrite vec_hasElement_ok by auto. ltb. destruct (vget w i); auto.
Qed.

(** Equality. *)
Lemma extract_eq_mget {T} (A B : lil T) i j :
  wfm A -> wfm B -> i < nrows A -> j < ncols A -> i < nrows B -> j < ncols B ->
  (lil_extractElement A i j = lil_extractElement B i j <-> mget A i j = mget B i j).
Proof.
  intros. rewrite !extractElement_ok by auto.
  destruct (mget A i j), (mget B i j); split; congruence.
Qed.

Lemma lil_eqb_extensional {T} eqb (A B : lil T) :
  (forall a b : T, eqb a b = true <-> a = b) -> wfm A -> wfm B ->
  (lil_eqb eqb A B = true <->
   nrows A = nrows B /\ ncols A = ncols B /\
   forall i j, i < nrows A -> j < ncols A -> lil_extractElement A i j = lil_extractElement B i j).
Proof.
  intros He WA WB. rewrite lil_eqb_spec by auto. split.
  - intros <-. auto.
  - intros (E1 & E2 & E3). apply lil_ext; auto. intros i j Hi Hj.
    rewrite <- extract_eq_mget; auto; congruence.
Qed.

Lemma extract_eq_vget {T} (u v : bvec T) i :
  wfv0 u -> wfv0 v -> i < vsize u -> i < vsize v ->
  (vec_extractElement u i = vec_extractElement v i <-> vget u i = vget v i).
Proof.
  intros. rewrite !vec_extractElement_ok by auto. ltb.
  destruct (vget u i), (vget v i); split; congruence.
Qed.

Lemma vec_eqb_extensional {T} eqb (u v : bvec T) :
  (forall a b : T, eqb a b = true <-> a = b) -> wfv u -> wfv v ->
  exists b, vec_eqb eqb u v = Ok b /\
  (b = true <-> vsize u = vsize v /\
   forall i, i < vsize u -> vec_extractElement u i = vec_extractElement v i).
Proof.
  intros He [Wu Nu] [Wv Nv]. destruct (vec_eqb_spec eqb u v He Wu Wv) as (b & -> & Hb).
  exists b. split; auto. rewrite Hb. split.
  - intros (E1 & E2 & E3). split; auto. intros i Hi. apply extract_eq_vget; auto. congruence.
  - intros (E1 & E2).
    assert (E3 : forall i, i < vsize u -> vget u i = vget v i).
    { intros i Hi. apply extract_eq_vget; auto. congruence. }
    split; [auto|]. split; [|auto]. rewrite Nu, Nv, <- E1. f_equal. apply vcount_ext.
    intros; rewrite E3; auto.
Qed.

(** Tuples. *)
Lemma stuples_sorted_from {T} (S : smat T) nc : forall n b,
  StronglySorted pos_lt
    (flat_map (fun i => flat_map (fun j =>
       match S i j with Some v => [(i, j, v)] | None => [] end) (seq 0 nc)) (seq b n)) /\
  Forall (fun t => b <= fst (fst t)) 
    (flat_map (fun i => flat_map (fun j =>
       match S i j with Some v => [(i, j, v)] | None => [] end) (seq 0 nc)) (seq b n)).
Proof.
  assert (App : forall (l1 l2 : list (nat * nat * T)),
    StronglySorted pos_lt l1 -> StronglySorted pos_lt l2 ->
    (forall a b, In a l1 -> In b l2 -> pos_lt a b) -> StronglySorted pos_lt (l1 ++ l2)).
  { intros l1 l2 S1 S2 H. induction S1 as [|a l1 S1 IH F]; simpl; auto. constructor.
    - apply IH. intros; apply H; simpl; auto.
    - apply Forall_app. split; auto. apply Forall_forall. intros; apply H; simpl; auto. }
  assert (Row : forall i m c,
    StronglySorted pos_lt (flat_map (fun j =>
       match S i j with Some v => [(i, j, v)] | None => [] end) (seq c m)) /\
    Forall (fun t => fst (fst t) = i /\ c <= snd (fst t)) (flat_map (fun j =>
       match S i j with Some v => [(i, j, v)] | None => [] end) (seq c m))).
  { intros i m; induction m as [|m IH]; intro c; simpl; [split; constructor|].
    destruct (IH (1 + c)) as [I1 I2]. split.
    - apply App; auto.
      + destruct (S i c); constructor; constructor.
      + intros a b Ha Hb. rewrite Forall_forall in I2. apply I2 in Hb.
        destruct (S i c); simpl in Ha; [|tauto]. destruct Ha as [<-|[]].
        destruct b as [[bi bj] bv]; simpl in *. right; lia.
    - apply Forall_app. split.
      + destruct (S i c); repeat constructor.
      + eapply Forall_impl; [|apply I2]. intros a [? ?]; split; auto. lia. }
  induction n as [|n IH]; intro b; simpl; [split; constructor|].
  destruct (IH (1 + b)) as [I1 I2]. destruct (Row b nc 0) as [R1 R2]. split.
  - apply App; auto. intros x y Hx Hy. rewrite Forall_forall in R2, I2.
    apply R2 in Hx. apply I2 in Hy. destruct x as [[? ?] ?], y as [[? ?] ?]; simpl in *. left; lia.
  - apply Forall_app. split; eapply Forall_impl; [|apply R2| |apply I2]; simpl; intros; lia.
Qed.

Lemma mrel_self {T} (M : lil T) : wfm M -> mrel M (SM (nrows M) (ncols M) (mget M)).
Proof. intro W. split; [auto|]. split; auto. Qed.

Lemma tuples_sorted {T} (M : lil T) : wfm M -> StronglySorted pos_lt (lil_extractTuples M).
Proof.
  intro W. rewrite (extractTuples_stuples M _ (mrel_self M W)). apply stuples_sorted_from.
Qed.

Lemma tuples_length {T} (M : lil T) : wfm M -> Z.of_nat (length (lil_extractTuples M)) = nvals M.
Proof.
  intro W. unfold lil_extractTuples. rewrite tuples_from_length. symmetry. apply wfm_tot; auto.
Qed.

Lemma filter_pos {T} (l : list (nat * nat * T)) i j :
  StronglySorted pos_lt l ->
  match filter (fun '(i', j', _) => (i' =? i) && (j' =? j)) l with
  | [] => forall v, ~ In (i, j, v) l
  | [(i', j', v)] => i' = i /\ j' = j /\ In (i, j, v) l
  | _ => False
  end.
Proof.
  intro H; induction H as [|[[a b] x] l S IH F]; simpl; [auto|].
  rewrite Forall_forall in F.
  destruct (Nat.eqb_spec a i), (Nat.eqb_spec b j); simpl.
  2-4: destruct (filter _ l) as [|[[a' b'] v'] [|]]; auto;
       [intros v [E|E]; [injection E; intros; congruence|eapply IH; eauto]|intuition].
  subst. destruct (filter _ l) as [|[[a' b'] v'] l'] eqn:Ef; auto.
  destruct l'; [|tauto]. destruct IH as (-> & -> & HI). apply F in HI. simpl in HI. lia.
Qed.

Lemma filter_perm {A} (f : A -> bool) l l' : Permutation l l' -> Permutation (filter f l) (filter f l').
Proof.
  induction 1; simpl; auto.
  - destruct (f x); auto.
  - destruct (f x), (f y); auto. constructor.
  - etransitivity; eauto.
Qed.

Lemma build_roundtrip {T} dup (M : lil T) ts :
  wfm M -> Permutation ts (lil_extractTuples M) ->
  lil_build dup (lil_new (nrows M) (ncols M)) ts = (M, Ok tt).
Proof.
  intros W P.
  destruct (build_ok dup ts (lil_new (nrows M) (ncols M))) as (M' & E & W' & R' & C' & G').
  - apply lil_new_wf.
  - apply Forall_forall. intros [[i j] v] Hin. simpl.
    apply (wfm_no_outside M i j v W). eapply Permutation_in; eauto.
  - rewrite E. f_equal. apply lil_ext; auto. intros i j Hi Hj.
    rewrite G', mget_new.
    pose proof (filter_perm (fun '(i', j', _) => (i' =? i) && (j' =? j)) _ _ P) as Q.
    pose proof (filter_pos _ i j (tuples_sorted M W)) as H.
    destruct (filter _ (lil_extractTuples M)) as [|[[a b] v] [|]]; [| |contradiction].
    + apply Permutation_sym, Permutation_nil in Q. rewrite Q. unfold osum; simpl.
      destruct (mget M i j) eqn:Em; auto. apply tuples_In in Em; auto. exfalso. eapply H; eauto.
    + apply Permutation_sym, Permutation_length_1_inv in Q. rewrite Q. unfold osum; simpl.
      destruct H as (-> & -> & HI). apply tuples_In in HI; auto.
Qed.

Lemma row_sorted {T} (r : row T) lo hi : wfrow lo hi r -> StronglySorted idx_lt r.
Proof.
  revert lo; induction r as [|[k v] r IH]; intros lo H; constructor.
  - destruct H. eapply IH; eauto.
  - destruct H as [H1 H2]. apply Forall_forall. intros [j x] Hj.
    apply (wfrow_In r (S k) hi j x H2) in Hj. unfold idx_lt; simpl; lia.
Qed.

Lemma row_NoDup {T} (r : row T) lo hi : wfrow lo hi r -> NoDup (map fst r).
Proof.
  revert lo; induction r as [|[k v] r IH]; intros lo H; simpl; constructor.
  - destruct H as [H1 H2]. intro Hin. apply in_map_iff in Hin. destruct Hin as ([j x] & E & Hj).
    apply (wfrow_In r (S k) hi j x H2) in Hj. simpl in E; lia.
  - destruct H. eapply IH; eauto.
Qed.

Lemma filter_idx {T} (r : row T) lo hi i :
  wfrow lo hi r ->
  filter (fun t => fst t =? i) r = match rget r i with Some v => [(i, v)] | None => [] end.
Proof.
  revert lo; induction r as [|[k v] r IH]; intros lo H; simpl; auto.
  destruct H as [H1 H2]. rewrite (IH _ H2). destruct (Nat.eqb_spec k i); auto.
  subst. rewrite (rget_lt r (S i) hi); auto.
Qed.

Lemma vec_roundtrip {T} (dflt : T) dup (w w0 : bvec T) c ts :
  wfv w -> vec_extractTuples w = Ok c -> Permutation ts c -> vsize w0 = vsize w ->
  StronglySorted idx_lt c /\ Z.of_nat (length c) = vnvals w /\
  (forall i v, In (i, v) c <-> vget w i = Some v) /\
  exists w', vec_build dflt dup w0 ts = Ok w' /\ wfv w' /\ vsize w' = vsize w /\
    vnvals w' = vnvals w /\ forall i, vget w' i = vget w i.
Proof.
  intros [W N] E P S0. unfold vec_extractTuples in E.
  destruct (getContents_ok w W) as (c' & E' & Wc & Gc). rewrite E in E'. injection E' as <-.
  assert (Lc : Z.of_nat (length c) = vnvals w).
  { rewrite N. f_equal. rewrite (wfrow_vcount (vsize w) c Wc). apply vcount_ext.
    intros; rewrite Gc; auto. }
  split; [eapply row_sorted; eauto|]. split; [auto|]. split.
  { intros i v. rewrite <- (rget_In c 0 (vsize w) i v Wc), Gc. tauto. }
  assert (F : Forall (fun t => fst t < vsize w0) ts).
  { apply Forall_forall. intros [i v] Hin. simpl.
    eapply Permutation_in in Hin; eauto. apply (wfrow_In _ _ _ _ _ Wc) in Hin. lia. }
  destruct (vec_build_ok dflt dup w0 ts F) as (w' & Eb & Wb & Sb & Nb & Gb).
  exists w'. split; [auto|].
  assert (WF : wfv w').
  { eapply vec_build_wf; eauto. eapply Permutation_NoDup; [|eapply row_NoDup; exact Wc].
    apply Permutation_map. symmetry; auto. }
  split; [auto|]. split; [congruence|]. split.
  { rewrite Nb. rewrite (Permutation_length P). auto. }
  intro i. rewrite Gb.
  pose proof (filter_perm (fun t => fst t =? i) _ _ P) as Q.
  rewrite (filter_idx c 0 (vsize w) i Wc), Gc in Q.
  destruct (vget w i).
  - apply Permutation_sym, Permutation_length_1_inv in Q. rewrite Q. reflexivity.
  - apply Permutation_sym, Permutation_nil in Q. rewrite Q. reflexivity.
Qed.

(** Resize there and back. *)
Lemma resize_back {T} (M : lil T) nr nc :
  wfm M -> nrows M <= nr -> ncols M <= nc ->
  lil_resize (lil_resize M nr nc) (nrows M) (ncols M) = M.
Proof.
  intros W Hr Hc. destruct (resize_ok M nr nc W) as (W1 & R1 & C1 & G1).
  destruct (resize_ok (lil_resize M nr nc) (nrows M) (ncols M) W1) as (W2 & R2 & C2 & G2).
  apply lil_ext; auto. intros i j Hi Hj. rewrite R2 in Hi. rewrite C2 in Hj.
  rewrite G2, G1. ltb; auto.
Qed.

Lemma vresize_back {T} (dflt : T) (w : bvec T) n :
  wfv w -> vsize w <= n ->
  let w' := vec_resize dflt (vec_resize dflt w n) (vsize w) in
  vsize w' = vsize w /\ vnvals w' = vnvals w /\ forall i, vget w' i = vget w i.
Proof.
  intros W H w'. destruct (vec_resize_ok dflt w n (proj1 W)) as (W1 & S1 & G1 & N1).
  destruct (vec_resize_ok dflt (vec_resize dflt w n) (vsize w) W1) as (W2 & S2 & G2 & N2).
  fold w' in W2, S2, G2, N2. specialize (N2 (N1 W)).
  assert (G : forall i, vget w' i = vget w i).
  { intro i. rewrite G2, G1. ltb; auto. symmetry. apply vget_oob; [apply W|auto]. }
  split; [auto|]. split; [|auto]. destruct N2 as [_ ->]. destruct W as [_ ->]. rewrite S2.
  f_equal. apply vcount_ext. intros; rewrite G; auto.
Qed.

(** Build. *)
Lemma vec_build_unchanged {T} (dflt : T) eqb st k dup is vs st' e :
  vstep dflt eqb st (VBuild k dup is vs) = (st', Throw e) -> st' = st.
Proof.
  simpl. unfold mon. destruct (nth_error st k) as [w|]; [|congruence].
  destruct (negb (length is =? length vs)); [congruence|].
  unfold put. destruct (vec_build dflt dup w (combine is vs)); congruence.
Qed.

(** Swap. *)
Lemma swap_loop {T} : forall n b (dm dr : list (row T)) nr nc x nr' nc' y,
  b + n <= length dm -> b + n <= length dr ->
  mfor (seq b n)
    (fun idx '(M', R') =>
       a <- getrow M' idx ;;
       b <- getrow R' idx ;;
       dm <- vset (data M') idx b ;;
       dr <- vset (data R') idx a ;;
       Ok (mkLil (nrows M') (ncols M') (nvals M') dm,
           mkLil (nrows R') (ncols R') (nvals R') dr))
    (mkLil nr nc x dm, mkLil nr' nc' y dr) =
  Ok (mkLil nr nc x (firstn b dm ++ firstn n (skipn b dr) ++ skipn (b + n) dm),
      mkLil nr' nc' y (firstn b dr ++ firstn n (skipn b dm) ++ skipn (b + n) dr)).
Proof.
  induction n as [|n IH]; intros b dm dr nr nc x nr' nc' y H1 H2.
  - simpl. rewrite !Nat.add_0_r. rewrite !firstn_skipn. reflexivity.
  - cbn [seq mfor]. unfold getrow. cbn [data nrows ncols nvals].
    rewrite (vat_ok dm b []), (vat_ok dr b []) by lia. cbn [bind].
    rewrite !vset_ok by lia. cbn [bind].
    rewrite IH by (rewrite upd_length; lia).
    f_equal.
    assert (U : forall (d d2 : list (row T)), b + S n <= length d -> b + S n <= length d2 ->
      firstn (S b) (upd d b (nth b d2 [])) ++ firstn n (skipn (S b) (upd d2 b (nth b d [])))
        ++ skipn (S b + n) (upd d b (nth b d2 [])) =
      firstn b d ++ firstn (S n) (skipn b d2) ++ skipn (b + S n) d).
    { clear. intro d. revert b. induction d as [|r d IHd]; intros b d2 L1 L2; [simpl in L1; lia|].
      destruct d2 as [|r2 d2]; [simpl in L2; lia|].
      destruct b as [|b].
      - simpl. reflexivity.
      - simpl in L1, L2 |- *. f_equal. apply IHd; lia. }
    rewrite !U by lia. reflexivity.
Qed.

Lemma swap_ok {T} (M R : lil T) :
  length (data M) = length (data R) ->
  lil_swap M R = Ok (mkLil (nrows M) (ncols M) (nvals R) (data R),
                     mkLil (nrows R) (ncols R) (nvals R) (data M)).
Proof.
  intro L. unfold lil_swap. destruct R as [r c v d]. rewrite swap_loop by (simpl in *; lia).
  simpl in *. rewrite L. rewrite firstn_all, skipn_all, <- L, firstn_all, skipn_all, !app_nil_r.
  reflexivity.
Qed.

Lemma swap_partial {T} (M R : lil T) :
  wfm M -> wfm R -> nrows M = nrows R -> ncols M = ncols R ->
  exists R', lil_swap M R = Ok (R, R') /\
    nrows R' = nrows M /\ ncols R' = ncols M /\ (forall i j, mget R' i j = mget M i j) /\
    (nvals M = nvals R -> R' = M).
Proof.
  intros WM WR Hr Hc. rewrite swap_ok by (rewrite !wfm_len; auto).
  eexists; split.
  - rewrite Hr, Hc. destruct R; reflexivity.
  - simpl. split; [auto|]. split; [auto|]. split; [auto|]. intros E.
    rewrite <- E, <- Hr, <- Hc. destruct M; reflexivity.
Qed.

Lemma osum_fold {T} (dup : T -> T -> T) l :
  osum dup (map (fun v => Some v) l) =
  match l with [] => None | v1 :: vs => Some (fold_left dup vs v1) end.
Proof.
  destruct l as [|v l]; auto. unfold osum; simpl. revert v; induction l; simpl; auto.
Qed.

Lemma build_fold {T} dup nr nc (ts : list (nat * nat * T)) :
  Forall (fun '(i, j, _) => i < nr /\ j < nc) ts ->
  exists M', lil_build dup (lil_new nr nc) ts = (M', Ok tt) /\ wfm M' /\
    nrows M' = nr /\ ncols M' = nc /\
    forall i j, mget M' i j =
      match map snd (filter (fun '(i', j', _) => (i' =? i) && (j' =? j)) ts) with
      | [] => None
      | v1 :: vs => Some (fold_left dup vs v1)
      end.
Proof.
  intro F. destruct (build_ok dup ts (lil_new nr nc) (lil_new_wf nr nc) F)
    as (M' & E & W & R & C & G).
  exists M'. split; [auto|]. split; [auto|]. split; [auto|]. split; [auto|]. intros i j.
  rewrite G, mget_new. rewrite <- osum_fold, map_map. unfold osum; simpl. reflexivity.
Qed.

Lemma vec_build_fold {T} (dflt : T) dup (w : bvec T) (ts : list (nat * T)) :
  Forall (fun t => fst t < vsize w) ts ->
  exists w', vec_build dflt dup w ts = Ok w' /\ wfv0 w' /\ vsize w' = vsize w /\
    forall i, vget w' i =
      match map snd (filter (fun t => fst t =? i) ts) with
      | [] => None
      | v1 :: vs => Some (fold_left dup vs v1)
      end.
Proof.
  intro F. destruct (vec_build_ok dflt dup w ts F) as (w' & E & W & S & N & G).
  exists w'. split; [auto|]. split; [auto|]. split; [auto|]. intro i.
  rewrite G, <- osum_fold, map_map. reflexivity.
Qed.

Lemma vec_build_atomic {T} (dflt : T) eqb st k w dup is vs i :
  nth_error st k = Some w -> length is = length vs -> In i is -> vsize w <= i ->
  vstep dflt eqb st (VBuild k dup is vs) = (st, Throw IndexOutOfBoundsException).
Proof.
  intros E L Hin Hi. simpl. unfold mon. rewrite E, L, Nat.eqb_refl. simpl.
  rewrite vec_build_throw; [reflexivity|].
  intro F. apply (Forall_combine_fst (fun i => i < vsize w)) in F; auto.
  rewrite Forall_forall in F. apply F in Hin. lia.
Qed.

Lemma dense_split {T} (keep : T -> bool) v0 (vs : list (list T)) :
  (Forall (fun r => length r = length v0) vs ->
   exists M, lil_dense keep (v0 :: vs) = Ok M /\ wfm M /\
     nrows M = S (length vs) /\ ncols M = length v0 /\
     forall i j, mget M i j =
       match nth_error (nth i (v0 :: vs) []) j with
       | Some v => if keep v then Some v else None
       | None => None
       end) /\
  (~ Forall (fun r => length r = length v0) vs ->
   lil_dense keep (v0 :: vs) = Throw DimensionException).
Proof.
  pose proof (lil_dense_rel keep (v0 :: vs)) as H. unfold sdense in H.
  destruct (forallb (fun r => length r =? length v0) (v0 :: vs)) eqn:F; split; intro HF.
  - destruct (lil_dense keep (v0 :: vs)) as [M| |]; try contradiction.
    destruct H as (W & R & C & G). exists M. auto.
  - exfalso. apply HF. apply Forall_forall. intros r Hr. rewrite forallb_forall in F.
    apply Nat.eqb_eq, F. right; auto.
  - exfalso. assert (E : forallb (fun r => length r =? length v0) (v0 :: vs) = true).
    { apply forallb_forall. rewrite Forall_forall in HF. intros r [<-|Hr].
      - apply Nat.eqb_refl.
      - apply Nat.eqb_eq; auto. }
    congruence.
  - destruct (lil_dense keep (v0 :: vs)); try contradiction. simpl in H. congruence.
Qed.
