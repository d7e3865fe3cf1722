(** Proofs about the convenience functions. *)
From Coq Require Import Lia Sorting.Permutation.
From Verif Require Import Base ModelLil ModelVec ModelHelpers ModelViews ModelMul ModelElem
  ModelUtils Spec SpecOps ProofBase ProofRow ProofLil ProofVec ProofCalls ProofContainers ProofViews
  ProofWrite ProofMul ProofElem ProofReduce ProofProduct.

Lemma wfv_wfvn {T} (w : bvec T) : wfv w -> wfvn w.
Proof.
  intros [W N]. split; [auto|]. intros E i. rewrite N in E.
  destruct (Nat.ltb_spec i (vsize w)).
  - destruct (vget w i) eqn:G; auto. exfalso.
    assert (In i (filter (fun i => is_some (vget w i)) (seq 0 (vsize w)))).
    { apply filter_In. rewrite G. split; [apply in_seq; lia|reflexivity]. }
    unfold vcount in E. destruct (filter _ _); [inversion H0|simpl in E; lia].
  - unfold vget. destruct W as [W1 W2].
    replace (nth_error (vbits w) i) with (@None bool); auto.
    symmetry; apply nth_error_None; lia.
Qed.

(** Building tuples at distinct positions. *)
Lemma build_distinct {T} (M : lil T) ts :
  wfm M -> Forall (fun '(i, j, _) => i < nrows M /\ j < ncols M) ts ->
  exists M', build_or_throw M ts = Ok M' /\ wfm M' /\ nrows M' = nrows M /\ ncols M' = ncols M /\
    forall i j, mget M' i j =
      osum (fun _ new => new) (mget M i j ::
        map (fun t => Some (snd t)) (filter (fun '(i', j', _) => (i' =? i) && (j' =? j)) ts)).
Proof.
  intros W F. destruct (build_ok (fun _ new : T => new) ts M W F) as (M' & E & H).
  exists M'. unfold build_or_throw. rewrite E. auto.
Qed.

Lemma filter_diag {S T} (c : S -> T) (ts : row S) i j :
  filter (fun '(i', j', _) => (i' =? i) && (j' =? j)) (map (fun '(k, x) => (k, k, c x)) ts) =
  if i =? j then map (fun '(k, x) => (k, k, c x)) (filter (fun t => fst t =? i) ts) else [].
Proof.
  induction ts as [|[k x] ts IH]; simpl; [destruct (i =? j); auto|]. rewrite IH.
  destruct (Nat.eqb_spec k i), (Nat.eqb_spec k j), (Nat.eqb_spec i j); subst; simpl; auto; lia.
Qed.

Lemma diag_rows_ok {S T} (c : S -> T) n (ts : row S) :
  wfrow 0 n ts ->
  exists D, build_or_throw (lil_new n n) (map (fun '(i, x) => (i, i, c x)) ts) = Ok D /\ wfm D /\
    nrows D = n /\ ncols D = n /\
    forall i j, mget D i j = if i =? j then option_map c (rget ts i) else None.
Proof.
  intro W.
  destruct (build_distinct (lil_new n n) (map (fun '(i, x) => (i, i, c x)) ts)
              (lil_new_wf n n)) as (D & E & WD & R & C & G).
  { apply Forall_forall. intros [[i j] x] Hin. apply in_map_iff in Hin.
    destruct Hin as ([k y] & Ek & Hk). injection Ek as <- <- <-.
    apply (wfrow_In _ _ _ _ _ W) in Hk. simpl. lia. }
  exists D. do 4 (split; [assumption|]). intros i j. rewrite G, mget_new, filter_diag.
  destruct (i =? j); [|reflexivity]. rewrite (filter_idx ts 0 n i W).
  destruct (rget ts i); reflexivity.
Qed.

Theorem diag_ok {S T} (c : S -> T) (v : bvec S) :
  wfv0 v ->
  exists D, diag c v = Ok D /\ wfm D /\ nrows D = vsize v /\ ncols D = vsize v /\
    forall i j, mget D i j = if i =? j then option_map c (vget v i) else None.
Proof.
  intro W. unfold diag, vec_extractTuples.
  destruct (getContents_ok v W) as (ts & -> & Wt & Gt). cbn [bind].
  destruct (diag_rows_ok c (vsize v) ts Wt) as (D & E & WD & R & C & G).
  exists D. do 4 (split; [assumption|]). intros i j. rewrite G, Gt. reflexivity.
Qed.

Theorem scaled_identity_ok {T} n (x : T) :
  exists D, scaled_identity n x = Ok D /\ wfm D /\ nrows D = n /\ ncols D = n /\
    forall i j, mget D i j = if (i =? j) && (i <? n) then Some x else None.
Proof.
  assert (H : forall m lo, wfrow lo (lo + m) (map (fun i => (i, x)) (seq lo m))).
  { induction m; intro lo; simpl; auto. split; [lia|].
    replace (lo + S m) with (S lo + m) by lia. auto. }
  destruct (diag_rows_ok (fun v : T => v) n (map (fun i => (i, x)) (seq 0 n)) (H n 0))
    as (D & E & WD & R & C & G).
  exists D. split.
  { unfold scaled_identity. rewrite <- E, map_map. reflexivity. }
  do 3 (split; [assumption|]). intros i j. rewrite G.
  destruct (i =? j); simpl; [|reflexivity].
  replace (rget (map (fun i0 => (i0, x)) (seq 0 n)) i) with (if i <? n then Some x else None).
  - destruct (i <? n); reflexivity.
  - clear. assert (K : forall m lo, rget (map (fun i0 => (i0, x)) (seq lo m)) i =
                               if (lo <=? i) && (i <? lo + m) then Some x else None).
    { induction m; intro lo; simpl.
      - destruct (Nat.leb_spec lo i), (Nat.ltb_spec i (lo + 0)); simpl; auto; lia.
      - rewrite IHm. destruct (Nat.eqb_spec lo i); subst.
        + destruct (Nat.leb_spec i i), (Nat.ltb_spec i (i + S m)); simpl; auto; lia.
        + destruct (Nat.leb_spec (S lo) i), (Nat.leb_spec lo i), (Nat.ltb_spec i (S lo + m)),
            (Nat.ltb_spec i (lo + S m)); simpl; auto; lia. }
    rewrite K. reflexivity.
Qed.

Lemma split_tuples_spec {T} (ts : list (nat * nat * T)) :
  split_tuples ts = (filter (fun '(i, j, _) => negb (i <? j)) ts,
                     filter (fun '(i, j, _) => i <? j) ts).
Proof.
  unfold split_tuples.
  assert (H : forall ts l u,
    fold_left (fun '(l, u) '(i, j, v) =>
               if i <? j then (l, u ++ [(i, j, v)]) else (l ++ [(i, j, v)], u)) ts (l, u) =
    (l ++ filter (fun '(i, j, _) => negb (i <? j)) ts,
     u ++ filter (fun '(i, j, _) => i <? j) ts : list (nat * nat * T))).
  { clear. induction ts as [|[[i j] v] ts IH]; intros l u; simpl.
    - rewrite !app_nil_r. reflexivity.
    - destruct (i <? j); simpl; rewrite IH, <- app_assoc; reflexivity. }
  rewrite H. reflexivity.
Qed.

Lemma filter_filter {A} (f g : A -> bool) l :
  filter f (filter g l) = filter (fun x => f x && g x) l.
Proof.
  induction l; simpl; auto. destruct (g a); simpl; rewrite IHl; destruct (f a); simpl; auto.
Qed.

Lemma build_part {T} (M A : lil T) (p : nat -> nat -> bool) :
  wfm M -> wfm A -> nrows M = nrows A -> ncols M = ncols A ->
  exists M', build_or_throw M (filter (fun '(i, j, _) => p i j) (lil_extractTuples A)) = Ok M' /\
    wfm M' /\ nrows M' = nrows A /\ ncols M' = ncols A /\
    forall i j, mget M' i j =
      match mget A i j with Some v => if p i j then Some v else mget M i j | None => mget M i j end.
Proof.
  intros WM WA R C.
  destruct (build_distinct M (filter (fun '(i, j, _) => p i j) (lil_extractTuples A)) WM)
    as (M' & E & W' & R' & C' & G').
  { apply Forall_forall. intros [[i j] v] Hin. apply filter_In in Hin. destruct Hin as [Hin _].
    rewrite R, C. apply (wfm_no_outside A i j v WA Hin). }
  exists M'. split; [assumption|]. split; [assumption|]. split; [congruence|].
  split; [congruence|]. intros i j. rewrite G', filter_filter.
  rewrite (filter_ext
    (fun x : nat * nat * T => (let '(i', j', _) := x in (i' =? i) && (j' =? j)) &&
                              (let '(i0, j0, _) := x in p i0 j0))
    (fun x => (fun _ => p i j) x && (let '(i', j', _) := x in (i' =? i) && (j' =? j)))).
  2: { intros [[a b] v]. destruct (Nat.eqb_spec a i), (Nat.eqb_spec b j); subst; simpl;
         destruct (p i j); auto; destruct (p a b); auto. }
  rewrite <- filter_filter.
  pose proof (filter_pos _ i j (tuples_sorted A WA)) as H.
  destruct (filter (fun '(i', j', _) => (i' =? i) && (j' =? j)) (lil_extractTuples A))
    as [|[[a b] v] [|]] eqn:Ef; [| |contradiction].
  - simpl. destruct (mget A i j) eqn:Em; [|destruct (mget M i j); reflexivity].
    apply tuples_In in Em; auto. exfalso. eapply H; eauto.
  - destruct H as (-> & -> & HI). apply tuples_In in HI; auto. rewrite HI. simpl.
    destruct (p i j); simpl; destruct (mget M i j); reflexivity.
Qed.

Theorem split_ok {T} (A L U : lil T) :
  wfm A -> wfm L -> wfm U ->
  nrows L = nrows A -> ncols L = ncols A -> nrows U = nrows A -> ncols U = ncols A ->
  exists L' U', split A L U = Ok (L', U') /\ wfm L' /\ wfm U' /\
    nrows L' = nrows A /\ ncols L' = ncols A /\ nrows U' = nrows A /\ ncols U' = ncols A /\
    forall i j,
      mget L' i j = (if j <=? i then oadd (fun _ new => new) (mget L i j) (mget A i j)
                     else mget L i j) /\
      mget U' i j = (if i <? j then oadd (fun _ new => new) (mget U i j) (mget A i j)
                     else mget U i j).
Proof.
  intros WA WL WU RL CL RU CU. unfold split. rewrite split_tuples_spec.
  destruct (build_part L A (fun i j => negb (i <? j)) WL WA RL CL) as (L' & -> & W1 & R1 & C1 & G1).
  destruct (build_part U A (fun i j => i <? j) WU WA RU CU) as (U' & -> & W2 & R2 & C2 & G2).
  cbn [bind]. exists L', U'. do 7 (split; [auto|]). intros i j. rewrite G1, G2.
  replace (j <=? i) with (negb (i <? j)).
  2: { destruct (Nat.ltb_spec i j), (Nat.leb_spec j i); simpl; auto; lia. }
  split; destruct (mget A i j), (i <? j), (mget L i j), (mget U i j); reflexivity.
Qed.

(** ** Normalisation *)
Section Normalize.
Context {T : Type} (dflt : T) (add mult : T -> T -> T) (inv : T -> T).

Lemma ofold_id l : ofold (fun v : T => v) add l = osum add l.
Proof.
  unfold ofold, osum. generalize (@None T). induction l as [|x l IH]; intro o; simpl; auto.
  rewrite <- IH. f_equal. destruct o, x; reflexivity.
Qed.

Lemma inverse_sums_ok n (A : mview T) :
  wfview A -> n <> 0 -> n = vrows A ->
  exists D, inverse_sums dflt add inv n A = Ok D /\ wfm D /\ nrows D = n /\ ncols D = n /\
    forall i j, i < n -> mget D i j =
      if i =? j then option_map inv (osum add (map (sview A i) (seq 0 (vcols A)))) else None.
Proof.
  intros WA N0 En. unfold inverse_sums.
  destruct (vec_new_ok dflt n N0) as (w0 & -> & W0 & S0 & G0). cbn [bind].
  destruct (reduce_ok (fun v : T => v) add add (fun b : bool => b) (fun v : T => v)
              (NoAcc (fun v => v)) (@NoMask (bvec bool)) MERGE w0 A) as (w1 & -> & W1 & S1 & G1).
  { reflexivity. } { apply W0. } { assumption. } { exact Logic.I. }
  { split; [exact Logic.I|congruence]. }
  cbn [bind].
  destruct (apply_v_ok inv (fun b : bool => b) (fun v : T => v) (NoAcc (fun v => v))
              (@NoMask (bvec bool)) MERGE w1 w1) as (w2 & -> & W2 & S2 & G2).
  { apply W1. } { apply wfv_wfvn, W1. } { exact Logic.I. } { split; [exact Logic.I|reflexivity]. }
  cbn [bind]. unfold vec_extractTuples.
  destruct (getContents_ok w2 (proj1 W2)) as (ts & -> & Wt & Gt). cbn [bind].
  destruct (diag_rows_ok (fun v : T => v) (vsize w2) ts Wt) as (D & E & WD & R & C & G).
  exists D. split; [exact E|]. split; [assumption|]. split; [congruence|]. split; [congruence|].
  intros i j Hi. rewrite G, Gt. destruct (i =? j); [|reflexivity].
  rewrite G2 by congruence. simpl. rewrite !option_map_id'. rewrite G1 by congruence. simpl.
  rewrite !option_map_id', ofold_id. reflexivity.
Qed.

(** A sum with one possibly present term. *)
Lemma osum_single {X} (op : X -> X -> X) (f : nat -> option X) n i :
  i < n -> (forall k, k <> i -> f k = None) -> osum op (map f (seq 0 n)) = f i.
Proof.
  intros Hi Hk. replace n with (i + S (n - i - 1)) by lia.
  rewrite seq_app, map_app. unfold osum. rewrite fold_left_app. simpl.
  assert (H : forall l o, (forall k, In k l -> k <> i) ->
            fold_left (oadd op) (map f l) o = o).
  { induction l; intros o Hl; simpl; auto. rewrite Hk by (apply Hl; left; auto).
    destruct o; simpl; apply IHl; intros; apply Hl; right; auto. }
  rewrite (H (seq 0 i)) by (intros k Hin; apply in_seq in Hin; lia). simpl.
  apply H. intros k Hin; apply in_seq in Hin; lia.
Qed.

Theorem normalize_rows_ok (A : lil T) :
  wfm A -> nrows A <> 0 ->
  exists B, normalize_rows dflt add mult inv A = Ok B /\ wfm B /\
    nrows B = nrows A /\ ncols B = ncols A /\
    forall i j, i < nrows A -> j < ncols A ->
      mget B i j = omap2 (fun s v => mult (inv s) v)
        (osum add (map (mget A i) (seq 0 (ncols A)))) (mget A i j).
Proof.
  intros WA N0. unfold normalize_rows.
  destruct (inverse_sums_ok (nrows A) (Mat A) WA N0 eq_refl) as (D & -> & WD & RD & CD & GD).
  cbn [bind].
  destruct (mxm_plain add mult (fun b : bool => b) MERGE A (Mat D) (Mat A))
    as (P & E & WP & RP & CP & GP); auto.
  exists P. split; [exact E|]. do 3 (split; [assumption|]). intros i j Hi Hj.
  rewrite GP by auto. unfold smul. simpl.
  rewrite (osum_single add (fun k => omap2 mult (mget D i k) (mget A k j)) (ncols D) i).
  - rewrite GD, Nat.eqb_refl by auto. cbn [sview vcols].
    destruct (osum _ _), (mget A i j); reflexivity.
  - congruence.
  - intros k Hk. rewrite GD by auto. destruct (Nat.eqb_spec i k); [congruence|reflexivity].
Qed.

Theorem normalize_cols_ok (A : lil T) :
  wfm A -> nrows A <> 0 -> nrows A = ncols A ->
  exists B, normalize_cols dflt add mult inv A = Ok B /\ wfm B /\
    nrows B = nrows A /\ ncols B = ncols A /\
    forall i j, i < nrows A -> j < ncols A ->
      mget B i j = omap2 (fun s v => mult v (inv s))
        (osum add (map (fun k => mget A k j) (seq 0 (nrows A)))) (mget A i j).
Proof.
  intros WA N0 Sq. unfold normalize_cols.
  destruct (inverse_sums_ok (nrows A) (Trn A) WA N0 Sq) as (D & -> & WD & RD & CD & GD).
  cbn [bind].
  destruct (mxm_plain add mult (fun b : bool => b) MERGE A (Mat A) (Mat D))
    as (P & E & WP & RP & CP & GP); auto.
  { simpl; congruence. } { simpl; congruence. }
  exists P. split; [exact E|]. do 3 (split; [assumption|]). intros i j Hi Hj.
  rewrite GP by auto. unfold smul. simpl.
  rewrite (osum_single add (fun k => omap2 mult (mget A i k) (mget D k j)) (ncols A) j).
  - rewrite GD, Nat.eqb_refl by congruence. cbn [sview vcols]. unfold stran.
    destruct (osum _ _), (mget A i j); reflexivity.
  - auto.
  - intros k Hk. destruct (Nat.ltb_spec k (nrows A)) as [H|H].
    + rewrite GD by auto. destruct (Nat.eqb_spec k j); [congruence|].
      destruct (mget A i k); reflexivity.
    + replace (mget A i k) with (@None T); auto. symmetry. apply mget_oob; auto. right. lia.
Qed.

Theorem normalize_cols_nonsquare (A : lil T) :
  nrows A <> 0 -> nrows A <> ncols A ->
  normalize_cols dflt add mult inv A = Throw DimensionException.
Proof.
  intros N0 Sq. unfold normalize_cols, inverse_sums.
  destruct (vec_new_ok dflt (nrows A) N0) as (w0 & -> & W0 & S0 & G0). cbn [bind].
  rewrite (reduce_throws (fun v : T => v) add add (fun b : bool => b) (fun v : T => v)
              (NoAcc (fun v => v)) (@NoMask (bvec bool)) MERGE w0 (Trn A)); [reflexivity|].
  intros [_ H]. simpl in H. congruence.
Qed.

(** In exact arithmetic the rows of the result add up to one. *)
Lemma osum_scale (f : T -> T) (l : list (option T)) :
  (forall x y, f (add x y) = add (f x) (f y)) ->
  osum add (map (option_map f) l) = option_map f (osum add l).
Proof.
  intro D. unfold osum. change (@None T) with (option_map f None) at 1. generalize (@None T).
  induction l as [|x l IH]; intro o; simpl; auto. rewrite <- IH. f_equal.
  destruct o, x; simpl; rewrite ?D; reflexivity.
Qed.
End Normalize.

Theorem normalize_rows_sum {T} (dflt : T) add mult inv one (A B : lil T) i s :
  (forall x y z, mult x (add y z) = add (mult x y) (mult x z)) ->
  wfm A -> normalize_rows dflt add mult inv A = Ok B -> i < nrows A ->
  osum add (map (mget A i) (seq 0 (ncols A))) = Some s -> mult (inv s) s = one ->
  osum add (map (mget B i) (seq 0 (ncols A))) = Some one.
Proof.
  intros D WA E Hi Hs Ho.
  destruct (normalize_rows_ok dflt add mult inv A WA) as (B' & E' & _ & _ & _ & G); [lia|].
  rewrite E in E'. injection E' as <-.
  rewrite (map_ext_in _ (fun j => option_map (mult (inv s)) (mget A i j))).
  - rewrite <- map_map, osum_scale by auto. rewrite Hs. simpl. congruence.
  - intros j Hj. apply in_seq in Hj. rewrite G by lia. rewrite Hs.
    destruct (mget A i j); reflexivity.
Qed.
