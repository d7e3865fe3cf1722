(** The demonstration programs. *)
From Coq Require Import Lia Permutation Sorted.
From Verif Require Import Base ModelLil ModelVec ModelHelpers ModelViews ModelMul ModelElem ModelIndex ModelUtils ModelAlgoBase ModelTriangle ModelTruss ModelDemo
  Spec SpecOps SpecGraph SpecTriangle SpecFlow SpecTruss SpecRelabel SpecDemo
  ProofBase ProofRow ProofLil ProofVec ProofContainers
  ProofViews ProofMul ProofElem ProofReduce ProofIndex ProofAssign ProofAssignRC ProofUtils ProofGraph ProofBfs ProofMis ProofTriangle ProofTruss ProofKtruss ProofRelabel PropContainers PropTruss.
Local Open Scope nat_scope.

(** ** Reading a file *)
Lemma read_some {A} (body : A -> A) lines v :
  read_loop body (Some v) lines = Ok (map body lines ++ [body (last (map body lines) v)]).
Proof.
  revert v. induction lines as [|x r IH]; intros v; [reflexivity|]. cbn [read_loop map].
  rewrite IH. cbn [bind app]. do 2 f_equal. f_equal. f_equal. f_equal.
  destruct (map body r) as [|y l]; [reflexivity|].
  change (last (body x :: y :: l) v) with (last (y :: l) v).
  clear. revert y. induction l as [|z l IH]; intros y; [reflexivity|]. apply (IH z).
Qed.
Lemma last_in {A} (l : list A) v : In (last l v) (v :: l).
Proof.
  induction l as [|x l IH]; simpl; auto. destruct l; auto. simpl in *. destruct IH; auto.
Qed.
Lemma read_idc {A} (lines : list A) : lines <> [] ->
  exists ps, read_loop idc None lines = Ok ps /\ forall x, In x ps <-> In x lines.
Proof.
  destruct lines as [|x r]; [congruence|]. intros _. cbn [read_loop]. rewrite read_some. cbn [bind].
  eexists. split; [reflexivity|]. intros y. unfold idc. rewrite map_id.
  pose proof (last_in r x) as L. split.
  - intros [<-|H]; [left; auto|]. apply in_app_iff in H. destruct H as [H|[<-|[]]]; [right; auto|exact L].
  - intros [<-|H]; [left; auto|]. right. apply in_app_iff. auto.
Qed.

(** ** Building a matrix of ones *)
Lemma build_ones {A} (n m : nat) (f g : A -> nat) (ts : list A) :
  (forall t, In t ts -> f t < n /\ g t < m) ->
  exists M, build_or_throw (lil_new n m) (map (fun t => (f t, g t, 1%Z)) ts) = Ok M /\
    wfm M /\ nrows M = n /\ ncols M = m /\
    forall i j, mget M i j = if existsb (fun t => (f t =? i) && (g t =? j)) ts then Some 1%Z else None.
Proof.
  intros H. destruct (C08_matrix_build_dup_fold Z (fun _ x => x) n m (map (fun t => (f t, g t, 1%Z)) ts)) as (M & E & W & R & C & G).
  { apply Forall_forall. intros [[i j] x] Hx. apply in_map_iff in Hx. destruct Hx as (t & Et & Ht). injection Et as <- <- _.
    apply H; auto. }
  exists M. unfold build_or_throw. rewrite E. split; [reflexivity|]. do 3 (split; [assumption|]).
  intros i j. rewrite G. clear -H. clear H. induction ts as [|t ts IH]; [reflexivity|]. cbn [map filter existsb].
  destruct ((f t =? i) && (g t =? j))%bool; [|exact IH]. cbn [orb map snd].
  f_equal. clear IH. assert (F : forall l a, fold_left (fun _ x : Z => x) (map snd (filter (fun '(i', j', _) => (i' =? i) && (j' =? j)) (map (fun t => (f t, g t, 1%Z)) l))) a = a \/ fold_left (fun _ x : Z => x) (map snd (filter (fun '(i', j', _) => (i' =? i) && (j' =? j)) (map (fun t => (f t, g t, 1%Z)) l))) a = 1%Z).
  { induction l as [|u l IH]; intros a; [auto|]. cbn [map filter].
    destruct ((f u =? i) && (g u =? j))%bool; [|apply IH]. cbn [map fold_left snd]. destruct (IH 1%Z) as [->| ->]; auto. }
  destruct (F ts 1%Z); auto.
Qed.

(** ** A permutation given as a list *)
Fixpoint pos (v : nat) (l : list nat) : nat :=
  match l with
  | [] => 0
  | x :: l => if x =? v then 0 else S (pos v l)
  end.
Lemma pos_in v l : In v l -> pos v l < length l /\ nth (pos v l) l 0 = v.
Proof.
  induction l as [|x l IH]; [intros []|]. intros H. simpl. destruct (Nat.eqb_spec x v) as [->|D]; [simpl; split; auto; lia|].
  destruct H as [->|H]; [congruence|]. destruct (IH H). split; [lia|auto].
Qed.
Lemma pos_nth u l : NoDup l -> u < length l -> pos (nth u l 0) l = u.
Proof.
  intros N Hu. destruct (pos_in (nth u l 0) l) as (A & B); [apply nth_In; auto|].
  apply (proj1 (NoDup_nth l 0) N); auto.
Qed.
Lemma perm_list_renumbering n l :
  Permutation l (seq 0 n) -> renumbering n (fun u => nth u l 0) (fun v => pos v l).
Proof.
  intros P. assert (N : NoDup l) by (eapply Permutation_NoDup; [apply Permutation_sym; exact P|apply seq_NoDup]).
  assert (Len : length l = n) by (rewrite (Permutation_length P); apply seq_length).
  assert (I : forall u, In u l <-> u < n).
  { intros u. split; intros H.
    - apply (Permutation_in _ P) in H. apply in_seq in H. lia.
    - apply (Permutation_in _ (Permutation_sym P)). apply in_seq. lia. }
  split; intros u Hu.
  - split; [apply I, nth_In; lia|]. apply pos_nth; auto. lia.
  - destruct (pos_in u l) as (A & B); [now apply I|]. rewrite Len in A. auto.
Qed.

(** ** The counts as sums *)
Lemma sumn_perm N p q (f g : nat -> Z) :
  renumbering N p q -> (forall u, u < N -> g (p u) = f u) -> sumn g N = sumn f N.
Proof. intros R E. exact (zsum_perm N p q R f g E). Qed.
Lemma sum3_perm N p q F F' :
  renumbering N p q ->
  (forall i j k, i < N -> j < N -> k < N -> F' (p i) (p j) (p k) = F i j k) -> sum3 N F' = sum3 N F.
Proof.
  intros R E. unfold sum3. apply (sumn_perm N p q); auto. intros i Hi. apply (sumn_perm N p q); auto. intros j Hj.
  apply (sumn_perm N p q); auto.
Qed.

Section Counts.
Context (N : nat) (L U : lil Z).
Hypothesis WL : wfm L.
Hypothesis RL : nrows L = N.
Hypothesis CL : ncols L = N.
Hypothesis WU : wfm U.
Hypothesis RU : nrows U = N.
Hypothesis CU : ncols U = N.
Definition mk (M : lil Z) i j : Z := Z.b2z (mask_allows ztrue (MVal M) i j).
Lemma masked_LU_sum :
  triangle_count_masked_LU L U = Ok (sum3 N (fun i j k => (mk L i j * (ov (mget L i k) * ov (mget U k j)))%Z)).
Proof.
  unfold triangle_count_masked_LU. rewrite RL, CL.
  destruct (product_ok N L ztrue (MVal L) (Mat L) (Mat U)) as (B & -> & WB & RB & CB & HB); simpl; auto; try congruence.
  cbn [bind]. rewrite sum_all_ok by auto. rewrite RB, CB. f_equal. apply square_ov.
  intros i j Hi Hj. rewrite HB by auto. apply sumn_scale.
Qed.
Lemma masked_sum :
  triangle_count_masked L = Ok (sum3 N (fun i j k => (mk L i j * (ov (mget L i k) * ov (mget L j k)))%Z)).
Proof.
  unfold triangle_count_masked. rewrite RL, CL.
  destruct (product_ok N L ztrue (MVal L) (Mat L) (Trn L)) as (B & -> & WB & RB & CB & HB); simpl; auto; try congruence.
  cbn [bind]. rewrite sum_all_ok by auto. rewrite RB, CB. f_equal. apply square_ov.
  intros i j Hi Hj. rewrite HB by auto. apply sumn_scale.
Qed.
Lemma noT_sum :
  triangle_count_masked_noT L = Ok (sum3 N (fun i j k => (mk L i j * (ov (mget L i k) * ov (mget L k j)))%Z)).
Proof.
  unfold triangle_count_masked_noT. rewrite RL, CL.
  destruct (product_ok N L ztrue (MVal L) (Mat L) (Mat L)) as (B & -> & WB & RB & CB & HB); simpl; auto; try congruence.
  cbn [bind]. rewrite sum_all_ok by auto. rewrite RB, CB. f_equal. apply square_ov.
  intros i j Hi Hj. rewrite HB by auto. apply sumn_scale.
Qed.
Lemma newGBTL_sum :
  triangle_count_newGBTL (Mat L) U =
  Ok (Z.quot (sum3 N (fun i j k => (ov (mget L i j) * (ov (mget L i k) * ov (mget U k j)))%Z) +
              sum3 N (fun i j k => (ov (mget U i j) * (ov (mget L i k) * ov (mget U k j)))%Z)) 2).
Proof.
  unfold triangle_count_newGBTL. simpl vrows. simpl vcols. rewrite RL, CL.
  destruct (product_ok N L btrue mnomask (Mat L) (Mat U)) as (B & -> & WB & RB & CB & HB); simpl; auto; try congruence.
  cbn [bind].
  destruct (eWiseMult_ok Z.mul Z.mul idc btrue idc (NoAcc idc) mnomask REPLACE (lil_new N N)
              (Mat L) (Mat B)) as (D & -> & WD & RD & CD & HD); auto using lil_new_wf.
  { exact Logic.I. } { split; [exact Logic.I|]. simpl. repeat split; congruence. }
  cbn [bind]. rewrite sum_all_ok by auto. cbn [bind].
  destruct (eWiseMult_ok Z.mul Z.mul idc btrue idc (NoAcc idc) mnomask REPLACE D
              (Mat U) (Mat B)) as (D2 & -> & WD2 & RD2 & CD2 & HD2); auto.
  { exact Logic.I. } { split; [exact Logic.I|]. simpl in *. repeat split; congruence. }
  cbn [bind]. rewrite reduce_ms_rows by auto. cbn [bind].
  rewrite rows_sum_total; [|reflexivity|intros; lia|reflexivity].
  rewrite ov_total. rewrite RD2, CD2, RD, CD. simpl nrows. simpl ncols. cbv beta iota. f_equal. unfold idc at 1.
  f_equal. f_equal.
  - apply square_ov. intros i j Hi Hj. rewrite HD by auto. simpl. unfold idc. rewrite !option_map_id'.
    rewrite ov_mul, HB by auto. simpl Z.b2z. rewrite Z.mul_1_l, sumn_scale. reflexivity.
  - apply square_ov. intros i j Hi Hj. rewrite HD2 by (simpl in *; congruence). simpl. unfold idc. rewrite !option_map_id'.
    rewrite ov_mul, HB by auto. simpl Z.b2z. rewrite Z.mul_1_l, sumn_scale. reflexivity.
Qed.
End Counts.

(** Renumbering the vertices of the two parts does not change the counts. *)
Lemma counts_renumbered N p q (L L' U U' : lil Z) :
  renumbered N p q L L' -> renumbered N p q U U' ->
  triangle_count_masked_LU L' U' = triangle_count_masked_LU L U /\
  triangle_count_masked L' = triangle_count_masked L /\
  triangle_count_masked_noT L' = triangle_count_masked_noT L /\
  triangle_count_newGBTL (Mat L') U' = triangle_count_newGBTL (Mat L) U.
Proof.
  intros (R & WL & RL & CL & WL' & RL' & CL' & EL) (_ & WU & RU & CU & WU' & RU' & CU' & EU).
  rewrite (masked_LU_sum N L' U'), (masked_LU_sum N L U), (masked_sum N L'), (masked_sum N L),
    (noT_sum N L'), (noT_sum N L), (newGBTL_sum N L' U'), (newGBTL_sum N L U) by auto.
  assert (M : forall i j, i < N -> j < N -> mk L' (p i) (p j) = mk L i j).
  { intros i j Hi Hj. unfold mk. cbn [mask_allows]. rewrite EL by auto. reflexivity. }
  assert (S3 : forall F F', (forall i j k, i < N -> j < N -> k < N -> F' (p i) (p j) (p k) = F i j k) -> sum3 N F' = sum3 N F)
    by (intros; apply (sum3_perm N p q); auto).
  split; [|split; [|split]]; f_equal; [| | |f_equal; f_equal]; apply S3; intros i j k Hi Hj Hk;
    rewrite ?M, ?EL, ?EU by auto; reflexivity.
Qed.

(** ** triangle_count_demo *)
Lemma max_id_ge ps u v : In (u, v) ps -> u <= max_id ps /\ v <= max_id ps.
Proof.
  unfold max_id. generalize 0.
  assert (M : forall l m, m <= fold_left (fun m '(src, dst) => Nat.max (Nat.max m src) dst) l m).
  { induction l as [|[a b] l IH]; intros m; simpl; auto. specialize (IH (Nat.max (Nat.max m a) b)). lia. }
  induction ps as [|[a b] ps IH]; intros m; [intros []|]. intros [E|H]; simpl.
  - injection E as -> ->. specialize (M ps (Nat.max (Nat.max m u) v)). lia.
  - apply IH; auto.
Qed.
Lemma degrees_perm sort n ps :
  (forall l, Permutation (sort l) l) -> Permutation (map snd (sort (degrees n ps))) (seq 0 n).
Proof.
  intros H. rewrite (Permutation_map snd (H (degrees n ps))). unfold degrees. rewrite map_map. simpl.
  rewrite map_id. reflexivity.
Qed.

Lemma triangles_wide N N' e :
  (forall u v, e u v = true -> u < N /\ v < N /\ u < N' /\ v < N') -> triangles N e = triangles N' e.
Proof.
  intros I. change (length (tri_list N e) = length (tri_list N' e)).
  assert (ND : forall n, NoDup (tri_list n e))
    by (intros; apply NoDup_filter, NoDup_prod; [apply NoDup_prod|]; apply seq_NoDup).
  apply Nat.le_antisymm; apply NoDup_incl_length; auto; intros [[i j] k] H; apply in_tri in H; apply in_tri;
    destruct H as (A & B & C & D & E & F); destruct (I _ _ F); repeat split; auto; lia.
Qed.

Lemma file_edge_in lines u v : file_edge lines u v = true <-> u <> v /\ In (u, v) lines.
Proof.
  unfold file_edge. rewrite Bool.andb_true_iff, Bool.negb_true_iff, Nat.eqb_neq, existsb_exists. split.
  - intros (D & [a b] & H & E). apply Bool.andb_true_iff in E. rewrite !Nat.eqb_eq in E. destruct E as (-> & ->). auto.
  - intros (D & H). split; auto. exists (u, v). rewrite !Nat.eqb_refl. auto.
Qed.

Section Demo.
Context (ps : list (nat * nat)) (n : nat) (label : nat -> nat) (back : nat -> nat).
Hypothesis Hn : forall u v, In (u, v) ps -> u < n /\ v < n.
Hypothesis R : renumbering n label back.
Definition demo_matrix (f : nat -> nat) (keep : nat * nat -> bool) : res (lil Z) :=
  build_or_throw (lil_new n n) (map (fun '(i, j) => (f i, f j, 1%Z)) (filter keep ps)).
Lemma demo_matrix_ok f keep : (forall u, u < n -> f u < n) ->
  exists M, demo_matrix f keep = Ok M /\ wfm M /\ nrows M = n /\ ncols M = n /\
    forall i j, mget M i j = if existsb (fun '(a, b) => (f a =? i) && (f b =? j)) (filter keep ps) then Some 1%Z else None.
Proof.
  intros F. destruct (build_ones n n (fun t : nat * nat => f (fst t)) (fun t => f (snd t)) (filter keep ps)) as (M & E & W & A & B & G).
  { intros [u v] H. apply filter_In in H. destruct H as (H & _). apply Hn in H. split; apply F; apply H. }
  exists M. split.
  - unfold demo_matrix. rewrite <- E. f_equal. apply map_ext. intros [u v]. reflexivity.
  - do 3 (split; [assumption|]). intros i j. rewrite G.
    replace (existsb (fun '(a, b) => (f a =? i) && (f b =? j)) (filter keep ps))
      with (existsb (fun t : nat * nat => (f (fst t) =? i) && (f (snd t) =? j)) (filter keep ps)); [reflexivity|].
    clear. induction (filter keep ps) as [|[a b] l IH]; simpl; auto. rewrite IH. reflexivity.
Qed.
Lemma demo_renumbered keep M M' :
  demo_matrix idc keep = Ok M -> demo_matrix label keep = Ok M' -> renumbered n label back M M'.
Proof.
  intros E E'.
  destruct (demo_matrix_ok idc keep) as (X & EX & WX & RX & CX & GX); [auto|]. rewrite E in EX. injection EX as <-.
  destruct (demo_matrix_ok label keep) as (Y & EY & WY & RY & CY & GY); [intros; now apply R|]. rewrite E' in EY. injection EY as <-.
  split; [exact R|]. do 6 (split; [assumption|]). intros u v Hu Hv. rewrite GX, GY.
  assert (H : existsb (fun '(a, b) => (label a =? label u) && (label b =? label v)) (filter keep ps) =
              existsb (fun '(a, b) => (idc a =? u) && (idc b =? v)) (filter keep ps)).
  { assert (F : forall a b, In (a, b) (filter keep ps) -> a < n /\ b < n).
    { intros a b H. apply filter_In in H. apply Hn, H. }
    clear -F R Hu Hv. induction (filter keep ps) as [|[a b] l IH]; auto. simpl.
    destruct (F a b) as (Ha & Hb); [left; auto|].
    rewrite !(p_eqb n label back R), IH by (auto; intros; apply F; right; auto). reflexivity. }
  rewrite H. reflexivity.
Qed.
End Demo.

Theorem triangle_demo_ok sort lines N :
  (forall l, Permutation (sort l) l) -> lines <> [] ->
  (forall u v, In (u, v) lines -> In (v, u) lines) ->
  (forall u v, In (u, v) lines -> u < N /\ v < N) ->
  triangle_count_demo sort lines = Ok (repeat (Z.of_nat (triangles N (file_edge lines))) 5).
Proof.
  intros HS NE SY HN. unfold triangle_count_demo.
  destruct (read_idc lines NE) as (ps & -> & HI). cbn [bind].
  set (n := S (max_id ps)). set (l := map snd (sort (degrees n ps))).
  assert (P : Permutation l (seq 0 n)) by (apply degrees_perm; auto).
  pose proof (perm_list_renumbering n l P) as R.
  set (label := fun u => nth u l 0) in *. set (back := fun v => pos v l) in *.
  assert (Hn : forall u v, In (u, v) ps -> u < n /\ v < n).
  { intros u v H. apply max_id_ge in H. unfold n. lia. }
  assert (EM : forall keep,
    build_or_throw (lil_new n n) (map (fun '(i, j) => (snd (nth i (sort (degrees n ps)) (0, 0)), snd (nth j (sort (degrees n ps)) (0, 0)), 1%Z)) (filter keep ps)) =
    demo_matrix ps n label keep).
  { intros keep. unfold demo_matrix. f_equal. apply map_ext. intros [i j]. unfold label, l.
    change 0 with (snd (0, 0)) at 5 6. rewrite !map_nth. reflexivity. }
  rewrite !EM. clear EM.
  assert (Lt : forall u, u < n -> label u < n) by (intros; now apply R).
  set (kA := fun '(src, dst) => (src <? dst) || (dst <? src)).
  set (kL := fun '(src, dst) => dst <? src). set (kU := fun '(src, dst) => src <? dst).
  destruct (demo_matrix_ok ps n Hn label kA Lt) as (A' & EA' & WA' & RA' & CA' & GA').
  destruct (demo_matrix_ok ps n Hn label kL Lt) as (L' & EL' & _).
  destruct (demo_matrix_ok ps n Hn label kU Lt) as (U' & EU' & _).
  destruct (demo_matrix_ok ps n Hn idc kA) as (A & EA & WA & RA & CA & GA); [auto|].
  destruct (demo_matrix_ok ps n Hn idc kL) as (L & EL & WL & RL & CL & GL); [auto|].
  destruct (demo_matrix_ok ps n Hn idc kU) as (U & EU & WU & RU & CU & GU); [auto|].
  rewrite EA', EL', EU'. cbn [bind].
  pose proof (demo_renumbered ps n label back Hn R kA A A' EA EA') as RnA.
  pose proof (demo_renumbered ps n label back Hn R kL L L' EL EL') as RnL.
  pose proof (demo_renumbered ps n label back Hn R kU U U' EU EU') as RnU.
  assert (X : forall keep i j, existsb (fun '(a, b) => (idc a =? i) && (idc b =? j)) (filter keep ps) = true <-> In (i, j) lines /\ keep (i, j) = true).
  { intros keep i j. rewrite existsb_exists. split.
    - intros ([a b] & H & E). apply filter_In in H. apply Bool.andb_true_iff in E. unfold idc in E. rewrite !Nat.eqb_eq in E.
      destruct E as (-> & ->). rewrite <- HI. exact H.
    - intros H. exists (i, j). rewrite filter_In, HI. unfold idc. rewrite !Nat.eqb_refl. auto. }
  assert (K : forall keep keep' i j, (In (i, j) lines /\ keep (i, j) = true <-> In (j, i) lines /\ keep' (j, i) = true) ->
    existsb (fun '(a, b) => (idc a =? i) && (idc b =? j)) (filter keep ps) = existsb (fun '(a, b) => (idc a =? j) && (idc b =? i)) (filter keep' ps)).
  { intros keep keep' i j H. rewrite <- !X in H. now apply Bool.eq_iff_eq_true. }
  assert (SG : simple_graph n A).
  { split; [exact WA|]. do 2 (split; [assumption|]). split; [|split].
    - intros i j v. rewrite GA. destruct (existsb _ _); congruence.
    - intros i j. rewrite !GA. rewrite (K kA kA i j); auto. unfold kA. rewrite !Bool.orb_true_iff, !Nat.ltb_lt.
      split; intros (H & D); (split; [apply SY, H|tauto]).
    - intros i. rewrite GA. destruct (existsb _ _) eqn:E; auto. apply X in E. destruct E as (_ & E).
      unfold kA in E. rewrite Nat.ltb_irrefl in E. discriminate. }
  assert (SA : forall i j, edge A i j = file_edge lines i j).
  { intros i j. unfold edge. rewrite GA.
    assert (B : existsb (fun '(a, b) => (idc a =? i) && (idc b =? j)) (filter kA ps) = file_edge lines i j).
    { apply Bool.eq_iff_eq_true. rewrite X, file_edge_in. unfold kA. rewrite Bool.orb_true_iff, !Nat.ltb_lt.
      split; intros (H1 & H2); split; auto; lia. }
    rewrite B. destruct (file_edge lines i j); reflexivity. }
  assert (SG' : simple_graph n A').
  { destruct SG as (_ & _ & _ & V & Y & D). split; [exact WA'|]. do 2 (split; [assumption|]).
    pose proof (renumbered_sym _ _ _ _ _ RnA) as RnA'.
    split; [|split].
    - intros i j v. rewrite GA'. destruct (existsb _ _); congruence.
    - intros i j. destruct (mget A' i j) as [x|] eqn:E.
      + pose proof (ren_get _ _ _ _ _ RnA' _ _ _ E) as F. rewrite Y in F. apply (ren_get _ _ _ _ _ RnA) in F.
        destruct (ren_inside _ _ _ _ _ RnA' _ _ _ E) as (Hi & Hj). rewrite !(pq n label back R) in F by auto. auto.
      + destruct (mget A' j i) as [x|] eqn:E'; auto.
        pose proof (ren_get _ _ _ _ _ RnA' _ _ _ E') as F. rewrite Y in F. apply (ren_get _ _ _ _ _ RnA) in F.
        destruct (ren_inside _ _ _ _ _ RnA' _ _ _ E') as (Hi & Hj). rewrite !(pq n label back R) in F by auto. congruence.
    - intros i. destruct (mget A' i i) as [x|] eqn:E; auto. apply (ren_get _ _ _ _ _ RnA') in E. rewrite D in E. discriminate. }
  assert (GL' : forall i j, mget L i j = lower (mget A) i j).
  { intros i j. unfold lower. rewrite GL, GA. destruct (existsb _ (filter kL ps)) eqn:E.
    - apply X in E. destruct E as (E1 & E2). unfold kL in E2. rewrite E2.
      replace (existsb _ _) with true; auto. symmetry. apply X. split; auto. unfold kA. rewrite E2. apply Bool.orb_true_r.
    - destruct (j <? i) eqn:D; auto. destruct (existsb _ (filter kA ps)) eqn:E'; auto. apply X in E'.
      enough (false = true) by discriminate. rewrite <- E. apply X. split; [apply E'|exact D]. }
  assert (GU' : forall i j, mget U i j = upper (mget A) i j).
  { intros i j. unfold upper. rewrite GU, GA. destruct (existsb _ (filter kU ps)) eqn:E.
    - apply X in E. destruct E as (E1 & E2). unfold kU in E2. rewrite E2.
      replace (existsb _ _) with true; auto. symmetry. apply X. split; auto. unfold kA. rewrite E2. reflexivity.
    - destruct (i <? j) eqn:D; auto. destruct (existsb _ (filter kA ps)) eqn:E'; auto. apply X in E'.
      enough (false = true) by discriminate. rewrite <- E. apply X. split; [apply E'|exact D]. }
  destruct (counts_renumbered n label back L L' U U' RnL RnU) as (-> & -> & -> & ->).
  rewrite (triangle_count_ok n A' SG').
  rewrite (triangle_count_masked_LU_ok n A SG L U), (triangle_count_masked_ok n A SG L U),
    (triangle_count_masked_noT_ok n A SG L U), (triangle_count_newGBTL_ok n A (Mat L) U) by auto.
  cbn [bind].
  assert (Y : forall H : lil Z, simple_graph n H -> forall u v, edge H u v = edge H v u).
  { intros H (_ & _ & _ & _ & S & _) u v. unfold edge. rewrite S. reflexivity. }
  assert (T1 : triangles n (edge A') = triangles n (edge A)).
  { apply Nat.le_antisymm.
    - apply (tri_le n back label); auto; [now apply renumbering_sym|]. intros u v Hu Hv.
      apply (ren_edge n back label A' A (renumbered_sym _ _ _ _ _ RnA)); auto.
    - apply (tri_le n label back); auto. intros u v Hu Hv. apply (ren_edge n label back A A' RnA); auto. }
  assert (T2 : triangles n (edge A) = triangles N (file_edge lines)).
  { transitivity (triangles n (file_edge lines)).
    - unfold triangles. f_equal. apply filter_ext. intros [[i j] k]. rewrite !SA. reflexivity.
    - apply triangles_wide. intros u v H. apply file_edge_in in H. destruct H as (_ & H).
      pose proof (HN _ _ H). apply HI in H. apply Hn in H. lia. }
  rewrite T1, T2. reflexivity.
Qed.

(** ** k_truss_demo *)
Lemma support_mono N e e' u v : subgraph e e' -> support N e u v <= support N e' u v.
Proof.
  intros S. unfold support. induction (seq 0 N) as [|w l IH]; simpl; auto.
  destruct (e u w && e w v)%bool eqn:E.
  - apply Bool.andb_true_iff in E. destruct E as (E1 & E2). apply S in E1, E2. rewrite E1, E2. simpl. lia.
  - destruct (e' u w && e' w v)%bool; simpl; lia.
Qed.
Lemma largest_nest N s t f h e :
  s <= t -> largest_supported N s f e -> largest_supported N t h f -> largest_supported N t h e.
Proof.
  intros L (S & Y & P & M) (S' & Y' & P' & M'). split; [|split; [auto|split; [auto|]]].
  - intros u v H. apply S, S', H.
  - intros k Sk Yk Pk. apply M'; auto. apply M; auto. intros u v H. specialize (Pk u v H). lia.
Qed.
Lemma some_rows_le {T} (H E : lil T) : some_rows H E -> nrows H <= nrows E.
Proof.
  intros (idx & S & F & -> & _). rewrite <- (seq_length (nrows E) 0). apply NoDup_incl_length.
  - clear F. induction S as [|x l S IH H']; constructor; auto. intros I. rewrite Forall_forall in H'. specialize (H' _ I). lia.
  - intros x I. rewrite Forall_forall in F. apply F in I. apply in_seq. lia.
Qed.
Lemma k_truss_no_rows N k E n :
  wfm E -> ncols E = N -> 0 < N -> nrows E = 0 -> k_truss n E k = Throw InvalidValueException.
Proof.
  intros W C PN RE. unfold k_truss. rewrite C.
  destruct (diag_mask_ok N) as (D & -> & WD & RD & CD & GD). cbn [bind].
  destruct (offdiag_ok N D E WD RD CD GD W C) as (A & -> & WA & RA & CA & VA & IA). cbn [bind].
  destruct (mxm_ok Z.add Z.mul Z.mul idc idc btrue idc (NoAcc idc) mnomask MERGE (lil_new (nrows E) N)
              (Mat E) (Mat A)) as (R & -> & WR & RR & CR & GR); simpl; auto using lil_new_wf; try congruence.
  cbn [bind]. simpl in RR.
  destruct (vec_new_ok 0%Z N) as (o0 & -> & W0 & S0 & G0); [lia|]. cbn [bind].
  destruct (assign_const_v_ok btrue idc idc (NoAcc idc) vnomask REPLACE o0 1%Z (IdxArr (seq 0 N)))
    as (ones & -> & Wo & So & Go).
  { apply W0. } { exact Logic.I. }
  { split; [exact Logic.I|]. simpl. rewrite seq_length. split; [lia|].
    apply Forall_forall. intros i Hi. apply in_seq in Hi. lia. }
  { intros a b i j Hab Hi Hj. apply nth_error_nth with (d := 0%nat) in Hi as Hi'.
    apply nth_error_nth with (d := 0%nat) in Hj as Hj'.
    assert (a < length (seq 0 N))%nat by (apply nth_error_Some; congruence).
    assert (b < length (seq 0 N))%nat by (apply nth_error_Some; congruence).
    rewrite seq_length in *. rewrite seq_nth in Hi' by auto. rewrite seq_nth in Hj' by auto. simpl in *. lia. }
  cbn [bind]. unfold edge_support. rewrite RR, RE. reflexivity.
Qed.
Lemma truss_chain_ok N n ks : forall E k0,
  incidence N E -> 0 < nrows E -> nrows E < n -> Forall (fun k => 2 <= k) ks -> StronglySorted le ks ->
  forall D, truss_of N D k0 E -> (0 < nrows E) -> Forall (fun k => k0 <= k) ks ->
  (exists Fs, truss_chain n E ks = Ok (Some Fs) /\ Forall2 (truss_of N D) ks Fs) \/
  (truss_chain n E ks = Throw InvalidValueException /\ exists k F, In k ks /\ truss_of N D k F /\ nrows F = 0).
Proof.
  induction ks as [|k ks IH]; intros E k0 IE PE HE G2 SS D (TI & TS & TL) _ Hk0.
  { left. exists []. split; auto. }
  inversion G2 as [|? ? K2 G2']; subst. inversion SS as [|? ? SS' Hle]; subst. inversion Hk0 as [|? ? K0 Hk0']; subst.
  destruct (C63_k_truss N k n E IE PE K2 HE) as (F & EF & IF & SF & LF).
  assert (TF : truss_of N D k F).
  { split; [auto|]. split; [eapply some_rows_trans; eauto|]. eapply largest_nest; [|exact TL|exact LF]. lia. }
  cbn [truss_chain]. rewrite EF. cbn [bind].
  destruct (Nat.eq_dec (nrows F) 0) as [ZF|NZ].
  - destruct ks as [|k' ks].
    + left. exists [F]. split; [reflexivity|]. constructor; auto.
    + right. split; [|exists k, F; simpl; auto].
      cbn [truss_chain]. replace (k_truss n F k') with (@Throw (option (lil Z)) InvalidValueException); [reflexivity|].
      symmetry. pose proof IF as (WF & CF & _). apply (k_truss_no_rows N); auto.
      pose proof IE as (_ & _ & _ & Ep & _). destruct (Ep 0 PE) as (a & b & Hab). apply (ends_lt N E IE) in Hab. lia.
  - destruct (IH F k IF ltac:(lia)) with (D := D) as [(Fs & E2 & H2)|(E2 & k' & F' & I & H2)]; auto; try lia.
    + pose proof (some_rows_le _ _ SF). lia.
    + left. exists (F :: Fs). rewrite E2. split; [reflexivity|]. constructor; auto.
    + right. rewrite E2. split; [reflexivity|]. exists k', F'. simpl. auto.
Qed.

(** The incidence matrix of a list of edges. *)
Section Incidence.
Context (es : list (nat * nat)).
Hypothesis ND : NoDup es.
Hypothesis Lt : forall a b, In (a, b) es -> a < b.
Lemma incidence_row (s i j : nat) :
  existsb (fun '(i', j', _) => (i' =? i) && (j' =? j))
    (concat (map (fun '(e, (a, b)) => [(e, a, 1%Z); (e, b, 1%Z)]) (combine (seq s (length es)) es))) =
  match nth_error es (i - s) with
  | Some (a, b) => (s <=? i) && ((a =? j) || (b =? j))
  | None => false
  end.
Proof.
  clear ND Lt. revert s. induction es as [|[a b] l IH]; intros s.
  - simpl. destruct (i - s); reflexivity.
  - cbn [length seq combine map concat]. rewrite existsb_app. cbn [existsb app]. rewrite IH.
    destruct (Nat.eqb_spec s i) as [->|D].
    + rewrite Nat.sub_diag, Nat.leb_refl. simpl. rewrite Bool.orb_false_r.
      replace (i - S i) with 0 by lia.
      destruct l as [|[a' b'] l]; simpl; rewrite ?Bool.orb_false_r; auto.
      replace (match i with 0 => false | S m' => i <=? m' end) with false; [simpl; apply Bool.orb_false_r|].
      destruct i; auto. symmetry. apply Nat.leb_gt. lia.
    + simpl. destruct (i - s) as [|m] eqn:M.
      * replace (i - S s) with 0 by lia. replace (s <=? i) with false by (symmetry; apply Nat.leb_gt; lia).
        destruct l as [|[a' b'] l]; simpl; auto.
        replace (match i with 0 => false | S m' => s <=? m' end) with false; auto.
        destruct i; auto. symmetry. apply Nat.leb_gt. lia.
      * replace (i - S s) with m by lia. simpl. destruct (nth_error l m) as [[a' b']|]; auto.
        replace (match i with 0 => false | S m' => s <=? m' end) with true; [|destruct i; [lia|symmetry; apply Nat.leb_le; lia]].
        replace (s <=? i) with true; auto. symmetry. apply Nat.leb_le. lia.
Qed.
Let n := S (max_id es).
Lemma demo_entries : forall e a b, In (e, (a, b)) (combine (seq 0 (length es)) es) -> nth_error es e = Some (a, b).
Proof.
  assert (G : forall (l : list (nat * nat)) s e x, In (e, x) (combine (seq s (length l)) l) -> s <= e /\ nth_error l (e - s) = Some x).
  { induction l as [|y l IH]; intros s e x H; [destruct H|]. cbn [length seq combine] in H. destruct H as [H|H].
    - injection H as -> ->. rewrite Nat.sub_diag. auto.
    - apply IH in H. destruct H as (H1 & H2). split; [lia|]. replace (e - s) with (S (e - S s)) by lia. exact H2. }
  intros e a b H. apply G in H. rewrite Nat.sub_0_r in H. apply H.
Qed.
Lemma incidence_build : exists E,
  build_or_throw (lil_new (length es) n)
    (concat (map (fun '(e, (a, b)) => [(e, a, 1%Z); (e, b, 1%Z)]) (combine (seq 0 (length es)) es))) = Ok E /\
  wfm E /\ nrows E = length es /\ ncols E = n /\
  forall e v, mget E e v = match nth_error es e with
                           | Some (a, b) => if (a =? v) || (b =? v) then Some 1%Z else None
                           | None => None
                           end.
Proof.
  set (ts := concat _).
  assert (T1 : forall t, In t ts -> snd t = 1%Z /\ fst (fst t) < length es /\ snd (fst t) < n).
  { intros t Ht. apply in_concat in Ht. destruct Ht as (l & Hl & Ht). apply in_map_iff in Hl.
    destruct Hl as ([e [a b]] & <- & Hc). apply demo_entries in Hc.
    assert (e < length es) by (apply nth_error_Some; congruence).
    apply nth_error_In, max_id_ge in Hc. unfold n. destruct Ht as [<-|[<-|[]]]; simpl; repeat split; auto; lia. }
  destruct (build_ones (length es) n (fun t : nat * nat * Z => fst (fst t)) (fun t => snd (fst t)) ts) as (E & EE & W & R & C & G).
  { intros t Ht. apply T1, Ht. }
  exists E. split; [|do 3 (split; [assumption|])].
  - rewrite <- EE. f_equal. transitivity (map (fun t : nat * nat * Z => t) ts); [symmetry; apply map_id|].
    apply map_ext_in. intros [[i j] x] Ht. apply T1 in Ht. simpl in *. destruct Ht as (-> & _). reflexivity.
  - intros e v. rewrite G. replace (existsb _ ts) with (existsb (fun '(i', j', _) => (i' =? e) && (j' =? v)) ts).
    + unfold ts. rewrite incidence_row, Nat.sub_0_r. destruct (nth_error es e) as [[a b]|]; reflexivity.
    + clear. induction ts as [|[[i j] x] l IH]; simpl; auto. rewrite IH. reflexivity.
Qed.
Lemma incidence_list : exists E,
  build_or_throw (lil_new (length es) n)
    (concat (map (fun '(e, (a, b)) => [(e, a, 1%Z); (e, b, 1%Z)]) (combine (seq 0 (length es)) es))) = Ok E /\
  incidence n E /\ nrows E = length es /\
  forall u v, joined E u v = true <-> In (u, v) es \/ In (v, u) es.
Proof.
  destruct incidence_build as (E & EE & W & R & C & G). exists E. split; [exact EE|].
  assert (S : forall e v, is_some (mget E e v) = true <-> exists a b, nth_error es e = Some (a, b) /\ (v = a \/ v = b)).
  { intros e v. rewrite G. destruct (nth_error es e) as [[a b]|].
    - destruct (Nat.eqb_spec a v), (Nat.eqb_spec b v); simpl; split; try discriminate; try reflexivity; intros H; try (exists a, b; auto; fail).
      destruct H as (a' & b' & H & H'). injection H as <- <-. destruct H'; congruence.
    - simpl. split; [discriminate|]. intros (a & b & H & _). discriminate. }
  split; [|split; [auto|]].
  - split; [auto|]. split; [auto|]. split; [|split].
    + intros e v x. rewrite G. destruct (nth_error es e) as [[a b]|]; [|discriminate]. destruct (_ || _)%bool; congruence.
    + intros e He. rewrite R in He. destruct (nth_error es e) as [[a b]|] eqn:Ee; [|apply nth_error_None in Ee; lia].
      exists a, b. split; [apply Lt; eapply nth_error_In; eauto|]. intros v. rewrite S. split.
      * intros (a' & b' & H & H'). rewrite Ee in H. injection H as <- <-. auto.
      * intros H. exists a, b. auto.
    + intros e f He Hf H. rewrite R in He, Hf.
      destruct (nth_error es e) as [[a b]|] eqn:Ee; [|apply nth_error_None in Ee; lia].
      destruct (nth_error es f) as [[a' b']|] eqn:Ef; [|apply nth_error_None in Ef; lia].
      assert (L1 := Lt _ _ (nth_error_In _ _ Ee)). assert (L2 := Lt _ _ (nth_error_In _ _ Ef)).
      assert (Q : forall v, v = a \/ v = b <-> v = a' \/ v = b').
      { intros v. assert (X := S e v). rewrite H, S in X. split; intros Hv.
        - destruct (proj2 X) as (x & y & Hx & Hy); [exists a, b; auto|]. rewrite Ef in Hx. injection Hx as <- <-. auto.
        - destruct (proj1 X) as (x & y & Hx & Hy); [exists a', b'; auto|]. rewrite Ee in Hx. injection Hx as <- <-. auto. }
      assert (a = a' /\ b = b') as (<- & <-).
      { pose proof (Q a). pose proof (Q b). pose proof (Q a'). pose proof (Q b'). lia. }
      apply (proj1 (NoDup_nth_error es) ND); [auto|congruence].
  - intros u v. unfold joined. rewrite Bool.andb_true_iff, Bool.negb_true_iff, Nat.eqb_neq, existsb_exists. split.
    + intros (D & e & He & H). apply Bool.andb_true_iff in H. rewrite !S in H. destruct H as ((a & b & H & Hu) & (a' & b' & H' & Hv)).
      rewrite H in H'. injection H' as <- <-. apply nth_error_In in H. destruct Hu, Hv; subst; try congruence; auto.
    + intros H. assert (u <> v) by (destruct H as [H|H]; apply Lt in H; lia). split; auto.
      destruct H as [H|H]; apply In_nth_error in H; destruct H as (e & H); exists e; (split; [apply in_seq; rewrite R;
        assert (e < length es) by (apply nth_error_Some; congruence); lia|apply Bool.andb_true_iff; rewrite !S; eauto 10]).
Qed.
End Incidence.

Theorem k_truss_demo_ok ps ks n :
  NoDup (filter (fun '(a, b) => a <? b) ps) -> filter (fun '(a, b) => a <? b) ps <> [] ->
  Forall (fun k => 2 <= k) ks -> StronglySorted le ks -> length ps < n ->
  exists N E, demo_incidence ps = Ok E /\ incidence N E /\
    (forall u v, joined E u v = true <-> (u < v /\ In (u, v) ps) \/ (v < u /\ In (v, u) ps)) /\
    ((exists Fs, truss_chain n E ks = Ok (Some Fs) /\ Forall2 (truss_of N E) ks Fs) \/
     (truss_chain n E ks = Throw InvalidValueException /\ exists k F, In k ks /\ truss_of N E k F /\ nrows F = 0)).
Proof.
  intros ND NE G2 SS Hn. unfold demo_incidence.
  set (es := filter _ ps) in *.
  assert (Lt : forall a b, In (a, b) es -> a < b).
  { intros a b H. apply filter_In in H. apply Nat.ltb_lt, H. }
  destruct (incidence_list es ND Lt) as (E & EE & IE & RE & JE).
  exists (S (max_id es)), E. split; [exact EE|]. split; [exact IE|]. split.
  - intros u v. rewrite JE. unfold es. rewrite !filter_In, !Nat.ltb_lt. tauto.
  - assert (Len : length es <= length ps).
    { unfold es. clear. induction ps as [|[a b] l IH]; simpl; auto. destruct (a <? b); simpl; lia. }
    assert (P : 0 < nrows E) by (rewrite RE; destruct es; simpl; [congruence|lia]).
    apply (truss_chain_ok _ n ks E 2); auto; [lia|].
    split; [auto|]. split; [apply some_rows_refl|]. split; [intros u v H; exact H|]. split; [apply (joined_sym E)|].
    split; [intros u v _; simpl; lia|]. intros h' H _ _. exact H.
Qed.

(** ** louvain_demo *)
Lemma fold_second (vs : list Z) v : Some (fold_left (fun _ x => x) vs v) = match rev (v :: vs) with [] => None | w :: _ => Some w end.
Proof.
  induction vs as [|x vs IH] using rev_ind; [reflexivity|].
  rewrite fold_left_app. cbn [fold_left]. change (v :: vs ++ [x]) with ((v :: vs) ++ [x]). rewrite rev_unit. reflexivity.
Qed.
Lemma fold_max_eq (ps : list (Z * Z * Z)) K : forall m,
  (m <= K)%Z -> (forall s d w, In (s, d, w) ps -> s <= K /\ d <= K)%Z ->
  (m = K \/ exists s d w, In (s, d, w) ps /\ (s = K \/ d = K)) ->
  fold_left (fun m '(src, dst, _) => Z.max (Z.max m src) dst) ps m = K.
Proof.
  induction ps as [|[[s d] w] ps IH]; intros m Hm B H.
  - destruct H as [H|(? & ? & ? & [] & _)]. exact H.
  - simpl. destruct (B s d w) as (Bs & Bd); [left; auto|]. apply IH.
    + lia.
    + intros. eapply B. right. eauto.
    + destruct H as [->|(s' & d' & w' & [E|I] & Q)].
      * left. lia.
      * injection E as <- <- <-. left. lia.
      * right. eauto 6.
Qed.
Theorem louvain_demo_graph_ok lines n s d w :
  (forall s d w, In (s, d, w) lines -> 1 <= s <= Z.of_nat n /\ 1 <= d <= Z.of_nat n)%Z -> (Z.of_nat n < 2 ^ 64)%Z ->
  (exists s d w, In (s, d, w) lines /\ (s = Z.of_nat n \/ d = Z.of_nat n)) ->
  (forall z, last lines z = (s, d, w)) -> (2 <= s)%Z -> (2 <= d)%Z ->
  exists M, louvain_demo_graph lines = Ok M /\ wfm M /\ nrows M = n /\ ncols M = n /\
    mget M (Z.to_nat (s - 2)) (Z.to_nat (d - 2)) = Some w /\
    forall i j, (Z.of_nat i, Z.of_nat j) <> (s - 2, d - 2)%Z -> mget M i j = file_weight lines i j.
Proof.
  intros B Hn (s0 & d0 & w0 & I0 & Q0) La Hs Hd.
  destruct lines as [|x r]; [destruct I0|].
  set (lines := x :: r) in *.
  set (D := fun '(s, d, w) => ((s - 1)%Z, (d - 1)%Z, w) : louvain_line).
  assert (Dec : forall t, In t lines -> decrement t = D t).
  { intros [[a b] c] H. destruct (B a b c H). unfold decrement, D. rewrite !Z.mod_small by lia. reflexivity. }
  assert (Lst : last lines x = (s, d, w)) by apply La.
  assert (Ilst : In (s, d, w) lines).
  { rewrite <- Lst. destruct (last_in lines x) as [H|H]; [rewrite <- H; left; reflexivity|exact H]. }
  assert (EP : read_loop decrement None lines = Ok (map D lines ++ [((s - 2)%Z, (d - 2)%Z, w)])).
  { unfold lines. cbn [read_loop]. rewrite read_some. cbn [bind].
    assert (M : map decrement r = map D r) by (apply map_ext_in; intros; apply Dec; right; auto).
    rewrite M, (Dec x) by (left; auto). cbn [map app]. do 2 f_equal. f_equal. f_equal.
    assert (L : last (map D r) (D x) = D (last lines x)).
    { unfold lines. clear. revert x. induction r as [|y r IH]; intros x; [reflexivity|].
      cbn [map]. change (last (x :: y :: r) x) with (last (y :: r) x).
      assert (X : forall (A : Type) (l : list A) z a b, last (z :: l) a = last (z :: l) b).
      { induction l as [|u l IHl]; intros z a b; [reflexivity|]. apply (IHl u). }
      rewrite (X _ _ _ (D x) (D y)). rewrite (X _ _ _ x y).
      destruct r as [|z r]; [reflexivity|]. rewrite <- (IH y). reflexivity. }
    rewrite L, Lst. unfold D, decrement. destruct (B s d w Ilst). rewrite !Z.mod_small by lia.
    f_equal; f_equal; lia. }
  unfold louvain_demo_graph. rewrite EP. cbn [bind]. clear EP.
  rewrite (fold_max_eq _ (Z.of_nat n - 1)).
  - replace ((Z.of_nat n - 1 + 1) mod 2 ^ 64)%Z with (Z.of_nat n) by (rewrite Z.sub_add, Z.mod_small; lia).
    rewrite Nat2Z.id.
    set (ts := map _ _).
    destruct (C08_matrix_build_dup_fold Z (fun _ x => x) n n ts) as (M & E & W & R & C & G).
    { apply Forall_forall. intros [[i j] v] H. apply in_map_iff in H. destruct H as ([[a b] c] & Et & H).
      injection Et as <- <- <-. apply in_app_iff in H. destruct H as [H|[H|[]]].
      - apply in_map_iff in H. destruct H as ([[a' b'] c'] & Et & H). injection Et as <- <- <-. destruct (B _ _ _ H). lia.
      - injection H as <- <- <-. destruct (B _ _ _ Ilst). lia. }
    exists M. unfold build_or_throw. rewrite E. split; [reflexivity|]. do 3 (split; [assumption|]).
    unfold ts in G. rewrite map_app in G. cbn [map] in G.
    assert (G' : forall i j, mget M i j =
      match rev (map snd (filter (fun '(i', j', _) => (i' =? i) && (j' =? j)) (map (fun '(src, dst, w) => (Z.to_nat src, Z.to_nat dst, w)) (map D lines))) ++
                 map snd (filter (fun '(i', j', _) => (i' =? i) && (j' =? j)) [(Z.to_nat (s - 2), Z.to_nat (d - 2), w)])) with
      | [] => None | w :: _ => Some w end).
    { intros i j. rewrite G, filter_app, map_app. destruct (map snd _ ++ map snd _) as [|v vs] eqn:X; [reflexivity|].
      apply fold_second. }
    split.
    + rewrite G'. cbn [filter map]. rewrite !Nat.eqb_refl. cbn [andb map snd]. rewrite rev_unit. reflexivity.
    + intros i j Hij. rewrite G'. cbn [filter].
      replace ((Z.to_nat (s - 2) =? i) && (Z.to_nat (d - 2) =? j))%bool with false.
      * cbn [map]. rewrite app_nil_r. unfold file_weight. match goal with |- match rev ?x with _ => _ end = match rev ?y with _ => _ end => enough (X : x = y) by (rewrite X; reflexivity) end.
        assert (Bl : forall a b c, In (a, b, c) lines -> (1 <= a)%Z /\ (1 <= b)%Z) by (intros a b c H; destruct (B a b c H); lia).
        clear -Bl. induction lines as [|[[a b] c] l IH]; [reflexivity|]. cbn [map filter D].
        destruct (Bl a b c) as (Ha & Hb); [left; auto|].
        replace (Z.to_nat (a - 1) =? i) with (a =? Z.of_nat (S i))%Z.
        2: { destruct (Z.eqb_spec a (Z.of_nat (S i))), (Nat.eqb_spec (Z.to_nat (a - 1)) i); auto; lia. }
        replace (Z.to_nat (b - 1) =? j) with (b =? Z.of_nat (S j))%Z.
        2: { destruct (Z.eqb_spec b (Z.of_nat (S j))), (Nat.eqb_spec (Z.to_nat (b - 1)) j); auto; lia. }
        destruct (_ && _)%bool; cbn [map snd]; rewrite IH; auto; intros; eapply Bl; right; eauto.
      * symmetry. apply Bool.andb_false_iff. rewrite !Nat.eqb_neq.
        destruct (Nat.eq_dec (Z.to_nat (s - 2)) i) as [E1|]; [right|left; auto]. intros E2. apply Hij. f_equal; lia.
  - destruct (B _ _ _ I0). lia.
  - intros a b c H. apply in_app_iff in H. destruct H as [H|[H|[]]].
    + apply in_map_iff in H. destruct H as ([[a' b'] c'] & Et & H). injection Et as <- <- <-. destruct (B _ _ _ H). lia.
    + injection H as <- <- <-. destruct (B _ _ _ Ilst). lia.
  - right. exists (s0 - 1)%Z, (d0 - 1)%Z, w0. split; [|lia]. apply in_app_iff. left.
    apply (in_map D) in I0. exact I0.
Qed.
Lemma build_no_room {T} (ts : list (nat * nat * T)) :
  ts <> [] -> exists e, build_or_throw (lil_new 0 0) ts = Throw e.
Proof.
  destruct ts as [|[[i j] v] ts]; [congruence|]. intros _. unfold build_or_throw. cbn [lil_build].
  exists IndexOutOfBoundsException. reflexivity.
Qed.
Theorem louvain_demo_vertex_one lines d w :
  (forall s d w, In (s, d, w) lines -> 1 <= s <= 2 ^ 64 /\ 1 <= d <= 2 ^ 64)%Z -> lines <> [] ->
  last lines (1%Z, d, w) = (1%Z, d, w) ->
  exists e, louvain_demo_graph lines = Throw e.
Proof.
  intros B NE La. unfold louvain_demo_graph.
  destruct lines as [|x r]; [congruence|]. cbn [read_loop]. rewrite read_some. cbn [bind].
  set (l := last (map decrement r) (decrement x)).
  assert (Hl : exists d', l = (0%Z, d', w) /\ (0 <= d' < 2 ^ 64)%Z).
  { assert (E : l = decrement (1%Z, d, w)).
    { unfold l. rewrite <- La. clear. revert x. induction r as [|y r IH]; intros x; [reflexivity|].
      cbn [map]. change (last (x :: y :: r) (1%Z, d, w)) with (last (y :: r) (1%Z, d, w)).
      rewrite <- IH. destruct r; [reflexivity|]. cbn [map].
      assert (X : forall (A : Type) (l : list A) z a b, last (z :: l) a = last (z :: l) b).
      { induction l as [|u l IHl]; intros z a b; [reflexivity|]. apply (IHl u). }
      change (last (decrement y :: decrement p :: map decrement r) (decrement x)) with (last (decrement p :: map decrement r) (decrement x)).
      apply X. }
    rewrite E. unfold decrement. eexists. split; [reflexivity|]. apply Z.mod_pos_bound. lia. }
  destruct Hl as (d' & El & Hd'). rewrite El.
  set (ps := _ :: _).
  rewrite (fold_max_eq ps (2 ^ 64 - 1)%Z).
  - replace (Z.to_nat ((2 ^ 64 - 1 + 1) mod 2 ^ 64)) with 0 by reflexivity.
    apply build_no_room. unfold ps. discriminate.
  - lia.
  - assert (DB : forall t, let '(a, b, _) := decrement t in (a <= 2 ^ 64 - 1 /\ b <= 2 ^ 64 - 1)%Z).
    { intros [[a b] c]. unfold decrement. pose proof (Z.mod_pos_bound (a - 1) (2 ^ 64)). pose proof (Z.mod_pos_bound (b - 1) (2 ^ 64)). lia. }
    intros a b c H. assert (K : exists t, decrement t = (a, b, c)).
    { destruct H as [H|H]; [eauto|]. apply in_app_iff in H. destruct H as [H|[H|[]]]; [|eauto].
      apply in_map_iff in H. destruct H as (t & H & _). eauto. }
    destruct K as (t & K). specialize (DB t). rewrite K in DB. exact DB.
  - right. exists (2 ^ 64 - 1)%Z, ((d' - 1) mod 2 ^ 64)%Z, w. split; [|auto]. right. apply in_app_iff. right. left. reflexivity.
Qed.
Lemma perm3 {A} (l : list A) a b c : Permutation l [a; b; c] ->
  l = [a; b; c] \/ l = [a; c; b] \/ l = [b; a; c] \/ l = [b; c; a] \/ l = [c; a; b] \/ l = [c; b; a].
Proof.
  intros P. pose proof (Permutation_length P) as L.
  destruct l as [|x l]; [discriminate|].
  assert (I : In x [a; b; c]) by (apply (Permutation_in _ P); left; auto).
  assert (R : forall y z, Permutation l [y; z] -> l = [y; z] \/ l = [z; y]).
  { intros y z Q. destruct (Permutation_length_2_inv (Permutation_sym Q)); auto. }
  destruct I as [<-|[<-|[<-|[]]]].
  - apply Permutation_cons_inv in P. destruct (R _ _ P) as [->| ->]; auto.
  - assert (Q : Permutation (b :: l) (b :: [a; c])) by (rewrite P; constructor).
    apply Permutation_cons_inv in Q. destruct (R _ _ Q) as [->| ->]; auto 6.
  - assert (Q : Permutation (c :: l) (c :: [a; b])) by (rewrite P; exact (Permutation_sym (Permutation_middle [a; b] [] c))).
    apply Permutation_cons_inv in Q. destruct (R _ _ Q) as [->| ->]; auto 7.
Qed.
