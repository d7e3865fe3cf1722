(** Call histories: the containers answer like partial maps. *)
From Coq Require Import Lia.
From Verif Require Import Base ModelLil ModelVec Spec ModelCalls SpecCalls
  ProofBase ProofRow ProofLil ProofVec.

(** ** Generic simulation *)
Section Sim.
Context {X Y T : Type} (R : X -> Y -> Prop).

Definition rres (r : res X) (s : res Y) : Prop :=
  match r, s with
  | Ok x, Ok y => R x y
  | Throw e, Throw e' => e = e'
  | UB, UB => True
  | _, _ => False
  end.

Definition same (p : list X * res (answer T)) (q : list Y * res (answer T)) : Prop :=
  Forall2 R (fst p) (fst q) /\ snd p = snd q.

Lemma Forall2_nth_error l l' k :
  Forall2 R l l' ->
  match nth_error l k, nth_error l' k with
  | Some x, Some y => R x y
  | None, None => True
  | _, _ => False
  end.
Proof. intro F; revert k; induction F; intros [|k]; simpl; auto; apply IHF. Qed.

Lemma Forall2_upd l l' k x y : Forall2 R l l' -> R x y -> Forall2 R (upd l k x) (upd l' k y).
Proof. intros F H; revert k; induction F; intros [|k]; simpl; constructor; auto. Qed.

Lemma mon_same st st' k f g :
  Forall2 R st st' -> (forall x y, R x y -> same (f x) (g y)) -> same (mon st k f) (mon st' k g).
Proof.
  intros F H. pose proof (Forall2_nth_error st st' k F) as N. unfold mon.
  destruct (nth_error st k), (nth_error st' k); try tauto; auto. split; auto.
Qed.

Lemma put_same st st' k r s : Forall2 R st st' -> rres r s -> same (put st k r) (put st' k s).
Proof.
  intros F H. unfold put. destruct r, s; simpl in H; try tauto; split; simpl; auto.
  - apply Forall2_upd; auto.
  - congruence.
Qed.

Lemma push_same st st' r s : Forall2 R st st' -> rres r s -> same (push st r) (push st' s).
Proof.
  intros F H. unfold push. destruct r, s; simpl in H; try tauto; split; simpl; auto.
  - apply Forall2_app; auto.
  - congruence.
Qed.

Lemma ans_same st st' (r s : res (answer T)) : Forall2 R st st' -> r = s -> same (st, r) (st', s).
Proof. split; auto. Qed.
End Sim.

Lemma run_same {X Y T C} (R : X -> Y -> Prop) (f : list X -> C -> list X * res (answer T)) g
    (P : C -> Prop) :
  (forall st st' c, P c -> Forall2 R st st' -> same R (f st c) (g st' c)) ->
  forall cs st st', Forall P cs -> Forall2 R st st' ->
    Forall2 R (fst (run f st cs)) (fst (run g st' cs)) /\
    snd (run f st cs) = snd (run g st' cs).
Proof.
  intros H cs; induction cs as [|c cs IH]; intros st st' FP F; simpl; auto.
  inversion FP as [|? ? Pc FP']; subst.
  destruct (H st st' c Pc F) as [H1 H2].
  destruct (f st c) as [s1 r1], (g st' c) as [s2 r2]; simpl in *.
  destruct (IH s1 s2 FP' H1) as [I1 I2].
  destruct (run f s1 cs) as [s3 l3], (run g s2 cs) as [s4 l4]; simpl in *. split; congruence.
Qed.

(** ** Matrices *)
Definition mrel {T} (M : lil T) (S : smatrix T) : Prop :=
  wfm M /\ nrows M = sm_nr S /\ ncols M = sm_nc S /\ forall i j, mget M i j = sm_map S i j.

(** A sorted row is the list of its present positions. *)
Lemma row_positions {T} (r : row T) lo hi :
  wfrow lo hi r ->
  r = flat_map (fun j => match rget r j with Some v => [(j, v)] | None => [] end)
        (seq lo (hi - lo)).
Proof.
  revert lo; induction r as [|[k v] r IH]; intros lo H.
  - simpl. induction (seq lo (hi - lo)); simpl; auto.
  - destruct H as [H1 H2].
    replace (hi - lo) with ((k - lo) + (1 + (hi - S k))) by lia.
    rewrite !seq_app, !flat_map_app.
    assert (E1 : flat_map (fun j => match rget ((k, v) :: r) j with Some v0 => [(j, v0)] | None => [] end)
                   (seq lo (k - lo)) = []).
    { assert (A : forall x, In x (seq lo (k - lo)) -> rget ((k, v) :: r) x = None).
      { intros x Hx. apply in_seq in Hx. simpl. ltb. apply (rget_lt r (S k) hi); auto. lia. }
      induction (seq lo (k - lo)) as [|x l IHl]; simpl; auto.
      change (if k =? x then Some v else rget r x) with (rget ((k, v) :: r) x).
      rewrite (A x) by (left; auto). apply IHl. intros; apply A; right; auto. }
    rewrite E1. replace (lo + (k - lo)) with k by lia. simpl.
    rewrite Nat.eqb_refl. simpl. f_equal.
    replace (k + 1) with (S k) by lia. rewrite (IH (S k) H2) at 1.
    assert (A : forall x, In x (seq (S k) (hi - S k)) -> (k =? x) = false).
    { intros x Hx. apply in_seq in Hx. ltb; auto. }
    induction (seq (S k) (hi - S k)) as [|x l IHl]; simpl; auto.
    rewrite (A x) by (left; auto). f_equal. apply IHl. intros; apply A; right; auto.
Qed.

Lemma flat_map_ext_in {A B} (f g : A -> list B) l :
  (forall x, In x l -> f x = g x) -> flat_map f l = flat_map g l.
Proof.
  induction l as [|x l IH]; intro H; simpl; auto.
  rewrite (H x) by (left; auto). rewrite IH; auto. intros; apply H; right; auto.
Qed.

Lemma map_flat_map {A B C} (f : B -> C) (g : A -> list B) l :
  map f (flat_map g l) = flat_map (fun x => map f (g x)) l.
Proof. induction l; simpl; auto. rewrite map_app; congruence. Qed.

Lemma tuples_from_flat {T} (d : list (row T)) b :
  tuples_from b d =
  flat_map (fun i => map (fun '(j, v) => (i, j, v)) (nth (i - b) d [])) (seq b (length d)).
Proof.
  revert b; induction d as [|r d IH]; intro b; simpl; auto.
  rewrite Nat.sub_diag, IH. f_equal. apply flat_map_ext_in.
  intros x Hx. apply in_seq in Hx. replace (x - b) with (S (x - S b)) by lia. reflexivity.
Qed.

Lemma extractTuples_stuples {T} (M : lil T) S : mrel M S -> lil_extractTuples M = stuples S.
Proof.
  intros (W & Hr & Hc & G). unfold lil_extractTuples, stuples.
  rewrite tuples_from_flat, (wfm_len M W), Hr. apply flat_map_ext_in.
  intros i Hi. rewrite Nat.sub_0_r.
  rewrite (row_positions (nth i (data M) []) 0 (ncols M)) by (apply wfm_row; auto).
  rewrite map_flat_map, Nat.sub_0_r, Hc. apply flat_map_ext_in. intros j _.
  specialize (G i j). unfold mget in G. rewrite G. destruct (sm_map S i j); auto.
Qed.

Lemma oeqb_spec {T} eqb (x y : option T) :
  (forall a b : T, eqb a b = true <-> a = b) -> (oeqb eqb x y = true <-> x = y).
Proof.
  intro H. destruct x, y; simpl; try (split; congruence). rewrite H. split; congruence.
Qed.

Lemma seqm_spec {T} eqb (A B : smatrix T) :
  (forall a b : T, eqb a b = true <-> a = b) ->
  (seqm eqb A B = true <-> sm_nr A = sm_nr B /\ sm_nc A = sm_nc B /\
     forall i j, i < sm_nr A -> j < sm_nc A -> sm_map A i j = sm_map B i j).
Proof.
  intro H. unfold seqm. rewrite !andb_true_iff, !Nat.eqb_eq, forallb_forall.
  split.
  - intros [[E1 E2] E3]. split; [auto|]. split; [auto|]. intros i j Hi Hj.
    specialize (E3 (i, j)). cbv beta iota in E3. rewrite oeqb_spec in E3 by auto.
    apply E3. apply in_prod; apply in_seq; lia.
  - intros (E1 & E2 & E3). split; [auto|]. intros [i j] Hx. apply in_prod_iff in Hx.
    destruct Hx as [Hi Hj]. apply in_seq in Hi. apply in_seq in Hj.
    apply oeqb_spec; auto. apply E3; lia.
Qed.

Lemma lil_eqb_seqm {T} eqb (A B : lil T) SA SB :
  (forall a b : T, eqb a b = true <-> a = b) ->
  mrel A SA -> mrel B SB -> lil_eqb eqb A B = seqm eqb SA SB.
Proof.
  intros H (WA & RA & CA & GA) (WB & RB & CB & GB).
  apply Bool.eq_iff_eq_true. rewrite lil_eqb_spec, seqm_spec by auto. split.
  - intros <-. split; [congruence|]. split; [congruence|].
    intros i j _ _. rewrite <- GA, <- GB. auto.
  - intros (E1 & E2 & E3). apply lil_ext; auto; try congruence.
    intros i j Hi Hj. rewrite GA, GB. apply E3; congruence.
Qed.

(** Dense construction. *)
Lemma forallb_false_first {A} (f : A -> bool) l d :
  forallb f l = false ->
  exists p, p < length l /\ f (nth p l d) = false /\ forall q, q < p -> f (nth q l d) = true.
Proof.
  induction l as [|x l IH]; simpl; [discriminate|]. destruct (f x) eqn:E; simpl.
  - intro H. destruct (IH H) as (p & P1 & P2 & P3). exists (S p). split; [lia|]. split; auto.
    intros [|q] Hq; auto. apply P3; lia.
  - intros _. exists 0. split; [lia|]. split; auto. lia.
Qed.

Definition dense_body {T} (keep : T -> bool) (val : list (list T)) nc (ii : nat) (M : lil T) :=
  vs <- vat val ii ;;
  _ <- throw_if (negb (length vs =? nc)) DimensionException ;;
  let r := dense_row keep 0 vs in
  d <- vset (data M) ii r ;;
  Ok (mkLil (nrows M) (ncols M) (nvals M + Z.of_nat (length r)) d).

Lemma dense_body_ok {T} keep (val : list (list T)) nc ii (M : lil T) :
  ii < length val -> length (data M) = length val -> nth ii (data M) [] = [] ->
  length (nth ii val []) = nc ->
  dense_body keep val nc ii M = Ok (setrow_pure M ii (dense_row keep 0 (nth ii val []))).
Proof.
  intros H L E N. unfold dense_body. rewrite (vat_ok val ii []) by auto. simpl.
  rewrite N, Nat.eqb_refl. simpl. rewrite vset_ok by lia. simpl. unfold setrow_pure.
  rewrite E. simpl length. f_equal. f_equal. lia.
Qed.

Lemma lil_dense_rel {T} keep (val : list (list T)) :
  rres mrel (lil_dense keep val) (sdense keep val).
Proof.
  destruct val as [|v0 val']; [exact I|].
  change (lil_dense keep (v0 :: val')) with
    (mfor (seq 0 (length (v0 :: val'))) (dense_body keep (v0 :: val') (length v0))
       (lil_new (length (v0 :: val')) (length v0))).
  change (sdense keep (v0 :: val')) with
    (if forallb (fun r => length r =? length v0) (v0 :: val') then
        Ok (SM (length (v0 :: val')) (length v0)
              (fun i j => match nth_error (nth i (v0 :: val') []) j with
                          | Some v => if keep v then Some v else None
                          | None => None
                          end))
      else Throw DimensionException).
  remember (v0 :: val') as val eqn:Hval. clear Hval val'.
  set (M0 := lil_new (length val) (length v0) : lil T).
  assert (D0 : forall i, nth i (data M0) [] = []).
  { intro i. unfold M0, lil_new; simpl data. rewrite nth_repeat'. ltb; auto. }
  assert (L0 : length (data M0) = length val) by apply repeat_length.
  destruct (forallb (fun r => length r =? length v0) val) eqn:F.
  - rewrite forallb_forall in F.
    assert (Hlen : forall i, i < length val -> length (nth i val []) = length v0).
    { intros i Hi. apply Nat.eqb_eq, F. apply nth_In; auto. }
    destruct (rows_loop_full (dense_body keep val (length v0))
                (fun i => dense_row keep 0 (nth i val [])) M0) as (M & E & W & Rr & Cc & G).
    + apply lil_new_wf.
    + intros i M Hi _ _ HL HN. apply dense_body_ok; auto. rewrite HN; auto.
    + intros i Hi. apply dense_row_wf. simpl. rewrite Hlen by auto. auto.
    + change (nrows M0) with (length val) in *. rewrite E. simpl. split; [auto|].
      split; [auto|]. split; [auto|]. intros i j. simpl.
      destruct (Nat.lt_ge_cases i (length val)) as [Hi|Hi].
      * rewrite G by auto. rewrite dense_row_get by lia. rewrite Nat.sub_0_r. auto.
      * rewrite mget_oob by (auto; lia). rewrite nth_overflow by auto. destruct j; auto.
  - destruct (forallb_false_first _ _ [] F) as (p & P1 & P2 & P3).
    destruct (rows_loop (dense_body keep val (length v0))
                (fun i => dense_row keep 0 (nth i val [])) M0 p) as (M & E & _).
    + lia.
    + intros i M Hi _ _ HL HN. apply dense_body_ok; [lia|lia| |].
      * rewrite HN; auto.
      * apply Nat.eqb_eq, P3; auto.
    + replace (length val) with (p + S (length val - S p)) by lia.
      rewrite seq_app, mfor_app, E. simpl. unfold dense_body at 1.
      rewrite (vat_ok val p []) by auto. simpl. rewrite P2. simpl. auto.
Qed.

Lemma mrel_new {T} nr nc : mrel (@lil_new T nr nc) (SM nr nc (fun _ _ => None)).
Proof. split; [apply lil_new_wf|]. split; [auto|]. split; [auto|]. intros; apply mget_new. Qed.

Lemma inb_oob {T} (M : lil T) S i j : mrel M S -> inb S i j = negb (oob M i j).
Proof.
  intros (_ & Hr & Hc & _). unfold inb, oob. rewrite Hr, Hc. ltb; auto.
Qed.

Lemma setElement_merge_rel {T} f (M : lil T) S i j v :
  mrel M S ->
  rres mrel (lil_setElement_merge f M i j v)
    (if inb S i j then Ok (scombine f S i j v) else Throw IndexOutOfBoundsException).
Proof.
  intro H. rewrite (inb_oob M S i j H). destruct H as (W & Hr & Hc & G).
  destruct (oob M i j) eqn:O; simpl.
  - apply oob_true in O. destruct (element_oob f M i j v O) as (_ & _ & E & _). rewrite E. simpl; auto.
  - apply oob_spec in O. destruct O as [Oi Oj].
    destruct (setElement_merge_ok f M i j v W Oi Oj) as (M' & E & W' & R' & C' & G').
    rewrite E. simpl. split; [auto|]. split; [simpl; congruence|]. split; [simpl; congruence|].
    intros a b. rewrite G'. simpl. unfold supd. rewrite !G. auto.
Qed.

Lemma setElement_rel {T} (M : lil T) S i j v :
  mrel M S ->
  rres mrel (lil_setElement M i j v)
    (if inb S i j then Ok (sset S i j (Some v)) else Throw IndexOutOfBoundsException).
Proof.
  intro H. pose proof (setElement_merge_rel (fun _ new => new) M S i j v H) as Q.
  unfold lil_setElement. unfold scombine in Q. destruct (inb S i j); auto.
  destruct (sm_map S i j); auto.
Qed.

Lemma removeElement_rel {T} (M : lil T) S i j :
  mrel M S ->
  rres mrel (lil_removeElement M i j)
    (if inb S i j then Ok (sset S i j None) else Throw IndexOutOfBoundsException).
Proof.
  intro H. rewrite (inb_oob M S i j H). destruct H as (W & Hr & Hc & G).
  destruct (oob M i j) eqn:O; simpl.
  - unfold lil_removeElement. rewrite O. simpl; auto.
  - apply oob_spec in O. destruct O as [Oi Oj].
    destruct (removeElement_ok M i j W Oi Oj) as (M' & E & W' & R' & C' & G').
    rewrite E. simpl. split; [auto|]. split; [simpl; congruence|]. split; [simpl; congruence|].
    intros a b. rewrite G'. simpl. unfold supd. rewrite !G. auto.
Qed.

Lemma build_rel {T} dup ts : forall (M : lil T) S,
  mrel M S -> mrel (fst (lil_build dup M ts)) (fst (sbuild dup S ts)) /\
              snd (lil_build dup M ts) = snd (sbuild dup S ts).
Proof.
  induction ts as [|[[i j] v] ts IH]; intros M S H; simpl; auto.
  pose proof (setElement_merge_rel dup M S i j v H) as Q.
  destruct (lil_setElement_merge dup M i j v), (inb S i j); simpl in Q; try tauto; simpl; auto.
  subst; auto.
Qed.

Theorem mstep_same {T} (eqb : T -> T -> bool) st st' c :
  (is_meq c = true -> forall a b, eqb a b = true <-> a = b) ->
  Forall2 mrel st st' -> same mrel (mstep eqb st c) (sstep eqb st' c).
Proof.
  intros He F. destruct c; cbn [mstep sstep].
  - apply push_same; auto. apply mrel_new.
  - apply mon_same; auto. intros x y H. apply push_same; auto.
  - apply push_same; auto. apply lil_dense_rel.
  - apply push_same; auto. apply lil_dense_rel.
  - apply mon_same; auto. intros x y Hx. apply mon_same; auto. intros x' y' Hx'.
    apply put_same; auto. destruct Hx as (_ & Hr & Hc & _).
    destruct Hx' as (W & Hr' & Hc' & G). unfold lil_assign. rewrite Hr, Hc, Hr', Hc'.
    destruct (Nat.eqb_spec (sm_nr y) (sm_nr y')), (Nat.eqb_spec (sm_nc y) (sm_nc y')); simpl; auto.
    replace (mkLil (sm_nr y) (sm_nc y) (nvals x') (data x')) with x'
      by (destruct x'; simpl in *; congruence).
    split; auto.
  - apply mon_same; auto. intros x y Hx. apply mon_same; auto. intros x' y' Hx'.
    apply ans_same; auto. rewrite (lil_eqb_seqm eqb x x' y y'); auto.
  - apply mon_same; auto. intros x y Hx.
    destruct (length is =? length js), (length is =? length vs); simpl;
      try (apply ans_same; auto; fail).
    destruct (build_rel dup (zip3 is js vs) x y Hx) as [B1 B2].
    destruct (lil_build dup x (zip3 is js vs)), (sbuild dup y (zip3 is js vs)); simpl in *.
    split; simpl; [apply Forall2_upd; auto|]. congruence.
  - apply mon_same; auto. intros x y (W & Hr & Hc & G). apply put_same; auto. simpl.
    rewrite lil_clear_eq by (apply wfm_len; auto). rewrite Hr, Hc. apply mrel_new.
  - apply mon_same; auto. intros x y (W & Hr & Hc & G). apply ans_same; auto.
    destruct W as [_ ->]. rewrite <- Hr, <- Hc. do 3 f_equal. apply mcount_ext.
    intros; rewrite G; auto.
  - apply mon_same; auto. intros x y (W & Hr & Hc & G).
    destruct ((nr =? 0) || (nc =? 0)); [apply ans_same; auto|]. apply put_same; auto. simpl.
    destruct (resize_ok x nr nc W) as (W' & R' & C' & G').
    split; [auto|]. split; [auto|]. split; [auto|]. intros i j. rewrite G', G. auto.
  - apply mon_same; auto. intros x y H. apply ans_same; auto. rewrite (inb_oob x y i j H).
    destruct H as (W & Hr & Hc & G). destruct (oob x i j) eqn:O; simpl.
    + unfold lil_hasElement. rewrite O. auto.
    + apply oob_spec in O. destruct O. rewrite hasElement_ok, G by auto. auto.
  - apply mon_same; auto. intros x y H. apply put_same; auto. apply setElement_rel; auto.
  - apply mon_same; auto. intros x y H. apply put_same; auto. apply setElement_merge_rel; auto.
  - apply mon_same; auto. intros x y H. apply put_same; auto. apply removeElement_rel; auto.
  - apply mon_same; auto. intros x y H. apply ans_same; auto. rewrite (inb_oob x y i j H).
    destruct H as (W & Hr & Hc & G). destruct (oob x i j) eqn:O; simpl.
    + unfold lil_extractElement. rewrite O. auto.
    + apply oob_spec in O. destruct O. rewrite extractElement_ok, G by auto.
      destruct (sm_map y i j); auto.
  - apply mon_same; auto. intros x y H. apply ans_same; auto.
    rewrite (extractTuples_stuples x y H). auto.
Qed.

Theorem mrun_same {T} (eqb : T -> T -> bool) cs :
  (forall c, In c cs -> is_meq c = true -> forall a b, eqb a b = true <-> a = b) ->
  Forall2 mrel (fst (run (mstep eqb) [] cs)) (fst (run (sstep eqb) [] cs)) /\
  snd (run (mstep eqb) [] cs) = snd (run (sstep eqb) [] cs).
Proof.
  intro He. apply (run_same mrel _ _ (fun c => is_meq c = true -> forall a b, eqb a b = true <-> a = b)); auto.
  - intros; apply mstep_same; auto.
  - apply Forall_forall; auto.
Qed.

(** States stay well formed whatever [eqb] is. *)
Lemma mstep_wf {T} (eqb : T -> T -> bool) st st' c :
  Forall2 mrel st st' -> Forall2 mrel (fst (mstep eqb st c)) (fst (sstep eqb st' c)).
Proof.
  intro F. destruct (is_meq c) eqn:E.
  - destruct c; try discriminate. simpl.
    assert (Q : fst (mstep eqb st (MEq a b)) = st /\ fst (sstep eqb st' (MEq a b)) = st').
    { simpl. unfold mon. split.
      - destruct (nth_error st a); auto. destruct (nth_error st b); auto.
      - destruct (nth_error st' a); auto. destruct (nth_error st' b); auto. }
    destruct Q as [Q1 Q2]. simpl in Q1, Q2. rewrite Q1, Q2. auto.
  - apply mstep_same; auto. congruence.
Qed.

Lemma mrun_wf {T} (eqb : T -> T -> bool) cs : forall st st',
  Forall2 mrel st st' -> Forall2 mrel (fst (run (mstep eqb) st cs)) (fst (run (sstep eqb) st' cs)).
Proof.
  induction cs as [|c cs IH]; intros st st' F; simpl; auto.
  pose proof (mstep_wf eqb st st' c F) as H.
  destruct (mstep eqb st c) as [s1 r1], (sstep eqb st' c) as [s2 r2]; simpl in *.
  specialize (IH s1 s2 H). destruct (run (mstep eqb) s1 cs), (run (sstep eqb) s2 cs); auto.
Qed.

(** ** Vectors *)
Section Vec.
Context {T : Type} (dflt : T) (eqb : T -> T -> bool).

Definition vrel0 (w : bvec T) (S : svector T) : Prop :=
  wfv0 w /\ vsize w = sv_n S /\ forall i, vget w i = sv_map S i.
Definition vrel (w : bvec T) (S : svector T) : Prop :=
  wfv w /\ vsize w = sv_n S /\ forall i, vget w i = sv_map S i.

Lemma vrel_0 w S : vrel w S -> vrel0 w S.
Proof. intros ((W & _) & H); split; auto. Qed.

Lemma vec_fill_ok n v : wfv0 (@vec_fill T n v) /\
  forall i, vget (vec_fill n v) i = if i <? n then Some v else None.
Proof.
  split; [split; apply repeat_length|]. intro i. unfold vget, vec_fill; simpl.
  rewrite !nth_error_repeat'. ltb; auto.
Qed.

Lemma vec_assign_dense_ok (w : bvec T) vs :
  wfv0 w -> vsize w = length vs ->
  exists w', vec_assign_dense w vs = Ok w' /\ wfv w' /\ vsize w' = length vs /\
    forall i, vget w' i = nth_error vs i.
Proof.
  intros W E. unfold vec_assign_dense. rewrite E, Nat.eqb_refl. simpl negb. cbv iota.
  destruct (mfor_seq_inv (fun k w' => wfv0 w' /\ vsize w' = length vs /\
      forall i, i < k -> vget w' i = nth_error vs i)
     (fun idx w => v <- vat vs idx ;; vec_store w idx v (vnvals w)) (length vs) w)
    as (w' & E' & W' & S' & G').
  - split; [auto|]. split; [auto|]. lia.
  - intros i s Hi (Ws & Ss & Gs). destruct (nth_error vs i) as [v|] eqn:Ev.
    2:{ apply nth_error_None in Ev; lia. }
    unfold vat. rewrite Ev. simpl.
    destruct (vec_store_ok s i v (vnvals s) Ws ltac:(lia)) as (s' & Es & Ws' & Ss' & _ & Gs').
    exists s'. split; [auto|]. split; [auto|]. split; [lia|].
    intros k Hk. rewrite Gs'. ltb; [congruence|]. apply Gs. lia.
  - rewrite E'. simpl. eexists; split; [reflexivity|].
    assert (G : forall i, vget (mkVec (vsize w') (Z.of_nat (vsize w')) (vvals w') (vbits w')) i
                          = nth_error vs i).
    { intro i. change (vget w' i = nth_error vs i).
      destruct (Nat.lt_ge_cases i (length vs)); auto.
      rewrite vget_oob by (auto; lia). symmetry. apply nth_error_None; auto. }
    split; [|split; auto]. split; [exact W'|]. rewrite vcount_all; [auto|].
    intros i Hi. rewrite G. simpl in Hi. destruct (nth_error vs i) eqn:Ev; auto.
    apply nth_error_None in Ev. lia.
Qed.

Lemma vtuples_rel w S : vrel0 w S ->
  res_map (fun r => ATuples (vtuples r)) (vec_extractTuples w) = Ok (ATuples (svtuples S)).
Proof.
  intros (W & En & G). unfold vec_extractTuples.
  destruct (getContents_ok w W) as (c & E & Wc & Gc).
  rewrite E. unfold res_map. simpl. do 2 f_equal. unfold vtuples, svtuples.
  rewrite (row_positions c 0 (vsize w) Wc), map_flat_map, Nat.sub_0_r, En.
  apply flat_map_ext_in. intros i _. rewrite Gc, G. destruct (sv_map S i); auto.
Qed.

Lemma seqv_spec (A B : svector T) :
  (forall a b, eqb a b = true <-> a = b) ->
  (seqv eqb A B = true <-> sv_n A = sv_n B /\ forall i, i < sv_n A -> sv_map A i = sv_map B i).
Proof.
  intro eqb_spec. unfold seqv. rewrite andb_true_iff, Nat.eqb_eq, forallb_forall. split.
  - intros [E1 E2]. split; auto. intros i Hi. rewrite <- oeqb_spec by eauto. apply E2.
    apply in_seq; lia.
  - intros [E1 E2]. split; auto. intros i Hi. apply in_seq in Hi. apply oeqb_spec; auto.
    apply E2; lia.
Qed.

Lemma vec_eqb_rel u v Su Sv :
  (forall a b, eqb a b = true <-> a = b) ->
  vrel u Su -> vrel v Sv -> vec_eqb eqb u v = Ok (seqv eqb Su Sv).
Proof.
  intros eqb_spec ((Wu & Nu) & Eu & Gu) ((Wv & Nv) & Ev & Gv).
  destruct (vec_eqb_spec eqb u v eqb_spec Wu Wv) as (b & -> & Hb). f_equal.
  apply Bool.eq_iff_eq_true. rewrite Hb, seqv_spec, Nu, Nv, Eu, Ev by auto. split.
  - intros (H1 & _ & H3). split; auto. intros i Hi. rewrite <- Gu, <- Gv. auto.
  - intros (H1 & H2). split; [auto|]. rewrite H1 in *. split.
    + f_equal. apply vcount_ext. intros i Hi. rewrite Gu, Gv, H2; auto.
    + intros i Hi. rewrite Gu, Gv; auto.
Qed.

Lemma combine_fst {A B} (l : list A) (l' : list B) :
  length l = length l' -> map fst (combine l l') = l.
Proof. revert l'; induction l; intros [|b l']; simpl; intro H; try lia; auto. f_equal; auto. Qed.

Lemma Forall_combine_fst (P : nat -> Prop) is (vs : list T) :
  length is = length vs -> (Forall (fun t => P (fst t)) (combine is vs) <-> Forall P is).
Proof.
  intro H. rewrite <- (combine_fst is vs H) at 2. rewrite Forall_map. reflexivity.
Qed.

(** Both simulations at once: [strict] also tracks the count. *)
Definition vr (strict : bool) := if strict then vrel else vrel0.

Lemma vr_0 b w S : vr b w S -> vrel0 w S.
Proof. destruct b; simpl; auto. apply vrel_0. Qed.

Lemma vr_intro b w S : wfv0 w -> (b = true -> wfv w) -> vsize w = sv_n S ->
  (forall i, vget w i = sv_map S i) -> vr b w S.
Proof. intros. destruct b; simpl; split; auto. Qed.

Lemma vr_wf b w S : vr b w S -> b = true -> wfv w.
Proof. intros H ->. apply H. Qed.

Theorem vstep_same (b : bool) st st' c :
  (if b then vclean_call c else velem_call c) ->
  (is_veq c = true -> forall a b, eqb a b = true <-> a = b) ->
  Forall2 (vr b) st st' -> same (vr b) (vstep dflt eqb st c) (svstep eqb st' c).
Proof.
  intros P He F.
  destruct c; cbn [vstep svstep].
  - apply push_same; auto. destruct (Nat.eqb_spec n 0) as [->|Hn]; [simpl; auto|].
    destruct (vec_new_ok dflt n Hn) as (w & E & W & S & G). rewrite E. simpl.
    apply vr_intro; auto. apply W.
  - apply push_same; auto. destruct (vec_fill_ok n v) as [W G]. simpl.
    apply vr_intro; auto. destruct b; [contradiction|discriminate].
  - apply push_same; auto. destruct vs as [|v0 vs']; [simpl; auto|].
    destruct (vec_dense_ok (v0 :: vs')) as (w & E & W & S & G); [discriminate|].
    rewrite E. simpl. apply vr_intro; auto. apply W.
  - apply push_same; auto. destruct vs as [|v0 vs']; [simpl; auto|].
    destruct (vec_dense_zero_ok dflt (fun v => negb (eqb v zero)) (v0 :: vs'))
      as (w & E & W & S & G); [discriminate|].
    rewrite E. cbn [rres]. apply vr_intro; [apply W|auto|auto|].
    intro i. rewrite G. cbn [sv_map]. destruct (nth_error (v0 :: vs') i) as [v|]; auto.
    destruct (eqb v zero); auto.
  - apply mon_same; auto. intros x y H. apply push_same; auto.
  - apply mon_same; auto. intros x y Hx. apply mon_same; auto. intros x' y' Hx'.
    apply put_same; auto. destruct (vr_0 _ _ _ Hx) as (_ & E & _).
    destruct (vr_0 _ _ _ Hx') as (_ & E' & _). unfold vec_assign. rewrite E, E'.
    destruct (Nat.eqb_spec (sv_n y) (sv_n y')) as [En|]; simpl; auto.
    replace (mkVec (sv_n y) (vnvals x') (vvals x') (vbits x')) with x'
      by (destruct x'; simpl in *; congruence). auto.
  - apply mon_same; auto. intros x y Hx. apply put_same; auto.
    destruct (vr_0 _ _ _ Hx) as (W & E & _). destruct (Nat.eqb_spec (sv_n y) (length vs)) as [En|Nn].
    + destruct (vec_assign_dense_ok x vs W) as (w' & E' & W' & S' & G'); [congruence|].
      rewrite E'. simpl. apply vr_intro; auto. apply W'.
    + unfold vec_assign_dense. rewrite E. destruct (Nat.eqb_spec (length vs) (sv_n y)); [lia|].
      simpl; auto.
  - destruct b; [|contradiction].
    apply mon_same; auto. intros x y Hx. apply mon_same; auto. intros x' y' Hx'.
    apply ans_same; auto. rewrite (vec_eqb_rel x x' y y'); auto.
  - apply mon_same; auto. intros x y Hx. destruct (vr_0 _ _ _ Hx) as (W & E & G).
    destruct (Nat.eqb_spec (length is) (length vs)) as [El|]; simpl; [|apply ans_same; auto].
    apply put_same; auto. rewrite <- E.
    destruct (forallb (fun i => i <? vsize x) is) eqn:Fb.
    + assert (FF : Forall (fun t => fst t < vsize x) (combine is vs)).
      { apply (Forall_combine_fst (fun i => i < vsize x)); auto. apply Forall_forall. intros i Hi.
        rewrite forallb_forall in Fb. apply Nat.ltb_lt; auto. }
      destruct (vec_build_ok dflt dup x (combine is vs) FF) as (w' & E' & W' & S' & N' & G').
      rewrite E'. simpl. apply vr_intro; auto.
      intros ->. eapply vec_build_wf; eauto. rewrite combine_fst; auto.
    + rewrite vec_build_throw; [simpl; auto|].
      intro FF. apply (Forall_combine_fst (fun i => i < vsize x)) in FF; auto.
      assert (Ft : forallb (fun i => i <? vsize x) is = true).
      { apply forallb_forall. intros i Hi. rewrite Forall_forall in FF. apply Nat.ltb_lt; auto. }
      congruence.
  - apply mon_same; auto. intros x y Hx. destruct (vr_0 _ _ _ Hx) as (W & E & G).
    apply put_same; auto. destruct (vec_clear_wf x W) as [Wc Gc]. simpl.
    apply vr_intro; auto. apply Wc.
  - destruct b; [|contradiction]. apply mon_same; auto. intros x y ((W & N) & E & G).
    apply ans_same; auto. rewrite N, E. do 3 f_equal. apply vcount_ext. intros; rewrite G; auto.
  - apply mon_same; auto. intros x y Hx. destruct (vr_0 _ _ _ Hx) as (W & E & G).
    destruct (Nat.eqb_spec n 0); [apply ans_same; auto|]. apply put_same; auto.
    destruct (vec_resize_ok dflt x n W) as (W' & S' & G' & Wn). simpl.
    apply vr_intro; auto.
    + intro Hb. apply Wn. eapply vr_wf; eauto.
    + intro i. rewrite G', G. auto.
  - apply mon_same; auto. intros x y Hx. destruct (vr_0 _ _ _ Hx) as (W & E & G).
    apply ans_same; auto. rewrite vec_hasElement_ok by auto. rewrite E, G.
    destruct (i <? sv_n y); auto.
  - apply mon_same; auto. intros x y Hx. destruct (vr_0 _ _ _ Hx) as (W & E & G).
    apply put_same; auto. rewrite <- E. destruct (Nat.ltb_spec i (vsize x)) as [Hi|Hi].
    + destruct (vec_setElement_ok x i v W Hi) as (w' & E' & W' & S' & N' & G' & Wn).
      rewrite E'. simpl. apply vr_intro; auto.
      * intro Hb. apply Wn. eapply vr_wf; eauto.
      * simpl; congruence.
      * intro k0. rewrite G'. simpl. unfold svupd. rewrite G. auto.
    + unfold vec_setElement. ltb. simpl; auto.
  - apply mon_same; auto. intros x y Hx. destruct (vr_0 _ _ _ Hx) as (W & E & G).
    apply put_same; auto. rewrite <- E. destruct (Nat.ltb_spec i (vsize x)) as [Hi|Hi].
    + destruct (vec_removeElement_ok x i W Hi) as (w' & E' & W' & S' & N' & G' & Wn).
      rewrite E'. simpl. apply vr_intro; auto.
      * intro Hb. apply Wn. eapply vr_wf; eauto.
      * simpl; congruence.
      * intro k0. rewrite G'. simpl. unfold svupd. rewrite G. auto.
    + unfold vec_removeElement. ltb. simpl; auto.
  - apply mon_same; auto. intros x y Hx. destruct (vr_0 _ _ _ Hx) as (W & E & G).
    apply ans_same; auto. rewrite vec_extractElement_ok by auto. rewrite E, G.
    destruct (i <? sv_n y); auto. destruct (sv_map y i); auto.
  - apply mon_same; auto. intros x y Hx. apply ans_same; auto.
    apply vtuples_rel. eapply vr_0; eauto.
Qed.

Theorem vrun_same (b : bool) cs :
  Forall (fun c => if b then vclean_call c else velem_call c) cs ->
  (forall c, In c cs -> is_veq c = true -> forall a b, eqb a b = true <-> a = b) ->
  Forall2 (vr b) (fst (run (vstep dflt eqb) [] cs)) (fst (run (svstep eqb) [] cs)) /\
  snd (run (vstep dflt eqb) [] cs) = snd (run (svstep eqb) [] cs).
Proof.
  intros FP He. apply (run_same (vr b) _ _
    (fun c => (if b then vclean_call c else velem_call c) /\
              (is_veq c = true -> forall a b, eqb a b = true <-> a = b))); auto.
  - intros st st' c [H1 H2]; apply vstep_same; auto.
  - rewrite Forall_forall in *. intros c Hc. split; [apply FP; exact Hc|apply (He c Hc)].
Qed.

(** States: [VEq] never changes them. *)
Lemma vstep_wf (b : bool) st st' c :
  match c with VNvals _ | VEq _ _ => True | _ => if b then vclean_call c else velem_call c end ->
  Forall2 (vr b) st st' -> Forall2 (vr b) (fst (vstep dflt eqb st c)) (fst (svstep eqb st' c)).
Proof.
  intros P F.
  assert (Q : match c with VNvals _ | VEq _ _ => False | _ => True end \/
              (fst (vstep dflt eqb st c) = st /\ fst (svstep eqb st' c) = st')).
  { destruct c; auto; right; simpl; unfold mon; split.
    - destruct (nth_error st a); auto. destruct (nth_error st b0); auto.
    - destruct (nth_error st' a); auto. destruct (nth_error st' b0); auto.
    - destruct (nth_error st k); auto.
    - destruct (nth_error st' k); auto. }
  destruct Q as [Q|[-> ->]]; auto.
  apply vstep_same; auto; destruct c; auto; try contradiction; discriminate.
Qed.

Lemma vrun_wf (b : bool) cs : forall st st',
  Forall (fun c => match c with VNvals _ | VEq _ _ => True
                              | _ => if b then vclean_call c else velem_call c end) cs ->
  Forall2 (vr b) st st' ->
  Forall2 (vr b) (fst (run (vstep dflt eqb) st cs)) (fst (run (svstep eqb) st' cs)).
Proof.
  induction cs as [|c cs IH]; intros st st' P F; simpl; auto.
  inversion P as [|? ? Pc P']; subst.
  pose proof (vstep_wf b st st' c Pc F) as H.
  destruct (vstep dflt eqb st c) as [s1 r1], (svstep eqb st' c) as [s2 r2]; simpl in *.
  specialize (IH s1 s2 P' H). destruct (run (vstep dflt eqb) s1 cs), (run (svstep eqb) s2 cs); auto.
Qed.
End Vec.
