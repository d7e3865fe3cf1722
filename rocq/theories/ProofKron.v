(** kronecker computes the Kronecker product. *)
From Coq Require Import Lia Sorting.Sorted.
From Verif Require Import Base ModelLil ModelVec ModelHelpers ModelViews ModelElem Spec SpecOps.
From Verif Require Import ProofBase ProofRow ProofLil ProofVec ProofCalls ProofWrite ProofViews ProofMul
  ProofElem.

(** ** Loops that append elements to rows, seen as one list of (row, element) events *)
Lemma mfor_flat_map {I J S} (g : I -> list J) (l : list I) (body : J -> S -> res S) s :
  mfor (flat_map g l) body s = mfor l (fun i s => mfor (g i) body s) s.
Proof.
  revert s. induction l as [|i l IH]; intro s; simpl; auto.
  rewrite mfor_app. destruct (mfor (g i) body s); simpl; auto.
Qed.

Lemma mfor_map {I J S} (g : I -> J) (l : list I) (body : J -> S -> res S) s :
  mfor (map g l) body s = mfor l (fun i s => body (g i) s) s.
Proof. revert s. induction l as [|i l IH]; intro s; simpl; auto. destruct (body (g i) s); simpl; auto. Qed.

Section Events.
Context {T : Type}.
Implicit Type E : list (nat * (nat * T)).

Definition push_ev (e : nat * (nat * T)) (M : lil T) : res (lil T) := pushrow M (fst e) (snd e).
Definition ev_row E i : row T := map snd (filter (fun e => fst e =? i) E).
Definition ev_lt (e1 e2 : nat * (nat * T)) : Prop :=
  fst e1 = fst e2 -> fst (snd e1) < fst (snd e2).

Lemma events_loop E : forall M : lil T,
  (forall e, In e E -> fst e < length (data M)) ->
  exists M', mfor E push_ev M = Ok M' /\ length (data M') = length (data M) /\
    nrows M' = nrows M /\ ncols M' = ncols M /\
    forall i, i < length (data M) -> nth i (data M') [] = nth i (data M) [] ++ ev_row E i.
Proof.
  induction E as [|[k p] E IH]; intros M H; simpl.
  - exists M. repeat split; auto. intros. unfold ev_row; simpl. rewrite app_nil_r; auto.
  - unfold push_ev at 1. simpl. rewrite pushrow_ok by (apply (H (k, p)); left; auto). cbn [bind].
    pose proof (H (k, p) (or_introl eq_refl)) as Hk. simpl in Hk.
    assert (L : length (data (setraw M k (nth k (data M) [] ++ [p]))) = length (data M))
      by (simpl; apply upd_length).
    destruct (IH (setraw M k (nth k (data M) [] ++ [p]))) as (M' & E' & L' & R' & C' & G').
    { intros e He. rewrite L. apply H. right; auto. }
    exists M'. split; [auto|]. split; [congruence|]. split; [auto|]. split; [auto|].
    intros i Hi. rewrite G' by lia. unfold ev_row. simpl. rewrite nth_upd by auto.
    destruct (Nat.eqb_spec k i).
    + subst. rewrite Nat.eqb_refl. simpl. rewrite <- app_assoc. reflexivity.
    + destruct (Nat.eqb_spec i k); [congruence|]. reflexivity.
Qed.

Lemma ev_row_wf E nc i :
  StronglySorted ev_lt E -> (forall e, In e E -> fst (snd e) < nc) -> wfrow 0 nc (ev_row E i).
Proof.
  intros S B.
  assert (G : forall lo, (forall e, In e E -> fst e = i -> lo <= fst (snd e)) ->
    wfrow lo nc (ev_row E i)).
  { induction S as [|[k [j v]] E S IH F]; intros lo L; [exact I|].
    unfold ev_row. simpl. destruct (Nat.eqb_spec k i).
    - subst k. simpl. split.
      + split; [apply (L (i, (j, v)))|apply (B (i, (j, v)))]; simpl; auto.
      + apply IH; [intros; apply B; right; auto|].
        intros e He Hi. rewrite Forall_forall in F. specialize (F e He). unfold ev_lt in F.
        simpl in F. symmetry in Hi. specialize (F Hi). lia.
    - apply IH; [intros; apply B; right; auto|]. intros; apply L; auto. right; auto. }
  apply G. intros; lia.
Qed.

Lemma ev_row_In E i p : In p (ev_row E i) <-> In (i, p) E.
Proof.
  unfold ev_row. rewrite in_map_iff. split.
  - intros ([k q] & Hq & Hf). apply filter_In in Hf. destruct Hf as [Hf Hk]. simpl in *.
    apply Nat.eqb_eq in Hk. subst; auto.
  - intro H. exists (i, p). split; auto. apply filter_In. split; auto. simpl. apply Nat.eqb_refl.
Qed.

Lemma events_gives E nr nc (f : smat T) :
  (forall e, In e E -> fst e < nr /\ fst (snd e) < nc) -> StronglySorted ev_lt E ->
  (forall i j v, i < nr -> j < nc -> (In (i, (j, v)) E <-> f i j = Some v)) ->
  tgives nr nc f (mfor E push_ev (lil_new nr nc)).
Proof.
  intros B S Hf.
  assert (L0 : length (data (@lil_new T nr nc)) = nr) by (simpl; apply repeat_length).
  destruct (events_loop E (lil_new nr nc)) as (M & EM & L & R & C & G).
  { intros e He. rewrite L0. apply B; auto. }
  rewrite EM. apply (tgives_rows nr nc M (ev_row E)).
  - congruence.
  - intros i Hi. rewrite G by lia. simpl. rewrite nth_repeat'. destruct (i <? nr); reflexivity.
  - intros i Hi. apply ev_row_wf; auto. intros. apply B; auto.
  - intros i j Hi Hj.
    assert (W : wfrow 0 nc (ev_row E i)) by (apply ev_row_wf; auto; intros; apply B; auto).
    destruct (rget (ev_row E i) j) as [v|] eqn:Ev.
    + apply (rget_In _ _ _ _ _ W) in Ev. apply ev_row_In in Ev. apply Hf in Ev; auto.
    + destruct (f i j) as [v|] eqn:Ef; auto. apply Hf in Ef; auto.
      apply ev_row_In in Ef. apply (rget_In _ _ _ _ _ W) in Ef. congruence.
Qed.
End Events.

(** ** Sorted event lists *)
Lemma sorted_app {X} (R : X -> X -> Prop) l1 l2 :
  StronglySorted R l1 -> StronglySorted R l2 ->
  (forall x y, In x l1 -> In y l2 -> R x y) -> StronglySorted R (l1 ++ l2).
Proof.
  induction 1 as [|x l1 S IH F]; intros S2 H; simpl; auto.
  constructor.
  - apply IH; auto. intros; apply H; auto. right; auto.
  - apply Forall_app. split; auto. apply Forall_forall. intros; apply H; auto. left; auto.
Qed.

Lemma sorted_flat_map {X Y} (Q : X -> X -> Prop) (R : Y -> Y -> Prop) (g : X -> list Y) l :
  StronglySorted Q l -> (forall x, In x l -> StronglySorted R (g x)) ->
  (forall x x' y y', In x l -> In x' l -> Q x x' -> In y (g x) -> In y' (g x') -> R y y') ->
  StronglySorted R (flat_map g l).
Proof.
  induction 1 as [|x l S IH F]; intros HS HR; simpl; [constructor|].
  apply sorted_app.
  - apply HS; left; auto.
  - apply IH; intros; [apply HS; right; auto|]. eapply HR; eauto; right; auto.
  - intros y y' Hy Hy'. apply in_flat_map in Hy'. destruct Hy' as (x' & Hx' & Hy').
    rewrite Forall_forall in F. eapply HR; eauto; [left; auto|right; auto].
Qed.

Lemma sorted_map {X Y} (Q : X -> X -> Prop) (R : Y -> Y -> Prop) (g : X -> Y) l :
  StronglySorted Q l ->
  (forall x x', In x l -> In x' l -> Q x x' -> R (g x) (g x')) ->
  StronglySorted R (map g l).
Proof.
  induction 1 as [|x l S IH F]; intro HR; simpl; [constructor|]. constructor.
  - apply IH. intros; apply HR; auto; right; auto.
  - rewrite Forall_forall in F. apply Forall_forall. intros y Hy. apply in_map_iff in Hy.
    destruct Hy as (x' & <- & Hx'). apply HR; auto; [left|right]; auto.
Qed.

Lemma sorted_seq b n : StronglySorted lt (seq b n).
Proof.
  revert b. induction n as [|n IH]; intro b; simpl; constructor; auto.
  apply Forall_forall. intros k Hk. apply in_seq in Hk. lia.
Qed.

Definition fst_lt {X} (p q : nat * X) : Prop := fst p < fst q.

Lemma sorted_row {X} (r : row X) lo hi : wfrow lo hi r -> StronglySorted fst_lt r.
Proof.
  revert lo. induction r as [|[k v] r IH]; simpl; intros lo W; constructor.
  - eapply IH; apply W.
  - apply Forall_forall. intros [k' v'] H. destruct W as [_ W].
    pose proof (wfrow_In _ _ _ _ _ W H). unfold fst_lt; simpl. lia.
Qed.

Lemma pos_inj a b a' b' n : a * n + b = a' * n + b' -> b < n -> b' < n -> a = a' /\ b = b'.
Proof. intros. assert (a = a') by nia. subst. split; auto. lia. Qed.
Lemma pos_lt a b a' b' n : a < a' -> b < n -> a * n + b < a' * n + b'.
Proof. nia. Qed.
Lemma pos_bound a b na n : a < na -> b < n -> a * n + b < na * n.
Proof. nia. Qed.

Lemma In_mget {T} (M : lil T) i j v : wfm M -> (In (j, v) (nth i (data M) []) <-> mget M i j = Some v).
Proof.
  intro W. unfold mget. symmetry. apply (rget_In _ 0 (ncols M)). apply wfm_row; auto.
Qed.

Lemma skron_mem {TA TB TT} (op : TA -> TB -> TT) (A : smat TA) (B : smat TB) rB cB i j v :
  (forall ib jb y, B ib jb = Some y -> ib < rB /\ jb < cB) ->
  ((exists ia ja ib jb x y, A ia ja = Some x /\ B ib jb = Some y /\
      i = ia * rB + ib /\ j = ja * cB + jb /\ v = op x y) <->
   skron op rB cB A B i j = Some v).
Proof.
  intro HB. unfold skron. split.
  - intros (ia & ja & ib & jb & x & y & Ha & Hb & -> & -> & ->).
    destruct (HB _ _ _ Hb).
    rewrite !(Nat.add_comm (_ * _)).
    rewrite !Nat.div_add, !Nat.mod_add, !Nat.div_small, !Nat.mod_small by lia. simpl.
    rewrite Ha, Hb. reflexivity.
  - intro H. destruct (A (i / rB) (j / cB)) as [x|] eqn:Ea; [|discriminate].
    destruct (B (i mod rB) (j mod cB)) as [y|] eqn:Eb; [|discriminate]. injection H as <-.
    destruct (HB _ _ _ Eb). exists (i / rB), (j / cB), (i mod rB), (j mod cB), x, y.
    split; [auto|]. split; [auto|].
    split; [|split]; auto; rewrite Nat.mul_comm; apply Nat.div_mod; lia.
Qed.

Lemma kron_none {TA TB TT} (op : TA -> TB -> TT) (A : lil TA) (B : lil TB) :
  wfm A -> wfm B -> has_vals (nvals A) && has_vals (nvals B) = false ->
  (forall i j, mget A i j = None) \/ (forall i j, mget B i j = None).
Proof.
  intros WA WB H. apply andb_false_iff in H.
  destruct H; [left|right]; intros; apply has_vals_false_m; auto.
Qed.

Section Kron.
Context {TA TB TT : Type} (op : TA -> TB -> TT).
Variables (A : lil TA) (B : lil TB).
Hypotheses (WA : wfm A) (WB : wfm B).

Let ra ia := nth ia (data A) [].
Let rb ib := nth ib (data B) [].

Let rA_sorted ia : StronglySorted fst_lt (ra ia).
Proof. eapply sorted_row. apply wfm_row; auto. Qed.
Let rB_sorted ib : StronglySorted fst_lt (rb ib).
Proof. eapply sorted_row. apply wfm_row; auto. Qed.
Let rA_bound ia p : In p (ra ia) -> fst p < ncols A.
Proof. destruct p. intro H. eapply wfrow_In in H; [|apply wfm_row; auto]. simpl; lia. Qed.
Let rB_bound ib p : In p (rb ib) -> fst p < ncols B.
Proof. destruct p. intro H. eapply wfrow_In in H; [|apply wfm_row; auto]. simpl; lia. Qed.

Lemma mfor_nilrow {I S} (l : list I) (body : I -> S -> res S) s :
  (if empty l then Ok s else mfor l body s) = mfor l body s.
Proof. destruct l; reflexivity. Qed.

Lemma mfor_const {I S} (l : list I) (body : I -> S -> res S) s :
  (forall i s, In i l -> body i s = Ok s) -> mfor l body s = Ok s.
Proof.
  intro H. induction l as [|i l IH]; simpl; auto. rewrite H by (left; auto). cbn [bind].
  apply IH. intros; apply H; right; auto.
Qed.

(** Events in the loop order row of A, row of B, element of A, element of B. *)
Definition evs3 (g : nat -> nat -> nat * TA -> nat * TB -> nat * (nat * TT)) :=
  flat_map (fun ia => flat_map (fun ib => flat_map (fun pa => map (g ia ib pa) (rb ib)) (ra ia))
    (seq 0 (nrows B))) (seq 0 (nrows A)).

Lemma evs3_loop g (M : lil TT) :
  mfor (seq 0 (nrows A)) (fun ia T => r <- getrow A ia ;;
     if empty r then Ok T else
     mfor (seq 0 (nrows B)) (fun ib T => r' <- getrow B ib ;;
       if empty r' then Ok T else
       mfor r (fun pa T => mfor r' (fun pb T => push_ev (g ia ib pa pb) T) T) T) T) M =
  mfor (evs3 g) push_ev M.
Proof.
  unfold evs3. rewrite mfor_flat_map. apply mfor_ext. intros ia T Hia. apply in_seq in Hia.
  rewrite getrow_ok by (rewrite (wfm_len A WA); lia). cbn [bind]. rewrite mfor_flat_map.
  fold (ra ia).
  transitivity (mfor (seq 0 (nrows B)) (fun ib T => mfor (ra ia) (fun pa T =>
     mfor (rb ib) (fun pb T => push_ev (g ia ib pa pb) T) T) T) T).
  - destruct (empty (ra ia)) eqn:Em.
    + apply empty_nil in Em. rewrite Em. symmetry. apply mfor_const. reflexivity.
    + apply mfor_ext. intros ib T' Hib. apply in_seq in Hib.
      rewrite getrow_ok by (rewrite (wfm_len B WB); lia). cbn [bind]. fold (rb ib).
      destruct (empty (rb ib)) eqn:Em'; auto.
      apply empty_nil in Em'. rewrite Em'. symmetry. apply mfor_const. reflexivity.
  - apply mfor_ext. intros ib T' _. rewrite mfor_flat_map. apply mfor_ext. intros pa T'' _.
    rewrite mfor_map. reflexivity.
Qed.

Lemma evs3_In g e :
  In e (evs3 g) <-> exists ia ib pa pb, ia < nrows A /\ ib < nrows B /\ In pa (ra ia) /\
    In pb (rb ib) /\ g ia ib pa pb = e.
Proof.
  unfold evs3. rewrite in_flat_map. split.
  - intros (ia & Hia & H). apply in_flat_map in H. destruct H as (ib & Hib & H).
    apply in_flat_map in H. destruct H as (pa & Hpa & H). apply in_map_iff in H.
    destruct H as (pb & H & Hpb). apply in_seq in Hia. apply in_seq in Hib.
    exists ia, ib, pa, pb. repeat split; auto; lia.
  - intros (ia & ib & pa & pb & Hia & Hib & Hpa & Hpb & He). exists ia.
    split; [apply in_seq; lia|]. apply in_flat_map. exists ib. split; [apply in_seq; lia|].
    apply in_flat_map. exists pa. split; auto. apply in_map_iff. exists pb. auto.
Qed.

Lemma evs3_sorted g :
  (forall ia ib pa pb pb', ib < nrows B -> In pa (ra ia) -> In pb (rb ib) -> In pb' (rb ib) ->
     fst pb < fst pb' -> ev_lt (g ia ib pa pb) (g ia ib pa pb')) ->
  (forall ia ib pa pa' pb pb', ib < nrows B -> In pa (ra ia) -> In pa' (ra ia) ->
     In pb (rb ib) -> In pb' (rb ib) ->
     fst pa < fst pa' -> ev_lt (g ia ib pa pb) (g ia ib pa' pb')) ->
  (forall ia ib ib' pa pa' pb pb', ib < nrows B -> ib' < nrows B -> In pa (ra ia) ->
     In pa' (ra ia) -> In pb (rb ib) -> In pb' (rb ib') ->
     ib < ib' -> ev_lt (g ia ib pa pb) (g ia ib' pa' pb')) ->
  (forall ia ia' ib ib' pa pa' pb pb', ib < nrows B -> ib' < nrows B -> In pa (ra ia) ->
     In pa' (ra ia') -> In pb (rb ib) -> In pb' (rb ib') ->
     ia < ia' -> ev_lt (g ia ib pa pb) (g ia' ib' pa' pb')) ->
  StronglySorted ev_lt (evs3 g).
Proof.
  intros H1 H2 H3 H4. unfold evs3.
  eapply sorted_flat_map; [apply sorted_seq| |].
  - intros ia Hia. eapply sorted_flat_map; [apply sorted_seq| |].
    + intros ib Hib. apply in_seq in Hib. eapply sorted_flat_map; [apply rA_sorted| |].
      * intros pa Hpa. eapply sorted_map; [apply rB_sorted|]. intros pb pb' Hb Hb' L.
        apply H1; auto. lia.
      * intros pa pa' y y' Hpa Hpa' L Hy Hy'. apply in_map_iff in Hy, Hy'.
        destruct Hy as (pb & <- & Hb), Hy' as (pb' & <- & Hb'). apply H2; auto. lia.
    + intros ib ib' y y' Hib Hib' L Hy Hy'. apply in_seq in Hib, Hib'.
      apply in_flat_map in Hy, Hy'.
      destruct Hy as (pa & Ha & Hy), Hy' as (pa' & Ha' & Hy'). apply in_map_iff in Hy, Hy'.
      destruct Hy as (pb & <- & Hb), Hy' as (pb' & <- & Hb'). apply H3; auto; lia.
  - intros ia ia' y y' Hia Hia' L Hy Hy'. apply in_flat_map in Hy, Hy'.
    destruct Hy as (ib & Hib & Hy), Hy' as (ib' & Hib' & Hy').
    apply in_seq in Hib, Hib'. apply in_flat_map in Hy, Hy'.
    destruct Hy as (pa & Ha & Hy), Hy' as (pa' & Ha' & Hy'). apply in_map_iff in Hy, Hy'.
    destruct Hy as (pb & <- & Hb), Hy' as (pb' & <- & Hb'). apply H4; auto; lia.
Qed.

Lemma kron_AB_ok :
  tgives (nrows A * nrows B) (ncols A * ncols B) (skron op (nrows B) (ncols B) (mget A) (mget B))
    (kron_AB op (nrows A * nrows B) (ncols A * ncols B) A B).
Proof.
  unfold kron_AB. destruct (has_vals (nvals A) && has_vals (nvals B)) eqn:H.
  2: { apply tgives_new. intros. unfold skron.
       destruct (kron_none op A B WA WB H) as [E|E]; rewrite E; auto.
       destruct (mget A _ _); auto. }
  rewrite (evs3_loop (fun ia ib pa pb => (ia * nrows B + ib,
    (fst pa * ncols B + fst pb, op (snd pa) (snd pb))))).
  apply events_gives.
  - intros e He. apply evs3_In in He. destruct He as (ia & ib & pa & pb & Hia & Hib & Ha & Hb & <-).
    simpl. split; apply pos_bound; eauto.
  - apply evs3_sorted; unfold ev_lt; simpl; intros.
    + lia.
    + apply pos_lt; eauto.
    + lia.
    + exfalso. apply pos_inj in H7; auto. lia.
  - intros i j v Hi Hj. rewrite evs3_In. rewrite <- skron_mem.
    2: { intros ib jb y Hy. apply (mget_some_bounds B) in Hy; auto. }
    split.
    + intros (ia & ib & [ja x] & [jb y] & Hia & Hib & Ha & Hb & [= <- <- <-]).
      apply (In_mget A) in Ha; auto. apply (In_mget B) in Hb; auto.
      exists ia, ja, ib, jb, x, y. auto.
    + intros (ia & ja & ib & jb & x & y & Ha & Hb & -> & -> & ->).
      exists ia, ib, (ja, x), (jb, y).
      split; [eapply (mget_some_bounds A); eauto|]. split; [eapply (mget_some_bounds B); eauto|].
      split; [apply In_mget; auto|]. split; [apply In_mget; auto|]. reflexivity.
Qed.

Lemma kron_ATB_ok :
  tgives (ncols A * nrows B) (nrows A * ncols B)
    (skron op (nrows B) (ncols B) (stran (mget A)) (mget B))
    (kron_ATB op (ncols A * nrows B) (nrows A * ncols B) A B).
Proof.
  unfold kron_ATB. destruct (has_vals (nvals A) && has_vals (nvals B)) eqn:H.
  2: { apply tgives_new. intros. unfold skron, stran.
       destruct (kron_none op A B WA WB H) as [E|E]; rewrite E; auto.
       destruct (mget A _ _); auto. }
  rewrite (evs3_loop (fun ia ib pa pb => (fst pa * nrows B + ib,
    (ia * ncols B + fst pb, op (snd pa) (snd pb))))).
  apply events_gives.
  - intros e He. apply evs3_In in He. destruct He as (ia & ib & pa & pb & Hia & Hib & Ha & Hb & <-).
    simpl. split; apply pos_bound; eauto.
  - apply evs3_sorted; unfold ev_lt; simpl; intros.
    + lia.
    + exfalso. apply pos_inj in H6; auto. lia.
    + exfalso. apply pos_inj in H7; auto. lia.
    + apply pos_lt; eauto.
  - intros i j v Hi Hj. rewrite evs3_In. rewrite <- skron_mem.
    2: { intros ib jb y Hy. apply (mget_some_bounds B) in Hy; auto. }
    split.
    + intros (ia & ib & [ja x] & [jb y] & Hia & Hib & Ha & Hb & [= <- <- <-]).
      apply (In_mget A) in Ha; auto. apply (In_mget B) in Hb; auto.
      exists ja, ia, ib, jb, x, y. auto.
    + intros (ja & ia & ib & jb & x & y & Ha & Hb & -> & -> & ->). unfold stran in Ha.
      exists ia, ib, (ja, x), (jb, y).
      split; [eapply (mget_some_bounds A); eauto|]. split; [eapply (mget_some_bounds B); eauto|].
      split; [apply In_mget; auto|]. split; [apply In_mget; auto|]. reflexivity.
Qed.

Lemma kron_ATBT_ok :
  tgives (ncols A * ncols B) (nrows A * nrows B)
    (skron op (ncols B) (nrows B) (stran (mget A)) (stran (mget B)))
    (kron_ATBT op (ncols A * ncols B) (nrows A * nrows B) A B).
Proof.
  unfold kron_ATBT. destruct (has_vals (nvals A) && has_vals (nvals B)) eqn:H.
  2: { apply tgives_new. intros. unfold skron, stran.
       destruct (kron_none op A B WA WB H) as [E|E]; rewrite E; auto.
       destruct (mget A _ _); auto. }
  rewrite (evs3_loop (fun ia ib pa pb => (fst pa * ncols B + fst pb,
    (ia * nrows B + ib, op (snd pa) (snd pb))))).
  apply events_gives.
  - intros e He. apply evs3_In in He. destruct He as (ia & ib & pa & pb & Hia & Hib & Ha & Hb & <-).
    simpl. split; apply pos_bound; eauto.
  - apply evs3_sorted; unfold ev_lt; simpl; intros.
    + lia.
    + exfalso. apply pos_inj in H6; eauto. lia.
    + lia.
    + apply pos_lt; eauto.
  - intros i j v Hi Hj. rewrite evs3_In. rewrite <- skron_mem.
    2: { intros ib jb y Hy. apply (mget_some_bounds B) in Hy; auto. tauto. }
    split.
    + intros (ia & ib & [ja x] & [jb y] & Hia & Hib & Ha & Hb & [= <- <- <-]).
      apply (In_mget A) in Ha; auto. apply (In_mget B) in Hb; auto.
      exists ja, ia, jb, ib, x, y. auto.
    + intros (ja & ia & jb & ib & x & y & Ha & Hb & -> & -> & ->). unfold stran in Ha, Hb.
      exists ia, ib, (ja, x), (jb, y).
      split; [eapply (mget_some_bounds A); eauto|]. split; [eapply (mget_some_bounds B); eauto|].
      split; [apply In_mget; auto|]. split; [apply In_mget; auto|]. reflexivity.
Qed.

(** Events in the loop order row of A, element of A, row of B, element of B. *)
Definition evs4 (g : nat -> nat -> nat * TA -> nat * TB -> nat * (nat * TT)) :=
  flat_map (fun ia => flat_map (fun pa => flat_map (fun ib => map (g ia ib pa) (rb ib))
    (seq 0 (nrows B))) (ra ia)) (seq 0 (nrows A)).

Lemma evs4_loop g (M : lil TT) :
  mfor (seq 0 (nrows A)) (fun ia T => r <- getrow A ia ;;
     if empty r then Ok T else
     mfor r (fun pa T => mfor (seq 0 (nrows B)) (fun ib T => r' <- getrow B ib ;;
       if empty r' then Ok T else
       mfor r' (fun pb T => push_ev (g ia ib pa pb) T) T) T) T) M =
  mfor (evs4 g) push_ev M.
Proof.
  unfold evs4. rewrite mfor_flat_map. apply mfor_ext. intros ia T Hia. apply in_seq in Hia.
  rewrite getrow_ok by (rewrite (wfm_len A WA); lia). cbn [bind]. rewrite mfor_flat_map.
  fold (ra ia). rewrite mfor_nilrow. apply mfor_ext. intros pa T' _. rewrite mfor_flat_map.
  apply mfor_ext. intros ib T'' Hib. apply in_seq in Hib.
  rewrite getrow_ok by (rewrite (wfm_len B WB); lia). cbn [bind]. rewrite mfor_nilrow, mfor_map.
  reflexivity.
Qed.

Lemma evs4_In g e :
  In e (evs4 g) <-> exists ia ib pa pb, ia < nrows A /\ ib < nrows B /\ In pa (ra ia) /\
    In pb (rb ib) /\ g ia ib pa pb = e.
Proof.
  unfold evs4. rewrite in_flat_map. split.
  - intros (ia & Hia & H). apply in_flat_map in H. destruct H as (pa & Hpa & H).
    apply in_flat_map in H. destruct H as (ib & Hib & H). apply in_map_iff in H.
    destruct H as (pb & H & Hpb). apply in_seq in Hia. apply in_seq in Hib.
    exists ia, ib, pa, pb. repeat split; auto; lia.
  - intros (ia & ib & pa & pb & Hia & Hib & Hpa & Hpb & He). exists ia.
    split; [apply in_seq; lia|]. apply in_flat_map. exists pa. split; auto.
    apply in_flat_map. exists ib. split; [apply in_seq; lia|]. apply in_map_iff. exists pb. auto.
Qed.

Lemma kron_ABT_ok :
  tgives (nrows A * ncols B) (ncols A * nrows B)
    (skron op (ncols B) (nrows B) (mget A) (stran (mget B)))
    (kron_ABT op (nrows A * ncols B) (ncols A * nrows B) A B).
Proof.
  unfold kron_ABT. destruct (has_vals (nvals A) && has_vals (nvals B)) eqn:H.
  2: { apply tgives_new. intros. unfold skron, stran.
       destruct (kron_none op A B WA WB H) as [E|E]; rewrite E; auto.
       destruct (mget A _ _); auto. }
  rewrite (evs4_loop (fun ia ib pa pb => (ia * ncols B + fst pb,
    (fst pa * nrows B + ib, op (snd pa) (snd pb))))).
  apply events_gives.
  - intros e He. apply evs4_In in He. destruct He as (ia & ib & pa & pb & Hia & Hib & Ha & Hb & <-).
    simpl. split; apply pos_bound; eauto.
  - unfold evs4. eapply sorted_flat_map; [apply sorted_seq| |].
    + intros ia Hia. eapply sorted_flat_map; [apply rA_sorted| |].
      * intros pa Hpa. eapply sorted_flat_map; [apply sorted_seq| |].
        -- intros ib Hib. eapply sorted_map; [apply rB_sorted|].
           unfold ev_lt, fst_lt. simpl. intros; lia.
        -- intros ib ib' y y' Hib Hib' L Hy Hy'. apply in_map_iff in Hy, Hy'.
           destruct Hy as (pb & <- & Hb), Hy' as (pb' & <- & Hb').
           unfold ev_lt. simpl. intros; lia.
      * intros pa pa' y y' Ha Ha' L Hy Hy'. apply in_flat_map in Hy, Hy'.
        destruct Hy as (ib & Hib & Hy), Hy' as (ib' & Hib' & Hy').
        apply in_seq in Hib, Hib'. apply in_map_iff in Hy, Hy'.
        destruct Hy as (pb & <- & Hb), Hy' as (pb' & <- & Hb').
        unfold ev_lt. simpl. intros _. apply pos_lt; auto. lia.
    + intros ia ia' y y' Hia Hia' L Hy Hy'. apply in_flat_map in Hy, Hy'.
      destruct Hy as (pa & Ha & Hy), Hy' as (pa' & Ha' & Hy').
      apply in_flat_map in Hy, Hy'.
      destruct Hy as (ib & Hib & Hy), Hy' as (ib' & Hib' & Hy'). apply in_map_iff in Hy, Hy'.
      destruct Hy as (pb & <- & Hb), Hy' as (pb' & <- & Hb').
      unfold ev_lt. simpl. intro E. apply pos_inj in E; eauto. lia.
  - intros i j v Hi Hj. rewrite evs4_In. rewrite <- skron_mem.
    2: { intros ib jb y Hy. apply (mget_some_bounds B) in Hy; auto. tauto. }
    split.
    + intros (ia & ib & [ja x] & [jb y] & Hia & Hib & Ha & Hb & [= <- <- <-]).
      apply (In_mget A) in Ha; auto. apply (In_mget B) in Hb; auto.
      exists ia, ja, jb, ib, x, y. auto.
    + intros (ia & ja & jb & ib & x & y & Ha & Hb & -> & -> & ->). unfold stran in Hb.
      exists ia, ib, (ja, x), (jb, y).
      split; [eapply (mget_some_bounds A); eauto|]. split; [eapply (mget_some_bounds B); eauto|].
      split; [apply In_mget; auto|]. split; [apply In_mget; auto|]. reflexivity.
Qed.
End Kron.

Lemma kron_T_ok {TA TB TT} (op : TA -> TB -> TT) (A : mview TA) (B : mview TB) :
  wfview A -> wfview B ->
  tgives (vrows A * vrows B) (vcols A * vcols B)
    (skron op (vrows B) (vcols B) (sview A) (sview B))
    (kron_T op (vrows A * vrows B) (vcols A * vcols B) A B).
Proof.
  intros WA WB. destruct A as [A|A], B as [B|B]; simpl in *.
  - apply kron_AB_ok; auto.
  - apply kron_ABT_ok; auto.
  - apply kron_ATB_ok; auto.
  - apply kron_ATBT_ok; auto.
Qed.

Lemma check_eq_prod_ok n a b :
  n = a * b -> (Z.of_nat n < 2 ^ 64)%Z -> check_eq_prod n a b = Ok tt.
Proof.
  intros -> H. unfold check_eq_prod. rewrite Nat2Z.inj_mul in *.
  rewrite Z.mod_small by lia. rewrite Z.eqb_refl. reflexivity.
Qed.

Theorem kronecker_ok {TA TB TT TC TZ TM} (op : TA -> TB -> TT) (truthy : TM -> bool)
    (zc : TZ -> TC) (a : accum TC TT TZ) (m : mask (lil TM)) outp (C : lil TC)
    (A : mview TA) (B : mview TB) :
  wfm C -> wfview A -> wfview B -> wfmask m -> kron_conforms m C A B ->
  (Z.of_nat (nrows C) < 2 ^ 64)%Z -> (Z.of_nat (ncols C) < 2 ^ 64)%Z ->
  written truthy zc a m outp C (skron op (vrows B) (vcols B) (sview A) (sview B))
    (kronecker op truthy zc a m outp C A B).
Proof.
  intros WC WA WB Wm (Fm & R & K) HR HK. unfold kronecker.
  destruct (check_mask_ok m _ _ Fm) as [-> ->]. cbn [bind].
  rewrite !check_eq_prod_ok by auto. cbn [bind]. rewrite R, K.
  destruct (kron_T_ok op A B WA WB) as (T & E & WT & G). rewrite E. cbn [bind].
  apply accum_write_ok; auto.
  - rewrite R, K; auto.
  - intros. apply G; lia.
Qed.

(** Rejected: every shape that is wrong modulo 2^64. *)
Theorem kronecker_throws {TA TB TT TC TZ TM} (op : TA -> TB -> TT) (truthy : TM -> bool)
    (zc : TZ -> TC) (a : accum TC TT TZ) (m : mask (lil TM)) outp (C : lil TC)
    (A : mview TA) (B : mview TB) :
  ~ kron_conforms m C A B ->
  (Z.of_nat (vrows A) * Z.of_nat (vrows B) < 2 ^ 64)%Z ->
  (Z.of_nat (vcols A) * Z.of_nat (vcols B) < 2 ^ 64)%Z ->
  kronecker op truthy zc a m outp C A B = Throw DimensionException.
Proof.
  intros H HR HK. unfold kronecker. apply check_mask_bind. intro F.
  unfold check_eq_prod. rewrite !Z.mod_small by lia. rewrite <- !Nat2Z.inj_mul.
  destruct (Z.eqb_spec (Z.of_nat (ncols C)) (Z.of_nat (vcols A * vcols B))) as [E1|]; [|reflexivity].
  cbn [negb throw_if bind].
  destruct (Z.eqb_spec (Z.of_nat (nrows C)) (Z.of_nat (vrows A * vrows B))) as [E2|]; [|reflexivity].
  exfalso. apply H. split; [auto|]. split; lia.
Qed.
