(** Proofs about containers moved to another scalar type. *)
From Coq Require Import Lia ZArith.
From Verif Require Import Base ModelLil ModelVec ModelHelpers ModelViews ModelElem ModelAlgoBase ModelAlgebra ModelFloat ModelConv
  ModelRecast Spec SpecOps SpecFloats SpecConv ProofLil ProofLaws ProofReduce ProofInts ProofConv SpecRel.

Section Values.
Context {T : Type}.
Definition val1 (e : nat * res T) : res (nat * T) := v <- snd e ;; Ok (fst e, v).

Lemma traverse_row (r : row (res T)) : forall lo hi, wfrow lo hi r -> (forall j x, In (j, x) r -> exists v, x = Ok v) ->
  exists r', traverse val1 r = Ok r' /\ wfrow lo hi r' /\ forall j, rget r j = option_map Ok (rget r' j).
Proof.
  induction r as [|(j, x) r IH]; intros lo hi W H.
  - exists []. simpl. auto.
  - destruct W as [B W]. destruct (H j x (or_introl eq_refl)) as (v & ->).
    destruct (IH _ _ W (fun k y Hy => H k y (or_intror Hy))) as (r' & E & W' & G).
    exists ((j, v) :: r'). simpl. unfold val1 in *. simpl. rewrite E. simpl. repeat split; auto; try lia.
    intros k. destruct (j =? k); auto.
Qed.
Lemma traverse_bad {A B} (f : A -> res B) (l : list A) x : In x l -> f x = UB -> (forall y, In y l -> f y = UB \/ exists z, f y = Ok z) ->
  traverse f l = UB.
Proof.
  induction l as [|a l IH]; intros I F H; [contradiction|]. simpl.
  destruct (H a (or_introl eq_refl)) as [->|(z & E)]; auto. rewrite E. cbn [bind].
  destruct I as [->|I]; [congruence|]. rewrite IH; auto. intros y Hy. apply H. right. auto.
Qed.
Lemma traverse_cases {A B} (f : A -> res B) (l : list A) : (forall y, In y l -> f y = UB \/ exists z, f y = Ok z) ->
  traverse f l = UB \/ exists z, traverse f l = Ok z.
Proof.
  induction l as [|a l IH]; intros H; simpl; eauto.
  destruct (H a (or_introl eq_refl)) as [->|(z & ->)]; auto. cbn [bind].
  destruct IH as [->|(w & ->)]; auto; simpl; eauto. intros y Hy. apply H. right. auto.
Qed.

Lemma traverse_rows (d : list (row (res T))) nc : Forall (wfrow 0 nc) d ->
  (forall r, In r d -> forall j x, In (j, x) r -> exists v, x = Ok v) ->
  exists d', traverse (traverse val1) d = Ok d' /\ Forall (wfrow 0 nc) d' /\ length d' = length d /\
    forall i j, rget (nth i d []) j = option_map Ok (rget (nth i d' []) j).
Proof.
  induction d as [|r d IH]; intros F H.
  - exists []. simpl. repeat split; auto. intros [|i] j; auto.
  - inversion F; subst. destruct (traverse_row r 0 nc H2 (H r (or_introl eq_refl))) as (r' & E & W & G).
    destruct (IH H3 (fun s Hs => H s (or_intror Hs))) as (d' & E' & F' & L & G').
    exists (r' :: d'). simpl. rewrite E. cbn [bind]. rewrite E'. cbn [bind]. simpl. repeat split; auto.
    intros [|i] j; simpl; auto.
Qed.

Lemma values_m_ok (M : lil (res T)) : wfm M -> (forall i j x, mget M i j = Some x -> exists v, x = Ok v) ->
  exists D, values_m M = Ok D /\ wfm D /\ nrows D = nrows M /\ ncols D = ncols M /\
    forall i j, mget M i j = option_map Ok (mget D i j).
Proof.
  intros [[L F] N] H.
  destruct (traverse_rows (data M) (ncols M) F) as (d & E & F' & L' & G).
  { intros r Hr j x Hx. apply In_nth with (d := []) in Hr. destruct Hr as (i & Hi & Er).
    apply (H i j). unfold mget. rewrite Er. apply (rget_In r 0 (ncols M)); auto.
    rewrite Forall_forall in F. apply F. rewrite <- Er. apply nth_In. auto. }
  exists (mkLil (nrows M) (ncols M) (nvals M) d). unfold values_m. fold val1.
  change (fun e : nat * res T => v <- snd e ;; Ok (fst e, v)) with val1. rewrite E. cbn [bind].
  split; [reflexivity|]. split; [|repeat split; auto].
  split; [split; simpl; [congruence|auto]|]. simpl. rewrite N. f_equal. apply mcount_ext.
  intros i j Hi Hj. unfold mget in *. simpl. rewrite G. destruct (rget (nth i d []) j); auto.
Qed.
Lemma values_m_bad (M : lil (res T)) i j : mget M i j = Some UB ->
  (forall i j x, mget M i j = Some x -> x = UB \/ exists v, x = Ok v) -> wfm M -> values_m M = UB.
Proof.
  intros G H [[L F] N]. unfold values_m.
  assert (Hi : i < length (data M)).
  { destruct (Nat.lt_ge_cases i (length (data M))); auto. unfold mget in G. rewrite nth_overflow in G by auto. discriminate. }
  assert (R : forall r, In r (data M) -> forall e, In e r -> val1 e = UB \/ exists z, val1 e = Ok z).
  { intros r Hr (k, x) Hx. apply In_nth with (d := []) in Hr. destruct Hr as (i' & Hi' & Er).
    unfold val1. simpl. destruct (H i' k x) as [->|(v & ->)]; simpl; eauto.
    unfold mget. rewrite Er. apply (rget_In r 0 (ncols M)); auto.
    rewrite Forall_forall in F. apply F. rewrite <- Er. apply nth_In. auto. }
  change (fun e : nat * res T => v <- snd e ;; Ok (fst e, v)) with val1.
  rewrite (traverse_bad (traverse val1) (data M) (nth i (data M) [])); auto.
  - apply nth_In. auto.
  - apply (traverse_bad val1 _ (j, UB)); auto.
    + unfold mget in G. clear - G. induction (nth i (data M) []) as [|(k, x) r IH]; simpl in *; [discriminate|].
      destruct (Nat.eqb_spec k j) as [->|]; [injection G as ->; auto|auto].
    + intros y Hy. apply (R (nth i (data M) [])); auto. apply nth_In. auto.
  - intros r Hr. apply traverse_cases. apply R. auto.
Qed.

Lemma traverse_vec (dflt : T) : forall (b : list bool) (v : list (res T)), length b = length v ->
  (forall i x, nth_error b i = Some true -> nth_error v i = Some x -> exists y, x = Ok y) ->
  exists d, traverse (fun e : bool * res T => if fst e then snd e else Ok dflt) (combine b v) = Ok d /\ length d = length v /\
    forall i, nth_error b i = Some true -> nth_error v i = option_map Ok (nth_error d i).
Proof.
  induction b as [|x b IH]; intros [|y v] L H; try discriminate.
  - exists []. simpl. repeat split; auto. intros [|i]; discriminate.
  - simpl in L. injection L as L. destruct (IH v L (fun i => H (S i))) as (d & E & Ld & G).
    destruct x.
    + destruct (H 0 y eq_refl eq_refl) as (z & ->). exists (z :: d). simpl. rewrite E. cbn [bind]. simpl. repeat split; auto.
      intros [|i]; simpl; auto.
    + exists (dflt :: d). simpl. rewrite E. cbn [bind]. simpl. repeat split; auto. intros [|i]; simpl; auto. discriminate.
Qed.
Lemma values_v_ok (dflt : T) (w : bvec (res T)) : wfv w -> (forall i x, vget w i = Some x -> exists v, x = Ok v) ->
  exists d, values_v dflt w = Ok d /\ wfv d /\ vsize d = vsize w /\ forall i, vget w i = option_map Ok (vget d i).
Proof.
  intros [[L1 L2] N] H.
  destruct (traverse_vec dflt (vbits w) (vvals w)) as (d & E & L & G); [congruence| |].
  { intros i x B V. apply (H i). unfold vget. rewrite B, V. auto. }
  assert (K : forall i, vget w i = option_map Ok (vget (mkVec (vsize w) (vnvals w) d (vbits w)) i)).
  { intros i. unfold vget. simpl. specialize (G i). destruct (nth_error (vbits w) i) as [[|]|]; auto.
    rewrite (G eq_refl). destruct (nth_error d i); auto. }
  exists (mkVec (vsize w) (vnvals w) d (vbits w)). unfold values_v. rewrite E. cbn [bind].
  split; [reflexivity|]. split; [|split; [reflexivity|exact K]].
  split; [split; simpl; congruence|]. cbn [vnvals vsize]. rewrite N at 1. f_equal. apply vcount_ext.
  intros i Hi. rewrite K. destruct (vget _ i); reflexivity.
Qed.
Lemma values_v_bad (dflt : T) (w : bvec (res T)) i : wfv0 w -> vget w i = Some UB ->
  (forall i x, vget w i = Some x -> x = UB \/ exists v, x = Ok v) -> values_v dflt w = UB.
Proof.
  intros [L1 L2] G H. unfold values_v.
  rewrite (traverse_bad _ (combine (vbits w) (vvals w)) (true, UB)); auto.
  - unfold vget in G. destruct (nth_error (vbits w) i) as [[|]|] eqn:B; try discriminate.
    destruct (nth_error (vvals w) i) as [x|] eqn:V; try discriminate. injection G as ->.
    assert (Hi : i < length (combine (vbits w) (vvals w))).
    { rewrite combine_length, L1, L2, Nat.min_id. rewrite <- L1. apply nth_error_Some. congruence. }
    assert (E : nth i (combine (vbits w) (vvals w)) (true, UB) = (true, UB)).
    { rewrite combine_nth by congruence. rewrite (nth_error_nth _ _ _ B), (nth_error_nth _ _ _ V). auto. }
    rewrite <- E at 1. apply nth_In. auto.
  - intros (b, x) Hx. simpl. destruct b; eauto. apply In_nth with (d := (false, UB)) in Hx. destruct Hx as (k & Hk & E).
    rewrite combine_length in Hk. rewrite combine_nth in E by congruence. injection E as E1 E2.
    apply (H k). unfold vget. rewrite (nth_error_nth' (vbits w) false), (nth_error_nth' (vvals w) UB), E1, E2 by lia. auto.
Qed.

Lemma outcomes_m_get (M : lil T) i j : mget (outcomes_m M) i j = option_map Ok (mget M i j).
Proof.
  unfold mget. simpl. change (@nil (nat * res T)) with (map (fun e : nat * T => (fst e, Ok (snd e))) []).
  rewrite map_nth. induction (nth i (data M) []) as [|(k, x) r IH]; simpl; auto. destruct (k =? j); auto.
Qed.
Lemma outcomes_m_wf (M : lil T) : wfm M -> wfm (outcomes_m M).
Proof.
  intros [[L F] N]. split.
  - split; simpl; [rewrite map_length; auto|]. apply Forall_map. eapply Forall_impl; [|exact F]. clear.
    intros r. generalize 0 as lo. induction r as [|(k, x) r IH]; simpl; auto. intros lo [B W]. auto.
  - simpl. rewrite N. f_equal. apply mcount_ext. intros i j Hi Hj. rewrite outcomes_m_get. destruct (mget M i j); auto.
Qed.
Lemma outcomes_v_wf (w : bvec T) : wfv0 w -> wfv0 (outcomes_v w).
Proof. intros [L1 L2]. split; simpl; auto. rewrite map_length. auto. Qed.
End Values.

Lemma cast_cases t v : cast t v = UB \/ exists x, cast t v = Ok x.
Proof.
  destruct t as [[| s w]|f], v as [z|x]; cbn [cast]; eauto; unfold float_to_int; cbn [bind]; eauto.
  destruct (truncate x); [|auto]. destruct (_ && _)%bool; cbn [bind]; eauto.
Qed.

Section Recast.
Variables t1 t2 : stype.
Lemma recast_m_apply C A : wfm C -> wfview A -> nrows C = vrows A -> ncols C = vcols A ->
  exists E, recast_m t1 t2 C A = values_m E /\ wfm E /\ nrows E = nrows C /\ ncols E = ncols C /\
    forall i j, i < nrows C -> j < ncols C -> mget E i j = option_map (cast t2) (sview A i j).
Proof.
  intros WC WA R K. unfold recast_m.
  destruct (apply_ok (SIdentity t1 t2) btrue idc (NoAcc idc) mnomask MERGE (outcomes_m C) A (outcomes_m_wf C WC) WA I
     (conj I (conj R K))) as (E & -> & WE & RE & KE & G).
  exists E. cbn [bind]. split; [reflexivity|]. split; [exact WE|]. split; [exact RE|]. split; [exact KE|].
  intros i j Hi Hj. rewrite (G i j Hi Hj). cbn. destruct (sview A i j); reflexivity.
Qed.
Lemma get_bounds {T} (M : lil T) i j x : wfm M -> mget M i j = Some x -> i < nrows M /\ j < ncols M.
Proof. intros W H. exact (mget_some_bounds M i j x W H). Qed.
Lemma recast_m_ok C A : wfm C -> wfview A -> nrows C = vrows A -> ncols C = vcols A ->
  (forall i j v, sview A i j = Some v -> exists x, cast t2 v = Ok x) ->
  exists D, recast_m t1 t2 C A = Ok D /\ wfm D /\ nrows D = nrows C /\ ncols D = ncols C /\
    forall i j, i < nrows C -> j < ncols C -> orel (converts t2) (sview A i j) (mget D i j).
Proof.
  intros WC WA R K H. destruct (recast_m_apply C A WC WA R K) as (E & -> & WE & RE & KE & G).
  destruct (values_m_ok E WE) as (D & -> & WD & RD & KD & GD).
  { intros i j x Hx. destruct (get_bounds E i j x WE Hx) as [Bi Bj]. rewrite G in Hx by congruence.
    destruct (sview A i j) as [v|] eqn:S; [|discriminate]. injection Hx as <-. eauto. }
  exists D. split; [reflexivity|]. split; [exact WD|]. split; [congruence|]. split; [congruence|].
  intros i j Hi Hj. specialize (G i j Hi Hj). rewrite GD in G. unfold converts.
  destruct (sview A i j) as [v|], (mget D i j) as [x|]; try discriminate; cbn in *; [congruence|exact I].
Qed.
Lemma recast_m_bad C A i j v : wfm C -> wfview A -> nrows C = vrows A -> ncols C = vcols A -> i < nrows C -> j < ncols C ->
  sview A i j = Some v -> cast t2 v = UB -> recast_m t1 t2 C A = UB.
Proof.
  intros WC WA R K Hi Hj S V. destruct (recast_m_apply C A WC WA R K) as (E & -> & WE & RE & KE & G).
  apply (values_m_bad E i j); auto.
  - rewrite G, S by auto. cbn. now rewrite V.
  - intros i' j' x Hx. destruct (get_bounds E i' j' x WE Hx) as [Bi Bj]. rewrite G in Hx by congruence.
    destruct (sview A i' j') as [v'|]; [|discriminate]. injection Hx as <-. apply cast_cases.
Qed.

Lemma recast_v_apply w u : wfv0 w -> wfvn u -> vsize w = vsize u ->
  exists e, recast_v t1 t2 w u = values_v (constant 0 t2) e /\ wfv e /\ vsize e = vsize w /\
    forall i, i < vsize w -> vget e i = option_map (cast t2) (vget u i).
Proof.
  intros Ww Wu S. unfold recast_v.
  destruct (apply_v_ok (SIdentity t1 t2) btrue idc (NoAcc idc) vnomask MERGE (outcomes_v w) u (outcomes_v_wf w Ww) Wu I
     (conj I S)) as (e & -> & We & Se & G).
  exists e. cbn [bind]. split; [reflexivity|]. split; [exact We|]. split; [exact Se|].
  intros i Hi. rewrite (G i Hi). cbn. destruct (vget u i); reflexivity.
Qed.
Lemma vget_bounds {T} (w : bvec T) i x : wfv0 w -> vget w i = Some x -> i < vsize w.
Proof.
  intros [L1 L2] H. rewrite <- L2. apply nth_error_Some. unfold vget in H. intro E. rewrite E in H. discriminate.
Qed.
Lemma recast_v_ok w u : wfv0 w -> wfvn u -> vsize w = vsize u ->
  (forall i v, vget u i = Some v -> exists x, cast t2 v = Ok x) ->
  exists d, recast_v t1 t2 w u = Ok d /\ wfv d /\ vsize d = vsize w /\
    forall i, i < vsize w -> orel (converts t2) (vget u i) (vget d i).
Proof.
  intros Ww Wu S H. destruct (recast_v_apply w u Ww Wu S) as (e & -> & We & Se & G).
  destruct (values_v_ok (constant 0 t2) e We) as (d & -> & Wd & Sd & Gd).
  { intros i x Hx. pose proof (vget_bounds e i x (proj1 We) Hx) as B. rewrite G in Hx by congruence.
    destruct (vget u i) as [v|] eqn:V; [|discriminate]. injection Hx as <-. eauto. }
  exists d. split; [reflexivity|]. split; [exact Wd|]. split; [congruence|].
  intros i Hi. specialize (G i Hi). rewrite Gd in G. unfold converts.
  destruct (vget u i) as [v|], (vget d i) as [x|]; try discriminate; cbn in *; [congruence|exact I].
Qed.
Lemma recast_v_bad w u i v : wfv0 w -> wfvn u -> vsize w = vsize u -> i < vsize w ->
  vget u i = Some v -> cast t2 v = UB -> recast_v t1 t2 w u = UB.
Proof.
  intros Ww Wu S Hi V B. destruct (recast_v_apply w u Ww Wu S) as (e & -> & We & Se & G).
  apply (values_v_bad _ e i (proj1 We)).
  - rewrite G, V by auto. cbn. now rewrite B.
  - intros k x Hx. pose proof (vget_bounds e k x (proj1 We) Hx) as Bk. rewrite G in Hx by congruence.
    destruct (vget u k) as [v'|]; [|discriminate]. injection Hx as <-. apply cast_cases.
Qed.
End Recast.

(** ** There and back: no value is lost *)

Lemma back_int : forall t u v x y, t <> CBool -> has_type (SI t) v -> fits u v ->
  converts (SF u) v x -> converts (SI t) x y -> y = v.
Proof.
  intros t u [z|f] x y NB T F; [|contradiction]. unfold converts. cbn [cast]. intros [= <-]. cbn [cast].
  rewrite (int_round_trip t u z NB T F). cbn [bind]. congruence.
Qed.
Lemma back_float : forall v x y, has_type (SF CFloat) v ->
  converts (SF CDouble) v x -> converts (SF CFloat) x y -> y = v.
Proof.
  intros [z|f] x y T; [contradiction|]. unfold converts. cbn [cast]. intros [= <-]. cbn [cast].
  rewrite (widen_narrow f T). congruence.
Qed.
