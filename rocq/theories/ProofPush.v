(** The push-relabel algorithm computes a maximum flow. *)
From Coq Require Import Lia.
From Verif Require Import Base ModelLil ModelVec ModelHelpers ModelViews ModelMul ModelElem
  ModelIndex ModelAlgoBase ModelFlow ModelPush Spec SpecOps SpecFlow ProofBase ProofLil ProofVec
  ProofViews ProofReduce ProofVis ProofFlow ProofDelta ProofElem.
Local Open Scope Z_scope.

Definition oz (o : option Z) : Z := match o with Some x => x | None => 0 end.
(** [w], [M] denote [g], [f] when missing elements count as 0. *)
Definition vz (N : nat) (w : bvec Z) (g : nat -> Z) : Prop :=
  wfv w /\ vsize w = N /\ forall i, (i < N)%nat -> oz (vget w i) = g i.
Definition mz (N : nat) (M : lil Z) (f : nat -> nat -> Z) : Prop :=
  wfm M /\ nrows M = N /\ ncols M = N /\ forall i j, (i < N)%nat -> (j < N)%nat -> capacity M i j = f i j.

Lemma vz_ext N w g g' : vz N w g -> (forall i, (i < N)%nat -> g i = g' i) -> vz N w g'.
Proof. intros (W & S & G) H. split; [auto|split; [auto|]]. intros. rewrite G, H; auto. Qed.
Lemma mz_ext N w g g' :
  mz N w g -> (forall i j, (i < N)%nat -> (j < N)%nat -> g i j = g' i j) -> mz N w g'.
Proof. intros (W & S & S' & G) H. split; [auto|split; [auto|split; [auto|]]]. intros. rewrite G, H; auto. Qed.
Lemma vz_vis N w f : vis N w f -> vz N w (fun i => oz (f i)).
Proof. intros (W & S & G). split; [auto|split; [auto|]]. intros. rewrite G; auto. Qed.

Lemma at_v_ok N w g i : vz N w g -> (i < N)%nat -> at_v w i = Ok (g i).
Proof.
  intros (W & S & G) H. unfold at_v. rewrite vec_hasElement_ok by apply W.
  rewrite (proj2 (Nat.ltb_lt _ _)) by lia. cbn [bind]. rewrite vec_extractElement_ok by apply W.
  rewrite (proj2 (Nat.ltb_lt _ _)) by lia. specialize (G i H). destruct (vget w i); simpl in *; congruence.
Qed.
Lemma at_m_ok N M f i j : mz N M f -> (i < N)%nat -> (j < N)%nat -> at_m M i j = Ok (f i j).
Proof.
  intros (W & S & S' & G) H H'. unfold at_m. rewrite hasElement_ok by (auto; lia). cbn [bind].
  rewrite extractElement_ok by (auto; lia). specialize (G i j H H'). unfold capacity in G.
  destruct (mget M i j); simpl in *; congruence.
Qed.
Lemma set_v_ok N w g i x : vz N w g -> (i < N)%nat ->
  exists w', vec_setElement w i x = Ok w' /\ vz N w' (fun k => if (k =? i)%nat then x else g k).
Proof.
  intros (W & S & G) H. destruct (vec_setElement_ok w i x) as (w' & E & W' & S' & _ & G' & Q); [apply W|lia|].
  exists w'. split; [auto|]. split; [auto|split; [lia|]]. intros k Hk. rewrite G'.
  destruct (Nat.eqb_spec k i); simpl; auto.
Qed.
Lemma set_m_ok N M f i j x : mz N M f -> (i < N)%nat -> (j < N)%nat ->
  exists M', lil_setElement M i j x = Ok M' /\
    mz N M' (fun k l => if (k =? i)%nat && (l =? j)%nat then x else f k l).
Proof.
  intros (W & R & C & G) Hi Hj.
  destruct (setElement_merge_ok (fun _ new : Z => new) M i j x W) as (M' & E & W' & R' & C' & G'); [lia|lia|].
  exists M'. split; [exact E|]. split; [auto|split; [congruence|split; [congruence|]]].
  intros k l Hk Hl. unfold capacity. rewrite G'. specialize (G k l Hk Hl). unfold capacity in G.
  destruct ((k =? i)%nat && (l =? j)%nat) eqn:B; auto. destruct (mget M i j); auto.
Qed.

Definition b1 (b : bool) : Z := if b then 1 else 0.
Definition push_f (f : nat -> nat -> Z) (u v : nat) (d : Z) (x y : nat) : Z :=
  f x y + d * (b1 ((x =? u)%nat && (y =? v)%nat) - b1 ((x =? v)%nat && (y =? u)%nat)).
Definition push_e (e : nat -> Z) (u v : nat) (d : Z) (x : nat) : Z :=
  e x + d * (b1 (x =? v)%nat - b1 (x =? u)%nat).

Ltac eqbs := repeat match goal with
  | |- context [(?a =? ?b)%nat] => destruct (Nat.eqb_spec a b); try subst
  | H : context [(?a =? ?b)%nat] |- _ => destruct (Nat.eqb_spec a b); try subst
  end.

Lemma zsum_b1 N i d : (i < N)%nat -> zsum N (fun j => d * b1 (j =? i)%nat) = d.
Proof.
  intro H. rewrite (zsum_single N _ i H).
  - rewrite Nat.eqb_refl. simpl. lia.
  - intros j _ Hj. rewrite (proj2 (Nat.eqb_neq _ _) Hj). simpl. lia.
Qed.
Lemma push_sum N f u v d y : (u < N)%nat -> (v < N)%nat ->
  zsum N (fun x => push_f f u v d x y) =
  zsum N (fun x => f x y) + d * (b1 (y =? v)%nat - b1 (y =? u)%nat).
Proof.
  intros Hu Hv. unfold push_f. rewrite zsum_add. f_equal.
  transitivity (zsum N (fun x => d * b1 (y =? v)%nat * b1 (x =? u)%nat) +
                zsum N (fun x => - (d * b1 (y =? u)%nat) * b1 (x =? v)%nat)).
  - rewrite <- zsum_add. apply zsum_ext. intros x _. eqbs; simpl; lia.
  - rewrite !zsum_b1 by auto. lia.
Qed.

Lemma push_ok N C c F f e E u v : mz N C c -> mz N F f -> vz N E e -> (u < N)%nat -> (v < N)%nat ->
  exists F' E', pr_push C F E u v = Ok (F', E') /\
    let d := Z.min (e u) (c u v - f u v) in mz N F' (push_f f u v d) /\ vz N E' (push_e e u v d).
Proof.
  intros HC HF HE Hu Hv. unfold pr_push, pr_residual.
  rewrite (at_v_ok N E e u), (at_m_ok N C c u v), (at_m_ok N F f u v) by auto. cbn [bind]. cbv zeta.
  set (d := Z.min (e u) (c u v - f u v)).
  destruct (set_m_ok N F f u v (f u v + d) HF Hu Hv) as (F1 & -> & H1). cbn [bind].
  rewrite (at_m_ok _ _ _ v u H1) by auto. cbn [bind].
  match goal with |- context [lil_setElement F1 v u ?x] =>
    destruct (set_m_ok N F1 _ v u x H1 Hv Hu) as (F2 & -> & H2) end. cbn [bind].
  destruct (set_v_ok N E e u (e u - d) HE Hu) as (E1 & -> & G1). cbn [bind].
  rewrite (at_v_ok _ _ _ v G1) by auto. cbn [bind].
  match goal with |- context [vec_setElement E1 v ?x] =>
    destruct (set_v_ok N E1 _ v x G1 Hv) as (E2 & -> & G2) end. cbn [bind].
  exists F2, E2. split; [auto|]. split.
  - eapply mz_ext; [exact H2|]. intros i j Hi Hj. cbv beta. unfold push_f. eqbs; simpl in *; try congruence; lia.
  - eapply vz_ext; [exact G2|]. intros i Hi. cbv beta. unfold push_e. eqbs; simpl in *; try congruence; lia.
Qed.

Lemma zsum_nonpos N f : (forall i, (i < N)%nat -> f i <= 0) -> zsum N f <= 0.
Proof.
  intro H. pose proof (zsum_le N f (fun _ => 0) H) as L. rewrite (zsum_zero N (fun _ => 0)) in L; auto.
Qed.
Lemma zsum_pos N f i : (forall i, (i < N)%nat -> 0 <= f i) -> (i < N)%nat -> 0 < f i -> 0 < zsum N f.
Proof.
  intros H Hi L. pose proof (zsum_lt N (fun _ => 0) f i H Hi L) as Q. rewrite (zsum_zero N (fun _ => 0)) in Q; auto.
Qed.

Section Push.
Context (N : nat) (C : lil Z) (source sink : nat) (inf : Z).
Hypothesis WC : wfm C.
Hypothesis RC : nrows C = N.
Hypothesis CC : ncols C = N.
Hypothesis Hs : (source < N)%nat.
Hypothesis Ht : (sink < N)%nat.
Hypothesis Hst : source <> sink.
Hypothesis Hinf : 2 * Z.of_nat N <= inf.
Let c := capacity C.
Hypothesis Hc : forall u v, (u < N)%nat -> (v < N)%nat -> 0 <= c u v.

Lemma HC : mz N C c.
Proof. split; [auto|split; [auto|split; auto]]. Qed.

Definition adm (f : nat -> nat -> Z) (h : nat -> Z) (x y : nat) : Prop := 0 < c x y - f x y /\ h y < h x.

(** The invariant of the preflow, of the heights and of the positions. *)
Record inv (f : nat -> nat -> Z) (e h k : nat -> Z) : Prop := {
  i_anti : forall x y, (x < N)%nat -> (y < N)%nat -> f x y = - f y x;
  i_cap : forall x y, (x < N)%nat -> (y < N)%nat -> f x y <= c x y;
  i_exc : forall v, (v < N)%nat -> v <> source -> e v = zsum N (fun u => f u v);
  i_pos : forall v, (v < N)%nat -> v <> source -> 0 <= e v;
  i_lab : forall x y, (x < N)%nat -> (y < N)%nat -> 0 < c x y - f x y -> h x <= h y + 1;
  i_hgt : forall x, (x < N)%nat -> 0 <= h x <= 2 * Z.of_nat N;
  i_src : h source = Z.of_nat N;
  i_snk : h sink = 0;
  i_seen : forall x, (x < N)%nat -> 0 <= k x <= Z.of_nat N;
  i_adm : forall x y, (x < N)%nat -> (y < N)%nat -> Z.of_nat y < k x -> ~ adm f h x y }.

(** A level that no vertex has. *)
Lemma gap (h : nat -> Z) (b : nat) :
  exists L, (b <= L <= b + N)%nat /\ forall x, (x < N)%nat -> h x <> Z.of_nat L.
Proof.
  destruct (existsb (fun L => forallb (fun x => negb (h x =? Z.of_nat L)) (seq 0 N)) (seq b (S N))) eqn:B.
  - apply existsb_exists in B. destruct B as (L & HL & A). apply in_seq in HL. exists L. split; [lia|].
    intros x Hx. rewrite forallb_forall in A. specialize (A x). rewrite in_seq in A.
    specialize (A ltac:(lia)). apply negb_true_iff in A. apply Z.eqb_neq in A. auto.
  - exfalso. assert (I : incl (map Z.of_nat (seq b (S N))) (map h (seq 0 N))).
    { intros z Hz. apply in_map_iff in Hz. destruct Hz as (L & <- & HL).
      destruct (forallb (fun x => negb (h x =? Z.of_nat L)) (seq 0 N)) eqn:A.
      - exfalso. rewrite <- not_true_iff_false, existsb_exists in B. apply B. eauto.
      - rewrite <- not_true_iff_false, forallb_forall in A. destruct (in_dec Z.eq_dec (Z.of_nat L) (map h (seq 0 N))); auto.
        exfalso. apply A. intros x Hx. apply negb_true_iff, Z.eqb_neq. intro. apply n. apply in_map_iff. eauto. }
    apply NoDup_incl_length in I.
    + rewrite !map_length, !seq_length in I. lia.
    + apply FinFun.Injective_map_NoDup; [|apply seq_NoDup]. intros a a' ?. lia.
Qed.

(** Nothing goes out of the vertices above such a level. *)
Lemma gap_saturated f e h k L x y : inv f e h k ->
  (forall x, (x < N)%nat -> h x <> Z.of_nat L) -> (x < N)%nat -> (y < N)%nat ->
  Z.of_nat L < h x -> ~ Z.of_nat L < h y -> f x y = c x y.
Proof.
  intros I G Hx Hy A B. pose proof (i_cap _ _ _ _ I x y Hx Hy). pose proof (i_lab _ _ _ _ I x y Hx Hy).
  specialize (G y Hy). lia.
Qed.

(** A vertex with excess is less than 2 N high. *)
Lemma height_bound f e h u :
  (forall x y, (x < N)%nat -> (y < N)%nat -> f x y = - f y x) ->
  (forall x y, (x < N)%nat -> (y < N)%nat -> f x y <= c x y) ->
  (forall v, (v < N)%nat -> v <> source -> e v = zsum N (fun u => f u v)) ->
  (forall v, (v < N)%nat -> v <> source -> 0 <= e v) ->
  (forall x y, (x < N)%nat -> (y < N)%nat -> 0 < c x y - f x y -> h x <= h y + 1) ->
  h source = Z.of_nat N ->
  (u < N)%nat -> u <> source -> 0 < e u -> h u < 2 * Z.of_nat N.
Proof.
  intros AS CP EX PO LB HS Hu Nu Eu. destruct (Z_lt_ge_dec (h u) (2 * Z.of_nat N)) as [|B]; auto. exfalso.
  destruct (gap h N) as (L & HL & G).
  set (S := fun x => Z.of_nat L <? h x).
  assert (Su : S u = true). { apply Z.ltb_lt. specialize (G u Hu). lia. }
  assert (Ss : S source = false). { apply Z.ltb_ge. lia. }
  assert (P : 0 < zsum N (fun v => if S v then e v else 0)).
  { apply (zsum_pos N _ u); auto.
    - intros j Hj. destruct (S j) eqn:Sj; [|lia]. apply PO; auto. intro; subst; congruence.
    - rewrite Su. auto. }
  assert (Q : zsum N (fun v => if S v then e v else 0) =
    zsum N (fun v => zsum N (fun u => if S v && S u then f u v else 0)) +
    zsum N (fun v => zsum N (fun u => if S v && negb (S u) then f u v else 0))).
  { rewrite <- zsum_add. apply zsum_ext. intros v Hv. rewrite <- zsum_add. destruct (S v) eqn:Sv.
    - rewrite EX; auto; [|intro; subst; congruence]. apply zsum_ext. intros x _. destruct (S x); simpl; lia.
    - symmetry. apply zsum_zero. auto. }
  assert (Z0 : zsum N (fun v => zsum N (fun u => if S v && S u then f u v else 0)) = 0).
  { set (x := zsum N _). assert (x = - x); [|lia]. unfold x at 2. rewrite <- zsum_opp.
    transitivity (zsum N (fun u => zsum N (fun v => - (if S u && S v then f v u else 0)))).
    - unfold x. rewrite zsum_swap. apply zsum_ext. intros a Ha. apply zsum_ext. intros v Hv.
      rewrite (AS a v Ha Hv). destruct (S a), (S v); simpl; lia.
    - apply zsum_ext. intros. apply zsum_opp. }
  assert (zsum N (fun v => zsum N (fun u => if S v && negb (S u) then f u v else 0)) <= 0).
  { apply zsum_nonpos. intros v Hv. apply zsum_nonpos. intros x Hx.
    destruct (S v) eqn:Sv, (S x) eqn:Sx; simpl; try lia.
    rewrite (AS x v) by auto. pose proof (Hc v x Hv Hx). pose proof (CP v x Hv Hx). pose proof (LB v x Hv Hx).
    specialize (G x Hx). apply Z.ltb_lt in Sv. apply Z.ltb_ge in Sx. lia. }
  lia.
Qed.

(** ** The three steps of [discharge] *)
Lemma push_adm f h u v d x y :
  0 <= d -> adm f h u v -> adm (push_f f u v d) h x y -> adm f h x y.
Proof.
  intros D (A & B) (A' & B'). split; [|auto]. unfold push_f in A'. eqbs; simpl in *; lia.
Qed.

Lemma inv_push f e h k u v :
  inv f e h k -> (u < N)%nat -> (v < N)%nat -> u <> source -> 0 < e u -> adm f h u v ->
  let d := Z.min (e u) (c u v - f u v) in
  inv (push_f f u v d) (push_e e u v d) h k.
Proof.
  intros I Hu Hv Nu Eu A d. pose proof A as (A1 & A2). destruct I.
  assert (Nuv : u <> v) by (intro; subst; lia).
  constructor; auto.
  - intros x y Hx Hy. unfold push_f. rewrite (i_anti0 x y) by auto. eqbs; simpl; lia.
  - intros x y Hx Hy. pose proof (i_cap0 x y Hx Hy). unfold push_f. eqbs; simpl; try congruence; lia.
  - intros y Hy Ny. rewrite push_sum by auto. unfold push_e. rewrite i_exc0; auto.
  - intros y Hy Ny. pose proof (i_pos0 y Hy Ny). unfold push_e. eqbs; simpl; try congruence; lia.
  - intros x y Hx Hy R. pose proof (i_lab0 x y Hx Hy). unfold push_f in R. eqbs; simpl in *; try congruence; lia.
  - intros x y Hx Hy K A'. apply (i_adm0 x y Hx Hy K). eapply push_adm; [|exact A|exact A']. lia.
Qed.

Lemma inv_next f e h k u :
  inv f e h k -> (u < N)%nat -> k u < Z.of_nat N -> ~ adm f h u (Z.to_nat (k u)) ->
  inv f e h (fun x => if (x =? u)%nat then k u + 1 else k x).
Proof.
  intros I Hu K A. destruct I. constructor; auto.
  - intros x Hx. pose proof (i_seen0 x Hx). eqbs; lia.
  - intros x y Hx Hy B. eqbs; [|auto]. destruct (Z.eq_dec (Z.of_nat y) (k u)) as [E|E].
    + rewrite <- E, Nat2Z.id in A. auto.
    + pose proof (i_seen0 u Hu). apply i_adm0; auto. lia.
Qed.

(** The new height of [u] exceeds the old one and no residual edge gets too steep. *)
Lemma relabel_ok f F h H u : mz N F f -> vz N H h -> (u < N)%nat -> h u <= inf ->
  (forall v, (v < N)%nat -> 0 < c u v - f u v -> h u <= h v) ->
  (exists v, (v < N)%nat /\ 0 < c u v - f u v) ->
  exists H' x, pr_relabel inf C F H u = Ok H' /\ vz N H' (fun i => if (i =? u)%nat then x else h i) /\
    h u < x /\ forall v, (v < N)%nat -> v <> u -> 0 < c u v - f u v -> x <= h v + 1.
Proof.
  intros HF HH Hu Hi Hmin (w & Hw & Rw). unfold pr_relabel. rewrite RC.
  match goal with |- context [mfor (seq 0 N) ?body ?s0] =>
  destruct (mfor_seq_inv (fun i (s : bvec Z * Z) => exists x,
      vz N (fst s) (fun i => if (i =? u)%nat then x else h i) /\ h u <= snd s /\
      (forall v, (v < i)%nat -> v <> u -> 0 < c u v - f u v -> snd s <= h v) /\
      ((x = h u /\ forall v, (v < i)%nat -> ~ 0 < c u v - f u v) \/ x = snd s + 1))
    body N s0) as (s & E & x & V & M & B & X) end.
  - exists (h u). cbn [fst snd]. split; [|split; [auto|split; [|left; split; [auto|]]]].
    + eapply vz_ext; [exact HH|]. intros i _. eqbs; auto.
    + intros; lia.
    + intros; lia.
  - intros i (G, m) Hi' (x & V & M & B & X). cbn [fst snd] in *. unfold pr_residual.
    rewrite (at_m_ok N C c u i HC), (at_m_ok N F f u i HF) by auto. cbn [bind].
    destruct (Z.ltb_spec 0 (c u i - f u i)) as [R|R].
    + rewrite (at_v_ok _ _ _ i V) by auto. cbn [bind]. cbv zeta.
      match goal with |- context [vec_setElement G u ?z] =>
        destruct (set_v_ok _ _ _ u z V Hu) as (G' & -> & V') end. cbn [bind].
      eexists. split; [reflexivity|]. cbn [fst snd].
      eexists. split; [|split; [|split; [|right; reflexivity]]].
      * eapply vz_ext; [exact V'|]. intros j _. cbv beta. eqbs; auto.
      * pose proof (Hmin i Hi' R). eqbs; lia.
      * intros v Hv Nv Rv. destruct (Nat.eq_dec v i) as [->|].
        -- rewrite (proj2 (Nat.eqb_neq _ _) Nv). lia.
        -- specialize (B v ltac:(lia) Nv Rv). lia.
    + eexists. split; [reflexivity|]. exists x. cbn [fst snd]. split; [auto|split; [auto|split]].
      * intros v Hv Nv Rv. destruct (Nat.eq_dec v i) as [->|]; [lia|]. apply B; auto. lia.
      * destruct X as [(X1 & X2)|X]; [left|right; auto]. split; [auto|]. intros v Hv.
        destruct (Nat.eq_dec v i) as [->|]; [lia|]. apply X2. lia.
  - rewrite E. cbn [bind]. exists (fst s), x. split; [auto|split; [auto|]].
    destruct X as [(_ & X)|X]; [exfalso; apply (X w Hw Rw)|]. split; [lia|].
    intros v Hv Nv Rv. specialize (B v Hv Nv Rv). lia.
Qed.

Lemma inv_relabel f e h k u x :
  inv f e h k -> (u < N)%nat -> u <> source -> u <> sink -> 0 < e u -> k u = Z.of_nat N ->
  h u < x -> (forall v, (v < N)%nat -> v <> u -> 0 < c u v - f u v -> x <= h v + 1) ->
  let h' := fun i => if (i =? u)%nat then x else h i in
  inv f e h' (fun i => if (i =? u)%nat then 0 else k i) /\
  (forall a b, (a < N)%nat -> (b < N)%nat -> adm f h' a b -> b <> u /\ (a = u \/ adm f h a b)) /\
  x < 2 * Z.of_nat N.
Proof.
  intros I Hu Ns Nt Eu K X B h'. destruct I.
  assert (AD : forall a b, (a < N)%nat -> (b < N)%nat -> adm f h' a b -> b <> u /\ (a = u \/ adm f h a b)).
  { intros a b Ha Hb (A1 & A2). unfold h' in A2. pose proof (i_lab0 a b Ha Hb A1). split.
    - intro; subst. rewrite Nat.eqb_refl in A2. eqbs; lia.
    - destruct (Nat.eq_dec a u) as [|Na]; auto. right. split; auto.
      rewrite (proj2 (Nat.eqb_neq _ _) Na) in A2. eqbs; lia. }
  assert (LB : forall a b, (a < N)%nat -> (b < N)%nat -> 0 < c a b - f a b -> h' a <= h' b + 1).
  { intros a b Ha Hb R. pose proof (i_lab0 a b Ha Hb R). unfold h'. eqbs; try lia. apply B; auto. }
  assert (XB : x < 2 * Z.of_nat N).
  { replace x with (h' u) by (unfold h'; rewrite Nat.eqb_refl; auto).
    apply (height_bound f e h' u); auto. unfold h'. rewrite (proj2 (Nat.eqb_neq _ _)) by auto. auto. }
  split; [|split; auto]. constructor; auto.
  - intros y Hy. pose proof (i_hgt0 y Hy). pose proof (i_hgt0 u Hu). unfold h'. eqbs; lia.
  - unfold h'. rewrite (proj2 (Nat.eqb_neq _ _)) by auto. auto.
  - unfold h'. rewrite (proj2 (Nat.eqb_neq _ _)) by auto. auto.
  - intros y Hy. pose proof (i_seen0 y Hy). eqbs; lia.
  - intros a b Ha Hb. destruct (Nat.eqb_spec a u) as [->|Na]; [lia|]. intros K' A.
    apply (i_adm0 a b Ha Hb K'). apply AD in A; auto. tauto.
Qed.

(** ** [discharge] *)
Definition st (x : pr_state) f e h k : Prop :=
  mz N (pr_F x) f /\ vz N (pr_excess x) e /\ vz N (pr_height x) h /\ vz N (pr_seen x) k.

(** What a part of the discharge of [u] has done. *)
Record done (u : nat) f0 (e0 h0 : nat -> Z) f (e h : nat -> Z) : Prop := {
  d_same : forall x, (x < N)%nat -> x <> u -> h x = h0 x;
  d_up : h0 u <= h u;
  d_adm : forall x y, (x < N)%nat -> (y < N)%nat -> adm f h x y -> x = u \/ adm f0 h0 x y;
  d_in : forall x, (x < N)%nat -> h0 u < h u -> ~ adm f h x u;
  d_sub : forall x y, (x < N)%nat -> (y < N)%nat -> h u = h0 u -> adm f h x y -> adm f0 h0 x y;
  d_exc : forall x, (x < N)%nat -> h u = h0 u -> x <> u -> ~ adm f0 h0 u x -> e x = e0 x }.

Lemma done_refl u f e h : done u f e h f e h.
Proof. constructor; auto; lia. Qed.

Definition flag f h (k : nat -> Z) u : Z :=
  if (k u <? Z.of_nat N) && (0 <? c u (Z.to_nat (k u)) - f u (Z.to_nat (k u))) && (h (Z.to_nat (k u)) <? h u)
  then 1 else 0.
Definition meas f (e h k : nat -> Z) u : Z :=
  if e u <=? 0 then 0 else
  1 + (2 * Z.of_nat N - h u) * (2 * Z.of_nat N + 2) + 2 * (Z.of_nat N - k u) + flag f h k u.

Lemma flag_range f h k u : 0 <= flag f h k u <= 1.
Proof. unfold flag. destruct (_ && _ && _); lia. Qed.

Lemma step_ok u x f e h k f0 e0 h0 :
  st x f e h k -> inv f e h k -> (u < N)%nat -> u <> source -> u <> sink -> 0 < e u ->
  done u f0 e0 h0 f e h ->
  exists x' f' e' h' k', pr_step inf C u x = Ok x' /\ st x' f' e' h' k' /\ inv f' e' h' k' /\
    done u f0 e0 h0 f' e' h' /\ meas f' e' h' k' u < meas f e h k u.
Proof.
  intros (SF & SE & SH & SK) I Hu Ns Nt Eu D. unfold pr_step.
  rewrite (at_v_ok _ _ _ u SK) by auto. cbn [bind]. rewrite RC.
  pose proof (i_seen _ _ _ _ I u Hu) as KR. pose proof (i_hgt _ _ _ _ I u Hu) as HR.
  assert (ME : meas f e h k u = 1 + (2 * Z.of_nat N - h u) * (2 * Z.of_nat N + 2) +
                 2 * (Z.of_nat N - k u) + flag f h k u).
  { unfold meas. destruct (Z.leb_spec (e u) 0); lia. }
  rewrite ME. destruct (Z.ltb_spec (k u) (Z.of_nat N)) as [K|K].
  - set (v := Z.to_nat (k u)). assert (Hv : (v < N)%nat) by lia. cbv zeta. unfold pr_residual.
    rewrite (at_m_ok N C c u v HC), (at_m_ok _ _ _ u v SF) by auto. cbn [bind].
    assert (EA : (if 0 <? c u v - f u v
         then hu <- at_v (pr_height x) u;; hv <- at_v (pr_height x) v;; Ok (hv <? hu) else Ok false) =
       Ok ((0 <? c u v - f u v) && (h v <? h u))).
    { rewrite (at_v_ok _ _ _ u SH), (at_v_ok _ _ _ v SH) by auto. cbn [bind]. destruct (0 <? _); auto. }
    rewrite EA. cbn [bind]. destruct ((0 <? c u v - f u v) && (h v <? h u)) eqn:A.
    + assert (AD : adm f h u v). { apply andb_true_iff in A. rewrite !Z.ltb_lt in A. exact A. }
      assert (Nuv : u <> v). { destruct AD. intro E. rewrite <- E in *. lia. }
      destruct (push_ok N C c _ f e _ u v HC SF SE Hu Hv) as (F' & E' & -> & HF' & HE'). cbn [bind fst snd].
      set (d := Z.min (e u) (c u v - f u v)) in *. destruct AD as (AD1 & AD2) eqn:EAD. clear EAD.
      assert (D0 : 0 < d) by lia.
      exists (mkPr F' E' (pr_height x) (pr_seen x)), (push_f f u v d), (push_e e u v d), h, k.
      split; [auto|]. split; [split; [auto|split; [auto|split; auto]]|].
      split; [apply inv_push; auto; split; auto|]. split.
      * destruct D. constructor; auto.
        -- intros a b Ha Hb Q. apply d_adm0; auto. eapply push_adm; [|split; [exact AD1|exact AD2]|exact Q]. lia.
        -- intros a Ha L Q. apply (d_in0 a Ha L). eapply push_adm; [|split; [exact AD1|exact AD2]|exact Q]. lia.
        -- intros a b Ha Hb L Q. apply d_sub0; auto. eapply push_adm; [|split; [exact AD1|exact AD2]|exact Q]. lia.
        -- intros a Ha L Na NA. rewrite <- (d_exc0 a Ha L Na NA). unfold push_e.
           assert (a <> v). { intros ->. apply NA, d_sub0; auto. }
           eqbs; simpl; try congruence; lia.
      * assert (FL : flag f h k u = 1).
        { unfold flag. fold v. rewrite (proj2 (Z.ltb_lt _ _) K), (proj2 (Z.ltb_lt _ _) AD1), (proj2 (Z.ltb_lt _ _) AD2).
          auto. }
        unfold meas. destruct (Z.leb_spec (push_e e u v d u) 0) as [L|L]; [nia|].
        assert (DE : d = c u v - f u v).
        { unfold push_e in L. rewrite Nat.eqb_refl, (proj2 (Nat.eqb_neq _ _) Nuv) in L. simpl in L. lia. }
        assert (FL' : flag (push_f f u v d) h k u = 0).
        { unfold flag. fold v. destruct (Z.ltb_spec 0 (c u v - push_f f u v d u v)) as [Q|Q].
          - exfalso. unfold push_f in Q. rewrite !Nat.eqb_refl, (proj2 (Nat.eqb_neq _ _) Nuv) in Q.
            simpl in Q. lia.
          - rewrite andb_false_r. auto. }
        lia.
    + assert (NA : ~ adm f h u v).
      { intros (Q1 & Q2). rewrite (proj2 (Z.ltb_lt _ _) Q1), (proj2 (Z.ltb_lt _ _) Q2) in A. discriminate. }
      destruct (set_v_ok _ _ _ u (k u + 1) SK Hu) as (K' & -> & HK'). cbn [bind].
      exists (mkPr (pr_F x) (pr_excess x) (pr_height x) K'), f, e, h, (fun i => if (i =? u)%nat then k u + 1 else k i).
      split; [auto|]. split; [split; [auto|split; [auto|split; auto]]|].
      split; [apply inv_next; auto|]. split; [auto|].
      unfold meas. destruct (Z.leb_spec (e u) 0); [lia|]. rewrite Nat.eqb_refl.
      pose proof (flag_range f h k u). 
      pose proof (flag_range f h (fun i => if (i =? u)%nat then k u + 1 else k i) u). lia.
  - assert (KE : k u = Z.of_nat N) by lia.
    assert (NA : forall v, (v < N)%nat -> ~ adm f h u v). { intros v Hv. apply (i_adm _ _ _ _ I); auto. lia. }
    assert (RES : exists v, (v < N)%nat /\ 0 < c u v - f u v).
    { destruct (existsb (fun v => 0 <? c u v - f u v) (seq 0 N)) eqn:B.
      - apply existsb_exists in B. destruct B as (v & Hv & L). apply in_seq in Hv. apply Z.ltb_lt in L.
        exists v. split; [lia|auto].
      - exfalso. assert (zsum N (fun v => f v u) <= 0).
        { apply zsum_nonpos. intros v Hv.
          assert (~ 0 < c u v - f u v).
          { intro L. rewrite <- not_true_iff_false, existsb_exists in B. apply B. exists v. rewrite in_seq, Z.ltb_lt. split; [lia|auto]. }
          pose proof (Hc u v Hu Hv). rewrite (i_anti _ _ _ _ I v u) by auto. lia. }
        rewrite <- (i_exc _ _ _ _ I u Hu Ns) in H. lia. }
    destruct (relabel_ok f _ h _ u SF SH Hu) as (H' & z & -> & HH' & Z1 & Z2).
    { lia. }
    { intros v Hv R. destruct (Z_lt_ge_dec (h v) (h u)); [|lia]. exfalso. apply (NA v Hv). split; auto. }
    { exact RES. }
    cbn [bind]. destruct (set_v_ok _ _ _ u 0 SK Hu) as (K' & -> & HK'). cbn [bind].
    destruct (inv_relabel f e h k u z I Hu Ns Nt Eu KE Z1 Z2) as (I' & AD & ZB).
    set (h' := fun i => if (i =? u)%nat then z else h i) in *.
    set (k' := fun i => if (i =? u)%nat then 0 else k i) in *.
    assert (HU : h' u = z) by (unfold h'; rewrite Nat.eqb_refl; auto).
    assert (KU : k' u = 0) by (unfold k'; rewrite Nat.eqb_refl; auto).
    exists (mkPr (pr_F x) (pr_excess x) H' K'), f, e, h', k'.
    split; [auto|]. split; [split; [auto|split; [auto|split; auto]]|]. split; [auto|]. split.
    + destruct D. constructor; rewrite ?HU.
      * intros y Hy Ny. unfold h'. rewrite (proj2 (Nat.eqb_neq _ _) Ny). auto.
      * lia.
      * intros a b Ha Hb Q. apply AD in Q; auto. destruct Q as (_ & [Q|Q]); auto.
      * intros a Ha _ Q. apply AD in Q; auto. tauto.
      * lia.
      * lia.
    + unfold meas. destruct (Z.leb_spec (e u) 0); [lia|]. rewrite HU, KU, KE.
      pose proof (flag_range f h k u). pose proof (flag_range f h' k' u). nia.
Qed.

Lemma discharge_ok u f0 e0 h0 n : forall x f e h k,
  st x f e h k -> inv f e h k -> (u < N)%nat -> u <> source -> u <> sink ->
  done u f0 e0 h0 f e h -> meas f e h k u < Z.of_nat n ->
  exists x' f' e' h' k', pr_discharge n inf C u x = Ok (Some x') /\ st x' f' e' h' k' /\ inv f' e' h' k' /\
    done u f0 e0 h0 f' e' h' /\ e' u = 0.
Proof.
  induction n as [|n IH]; intros x f e h k S I Hu Ns Nt D M.
  - exfalso. pose proof (i_hgt _ _ _ _ I u Hu). pose proof (i_seen _ _ _ _ I u Hu).
    pose proof (flag_range f h k u). unfold meas in M. destruct (Z.leb_spec (e u) 0); nia.
  - unfold pr_discharge. cbn [mwhileM]. destruct S as (SF & SE & SH & SK) eqn:ES. clear ES.
    rewrite (at_v_ok _ _ _ u SE) by auto. cbn [bind]. destruct (Z.ltb_spec 0 (e u)) as [Eu|Eu].
    + destruct (step_ok u x f e h k f0 e0 h0 (conj SF (conj SE (conj SH SK))) I Hu Ns Nt Eu D) as
        (x' & f' & e' & h' & k' & -> & S' & I' & D' & M'). cbn [bind].
      apply (IH x' f' e' h' k'); auto. lia.
    + exists x, f, e, h, k. split; [auto|]. split; [split; [auto|split; [auto|split; auto]]|].
      split; [auto|split; [auto|]]. pose proof (i_pos _ _ _ _ I u Hu Ns). lia.
Qed.

Lemma meas_bound f e h k u : inv f e h k -> (u < N)%nat ->
  meas f e h k u < 4 * (Z.of_nat N + 1) * (Z.of_nat N + 1).
Proof.
  intros I Hu. pose proof (i_hgt _ _ _ _ I u Hu). pose proof (i_seen _ _ _ _ I u Hu).
  pose proof (flag_range f h k u). unfold meas. destruct (Z.leb_spec (e u) 0); nia.
Qed.
(** ** The main loop *)
Definition inner (L : list nat) : Prop :=
  NoDup L /\ forall x, In x L <-> (x < N)%nat /\ x <> source /\ x <> sink.

Lemma inner_length L : inner L -> (length L + 2 = N)%nat.
Proof.
  intros (ND & IN). 
  assert (ND' : NoDup (source :: sink :: L)).
  { constructor; [|constructor; auto].
    - intros [E|I]; [congruence|]. apply IN in I. tauto.
    - intro I. apply IN in I. tauto. }
  assert (A : (length (source :: sink :: L) <= length (seq 0 N))%nat).
  { apply NoDup_incl_length; auto. intros x Hx. apply in_seq. simpl in Hx.
    destruct Hx as [<-|[<-|Hx]]; [lia|lia|]. apply IN in Hx. lia. }
  assert (B : (length (seq 0 N) <= length (source :: sink :: L))%nat).
  { apply NoDup_incl_length; [apply seq_NoDup|]. intros x Hx. apply in_seq in Hx. simpl.
    destruct (Nat.eq_dec source x); auto. destruct (Nat.eq_dec sink x); auto. right. right. apply IN.
    repeat split; auto; lia. }
  rewrite seq_length in *. simpl in *. lia.
Qed.

Lemma FOP_impl (R R' : nat -> nat -> Prop) L :
  (forall a b, In a L -> In b L -> R a b -> R' a b) -> ForallOrdPairs R L -> ForallOrdPairs R' L.
Proof.
  intros H F. induction F as [|a L Fa F IH]; constructor.
  - rewrite Forall_forall in *. intros b Hb. apply H; simpl; auto.
  - apply IH. intros; apply H; simpl; auto.
Qed.
Lemma FOP_remove (R : nat -> nat -> Prop) l1 u l2 :
  ForallOrdPairs R (l1 ++ u :: l2) -> ForallOrdPairs R (l1 ++ l2).
Proof.
  induction l1 as [|a l1 IH]; simpl; intro F; inversion F; subst; auto. constructor; auto.
  rewrite Forall_forall in *. intros x Hx. apply H1. apply in_app_iff in Hx. apply in_app_iff. simpl. tauto.
Qed.
Lemma FOP_before (R : nat -> nat -> Prop) l1 u l2 x :
  ForallOrdPairs R (l1 ++ u :: l2) -> In x l1 -> R x u.
Proof.
  induction l1 as [|a l1 IH]; simpl; intros F Hx; [contradiction|]. inversion F; subst.
  destruct Hx as [->|Hx]; auto. rewrite Forall_forall in H1. apply H1. apply in_app_iff. simpl. auto.
Qed.

Definition omeas (h : nat -> Z) (p : nat) : Z :=
  zsum N (fun v => 2 * Z.of_nat N - h v) * (Z.of_nat N + 1) + (Z.of_nat N - Z.of_nat p).

Hypothesis HN : Z.of_nat N < 2 ^ 64.

Lemma main_ok fuel n : 4 * (Z.of_nat N + 1) * (Z.of_nat N + 1) <= Z.of_nat fuel ->
  forall L p x f e h k,
  st x f e h k -> inv f e h k -> inner L -> ForallOrdPairs (fun a b => ~ adm f h b a) L ->
  (p <= length L)%nat -> (forall v, In v (firstn p L) -> e v = 0) -> omeas h p < Z.of_nat n ->
  exists x' f' e' h' k', pr_main n fuel inf C L p x = Ok (Some x') /\ st x' f' e' h' k' /\ inv f' e' h' k' /\
    forall v, (v < N)%nat -> v <> source -> v <> sink -> e' v = 0.
Proof.
  intro Hfuel. induction n as [|n IH]; intros L p x f e h k S I IL T Hp E0 M.
  - exfalso. pose proof (inner_length L IL).
    assert (0 <= zsum N (fun v => 2 * Z.of_nat N - h v)).
    { rewrite <- (zsum_zero N (fun _ => 0)) at 1 by auto. apply zsum_le. intros v Hv.
      pose proof (i_hgt _ _ _ _ I v Hv). lia. }
    unfold omeas in M. simpl in M. nia.
  - cbn [pr_main]. rewrite RC. pose proof (inner_length L IL) as LL.
    assert (LAST : pr_last N = Z.of_nat (length L)). { unfold pr_last. rewrite Z.mod_small; lia. }
    rewrite LAST. destruct (Z.ltb_spec (Z.of_nat p) (Z.of_nat (length L))) as [P|P].
    + destruct (nth_error L p) as [u|] eqn:EU; [|apply nth_error_None in EU; lia].
      destruct (nth_error_split L p EU) as (l1 & l2 & EL & Ep).
      assert (HU : In u L) by (eapply nth_error_In; eauto).
      destruct (proj1 (proj2 IL u) HU) as (Hu & Ns & Nt).
      destruct S as (SF & SE & SH & SK). rewrite (at_v_ok _ _ _ u SH) by auto. cbn [bind].
      destruct (discharge_ok u f e h fuel x f e h k (conj SF (conj SE (conj SH SK))) I Hu Ns Nt (done_refl u f e h))
        as (x' & f' & e' & h' & k' & -> & S' & I' & D & EZ).
      { pose proof (meas_bound f e h k u I Hu). lia. }
      cbn [bind]. destruct S' as (SF' & SE' & SH' & SK'). rewrite (at_v_ok _ _ _ u SH') by auto. cbn [bind].
      assert (F1 : firstn p L = l1). { rewrite EL, <- Ep, firstn_app, Nat.sub_diag, firstn_all. simpl. apply app_nil_r. }
      destruct D. destruct (Z.ltb_spec (h u) (h' u)) as [UP|SAME].
      * assert (F2 : skipn (p + 1) L = l2).
        { rewrite EL, <- Ep. replace (length l1 + 1)%nat with (length (l1 ++ [u])) by (rewrite app_length; auto).
          replace (l1 ++ u :: l2) with ((l1 ++ [u]) ++ l2) by (rewrite <- app_assoc; auto).
          rewrite skipn_app, skipn_all, Nat.sub_diag. auto. }
        rewrite F1, F2. destruct IL as (ND & IN). rewrite EL in ND.
        apply (IH _ 0%nat x' f' e' h' k'); auto.
        -- split; [auto|split; [auto|split; auto]].
        -- split.
           ++ constructor; [apply NoDup_remove_2 in ND; auto|apply NoDup_remove_1 in ND; auto].
           ++ intro y. rewrite <- IN, EL. simpl. rewrite !in_app_iff. simpl. tauto.
        -- assert (SUB : forall y, In y (l1 ++ l2) -> (y < N)%nat /\ y <> u).
           { intros y Hy. split.
             - apply IN. rewrite EL. apply in_app_iff in Hy. apply in_app_iff. simpl. tauto.
             - intros ->. apply NoDup_remove_2 in ND. auto. }
           constructor.
           ++ apply Forall_forall. intros y Hy. apply d_in0; auto. apply SUB; auto.
           ++ apply FOP_impl with (R := fun a b => ~ adm f h b a).
              ** intros a b Ha Hb NA Q. destruct (SUB a Ha), (SUB b Hb). apply d_adm0 in Q; auto. tauto.
              ** rewrite EL in T. apply FOP_remove in T. auto.
        -- lia.
        -- intros v [].
        -- assert (zsum N (fun v => 2 * Z.of_nat N - h' v) < zsum N (fun v => 2 * Z.of_nat N - h v)).
           { apply (zsum_lt N _ _ u); auto; [|lia]. intros j Hj. destruct (Nat.eq_dec j u) as [->|Nj]; [lia|].
             rewrite d_same0; auto. lia. }
           unfold omeas in *. nia.
      * assert (HE : h' u = h u) by lia.
        apply (IH L (p + 1)%nat x' f' e' h' k'); auto.
        -- split; [auto|split; [auto|split; auto]].
        -- apply FOP_impl with (R := fun a b => ~ adm f h b a); auto. intros a b Ha Hb NA Q. apply NA.
           apply IL in Ha. apply IL in Hb. apply d_sub0; auto; tauto.
        -- lia.
        -- intros v Hv. assert (HV : In v l1 \/ v = u).
           { replace (p + 1)%nat with (length (l1 ++ [u])) in Hv by (rewrite app_length; simpl; lia).
             replace L with ((l1 ++ [u]) ++ l2) in Hv by (rewrite <- app_assoc; auto).
             rewrite firstn_app, firstn_all, Nat.sub_diag, firstn_O, app_nil_r in Hv.
             apply in_app_iff in Hv. simpl in Hv. destruct Hv as [|[|[]]]; auto. }
           destruct HV as [HV| ->]; auto. rewrite d_exc0; auto.
           ++ apply E0. rewrite F1. auto.
           ++ assert (In v L) by (rewrite EL; apply in_app_iff; auto). apply IL in H. tauto.
           ++ intros ->. destruct IL as (ND & _). rewrite EL in ND. apply NoDup_remove_2 in ND. apply ND.
              apply in_app_iff. auto.
           ++ rewrite EL in T. apply (FOP_before _ l1 u l2 v T HV).
        -- assert (zsum N (fun v => 2 * Z.of_nat N - h' v) = zsum N (fun v => 2 * Z.of_nat N - h v)).
           { apply zsum_ext. intros j Hj. destruct (Nat.eq_dec j u) as [->|Nj]; [lia|]. rewrite d_same0; auto. }
           unfold omeas in *. rewrite H. lia.
    + exists x, f, e, h, k. split; [auto|split; [auto|split; [auto|]]]. intros v Hv Ns Nt. apply E0.
      rewrite firstn_all2 by lia. apply IL. auto.
Qed.

(** ** The first pushes *)
Hypothesis Hsum : zsum N (fun v => c source v) <= inf.

Definition f0 (i x y : nat) : Z :=
  b1 ((x =? source)%nat && (y <? i)%nat && negb (y =? source)%nat) * c source y -
  b1 ((y =? source)%nat && (x <? i)%nat && negb (x =? source)%nat) * c source x.
Definition e0 (i x : nat) : Z :=
  if (x =? source)%nat then inf - zsum i (fun j => b1 (negb (j =? source)%nat) * c source j)
  else b1 (x <? i)%nat * c source x.

Lemma zsum_prefix i g : (i <= N)%nat -> (forall j, (j < N)%nat -> 0 <= g j) -> zsum i g <= zsum N g.
Proof.
  intros Hi Hg. assert (forall m, (i <= m)%nat -> (m <= N)%nat -> zsum i g <= zsum m g); auto.
  induction m as [|m IH]; intros; [replace i with 0%nat by lia; lia|].
  destruct (Nat.eq_dec i (S m)) as [->|]; [lia|]. rewrite zsum_S. pose proof (Hg m ltac:(lia)). specialize (IH ltac:(lia) ltac:(lia)). lia.
Qed.

Lemma init_ok F E : mz N F (fun _ _ => 0) -> vz N E (fun x => if (x =? source)%nat then inf else 0) ->
  exists s, mfor (seq 0 N) (fun i '(F, excess) => pr_push C F excess source i) (F, E) = Ok s /\
    mz N (fst s) (f0 N) /\ vz N (snd s) (e0 N).
Proof.
  intros HF HE.
  apply (mfor_seq_inv (fun i (s : lil Z * bvec Z) => mz N (fst s) (f0 i) /\ vz N (snd s) (e0 i))).
  - cbn [fst snd]. split.
    + eapply mz_ext; [exact HF|]. intros x y _ _. unfold f0. simpl. rewrite !andb_false_r. simpl. lia.
    + eapply vz_ext; [exact HE|]. intros x _. unfold e0. rewrite zsum_0. destruct (x =? source)%nat; simpl; lia.
  - intros i (F1, E1) Hi (H1 & H2). cbn [fst snd] in *.
    destruct (push_ok N C c F1 _ _ E1 source i HC H1 H2 Hs Hi) as (F' & E' & -> & H3 & H4).
    exists (F', E'). split; [auto|]. cbn [fst snd].
    set (d := Z.min (e0 i source) (c source i - f0 i source i)) in *.
    destruct (Nat.eq_dec i source) as [->|Ni].
    + assert (LS : forall j, (j <? S source)%nat = ((j <? source)%nat || (j =? source)%nat)).
      { intro j. destruct (Nat.ltb_spec j (S source)), (Nat.ltb_spec j source), (Nat.eqb_spec j source); simpl; auto; lia. }
      split.
      * eapply mz_ext; [exact H3|]. intros x y _ _. unfold push_f, f0. change (1 + source)%nat with (S source).
        rewrite !LS. destruct (x =? source)%nat, (y =? source)%nat, (x <? source)%nat, (y <? source)%nat; simpl; lia.
      * eapply vz_ext; [exact H4|]. intros x _. unfold push_e, e0. change (1 + source)%nat with (S source).
        rewrite LS, zsum_S, Nat.eqb_refl. destruct (x =? source)%nat, (x <? source)%nat; simpl; lia.
    + assert (DE : d = c source i).
      { assert (FE : f0 i source i = 0).
        { unfold f0. rewrite Nat.eqb_refl, Nat.ltb_irrefl. simpl. rewrite andb_false_r. simpl. lia. }
        unfold d. rewrite FE, Z.sub_0_r. apply Z.min_r. unfold e0. rewrite Nat.eqb_refl.
        assert (zsum (S i) (fun j => b1 (negb (j =? source)%nat) * c source j) <= zsum N (fun v => c source v)).
        { eapply Z.le_trans; [apply zsum_prefix|]; [lia| |].
          - intros j Hj. pose proof (Hc source j Hs Hj). destruct (negb _); simpl; lia.
          - apply zsum_le. intros j Hj. pose proof (Hc source j Hs Hj). destruct (negb _); simpl; lia. }
        rewrite zsum_S, (proj2 (Nat.eqb_neq _ _) Ni) in H. cbn [negb b1] in H. lia. }
      assert (LS : forall j, (j <? S i)%nat = ((j <? i)%nat || (j =? i)%nat)).
      { intro j. destruct (Nat.ltb_spec j (S i)), (Nat.ltb_spec j i), (Nat.eqb_spec j i); simpl; auto; lia. }
      split.
      * eapply mz_ext; [exact H3|]. intros x y _ _. unfold push_f, f0. change (1 + i)%nat with (S i). rewrite DE, !LS.
        destruct (Nat.ltb_spec x i), (Nat.ltb_spec y i); eqbs; simpl; try congruence; lia.
      * eapply vz_ext; [exact H4|]. intros x _. unfold push_e, e0. change (1 + i)%nat with (S i).
        rewrite LS, zsum_S, DE, (proj2 (Nat.eqb_neq _ _) Ni). cbn [negb b1].
        destruct (Nat.ltb_spec x i); eqbs; simpl; try congruence; lia.
Qed.

Lemma f0_N x y : (x < N)%nat -> (y < N)%nat ->
  f0 N x y = b1 ((x =? source)%nat && negb (y =? source)%nat) * c source y -
             b1 ((y =? source)%nat && negb (x =? source)%nat) * c source x.
Proof.
  intros Hx Hy. unfold f0. rewrite (proj2 (Nat.ltb_lt _ _) Hx), (proj2 (Nat.ltb_lt _ _) Hy), !andb_true_r. auto.
Qed.

Definition hh0 (x : nat) : Z := if (x =? source)%nat then Z.of_nat N else 0.
Lemma adm0 x y : (x < N)%nat -> (y < N)%nat -> ~ adm (f0 N) hh0 x y.
Proof.
  intros Hx Hy (A & B). rewrite f0_N in A by auto. unfold hh0 in B.
  destruct (Nat.eqb_spec x source) as [->|]; destruct (Nat.eqb_spec y source) as [->|]; simpl in *; try lia.
Qed.

Lemma inv0 : inv (f0 N) (e0 N) hh0 (fun _ => 0).
Proof.
  constructor.
  - intros x y Hx Hy. rewrite !f0_N by auto. lia.
  - intros x y Hx Hy. rewrite f0_N by auto. pose proof (Hc x y Hx Hy). pose proof (Hc source x Hs Hx).
    eqbs; simpl; try congruence; lia.
  - intros v Hv Nv. unfold e0. rewrite (proj2 (Nat.eqb_neq _ _) Nv), (proj2 (Nat.ltb_lt _ _) Hv).
    rewrite (zsum_single N _ source Hs).
    + rewrite f0_N by auto. rewrite Nat.eqb_refl, (proj2 (Nat.eqb_neq _ _) Nv). simpl. lia.
    + intros j Hj Nj. rewrite f0_N by auto. rewrite (proj2 (Nat.eqb_neq _ _) Nv), (proj2 (Nat.eqb_neq _ _) Nj).
      simpl. lia.
  - intros v Hv Nv. unfold e0. rewrite (proj2 (Nat.eqb_neq _ _) Nv), (proj2 (Nat.ltb_lt _ _) Hv).
    pose proof (Hc source v Hs Hv). simpl. lia.
  - intros x y Hx Hy R. rewrite f0_N in R by auto. unfold hh0. eqbs; simpl in *; lia.
  - intros x Hx. unfold hh0. destruct (_ =? _)%nat; lia.
  - unfold hh0. rewrite Nat.eqb_refl. auto.
  - unfold hh0. rewrite (proj2 (Nat.eqb_neq _ _)); auto.
  - intros; lia.
  - intros x y Hx Hy _. apply adm0; auto.
Qed.

(** ** The flow at the end *)
Lemma final_max f e h k : inv f e h k ->
  (forall v, (v < N)%nat -> v <> source -> v <> sink -> e v = 0) ->
  is_flow N c source sink f /\
  is_max_flow N c source sink (zsum N (fun v => f source v)).
Proof.
  intros I Z0. assert (FL : is_flow N c source sink f).
  { split; [apply (i_anti _ _ _ _ I)|split; [apply (i_cap _ _ _ _ I)|]]. intros v Hv Ns Nt.
    rewrite <- (i_exc _ _ _ _ I) by auto. auto. }
  split; [auto|]. destruct (gap h 0) as (L & HL & G).
  assert (VE : zsum N (fun v => f source v) = flow_value N sink f).
  { rewrite (flow_cut N c source sink Hs Ht f (fun x => (x =? source)%nat) FL).
    - symmetry. etransitivity; [apply (zsum_single N _ source Hs)|cbv beta].
      2: { rewrite Nat.eqb_refl. apply zsum_ext. intros v Hv. destruct (Nat.eqb_spec v source) as [->|]; simpl; auto.
        pose proof (i_anti _ _ _ _ I source source Hs Hs). lia. }
      intros j Hj Nj. rewrite (proj2 (Nat.eqb_neq _ _) Nj). simpl. apply zsum_zero. auto.
    - split; [apply Nat.eqb_refl|apply Nat.eqb_neq; auto]. }
  rewrite VE. apply (saturated_max N c source sink Hs Ht f (fun x => Z.of_nat L <? h x) FL).
  - split.
    + apply Z.ltb_lt. pose proof (G source Hs). rewrite (i_src _ _ _ _ I) in *. lia.
    + apply Z.ltb_ge. rewrite (i_snk _ _ _ _ I). lia.
  - intros x y Hx Hy A B. apply Z.ltb_lt in A. apply Z.ltb_ge in B.
    apply (gap_saturated f e h k L x y I G Hx Hy A). lia.
Qed.

Lemma oz_osum l : oz (osum Z.add l) = fold_right Z.add 0 (map oz l).
Proof.
  induction l as [|o l IH]; [reflexivity|]. rewrite (osum_cons Z.add (fun x y z => eq_sym (Z.add_assoc x y z))). cbn [map fold_right].
  rewrite <- IH. destruct o, (osum Z.add l); simpl; lia.
Qed.

Theorem push_relabel_ok n : (4 * (N + 1) * (N + 1) * (N + 1) <= n)%nat ->
  exists x, maxflow_push_relabel inf n C source sink = Ok (Some x) /\ is_max_flow N c source sink x.
Proof.
  intro Hn. unfold maxflow_push_relabel. rewrite RC, CC.
  assert (N0 : N <> 0%nat) by lia.
  destruct (vis_new 0 N N0) as (w0 & E0 & V0). rewrite E0. cbn [bind].
  apply vz_vis in V0. cbn [oz] in V0.
  destruct (set_v_ok N w0 _ source (Z.of_nat N) V0 Hs) as (H & -> & HH). cbn [bind].
  destruct (set_v_ok N w0 _ source inf V0 Hs) as (E & -> & HE). cbn [bind].
  destruct (init_ok (lil_new N N) E) as (s & -> & HF & HE'); [|exact HE|].
  { split; [apply lil_new_wf|split; [auto|split; [auto|]]]. intros. unfold capacity. rewrite mget_new. auto. }
  cbn [bind].
  set (L := filter _ _).
  assert (IL : inner L).
  { split; [apply NoDup_filter, seq_NoDup|]. intro x. unfold L. rewrite filter_In, in_seq, andb_true_iff, !negb_true_iff, !Nat.eqb_neq.
    intuition lia. }
  assert (FOP : ForallOrdPairs (fun a b => ~ adm (f0 N) hh0 b a) L).
  { assert (B : forall x, In x L -> (x < N)%nat) by (intros x Hx; apply IL; auto).
    clearbody L. clear IL. induction L as [|a L IH]; constructor.
    - apply Forall_forall. intros b Hb. apply adm0; apply B; simpl; auto.
    - apply IH. intros; apply B; simpl; auto. }
  destruct (main_ok n n ltac:(nia) L 0 (mkPr (fst s) (snd s) H w0) (f0 N) (e0 N) hh0 (fun _ => 0))
    as (x & f & e & h & k & -> & (SF & _) & I & Z0); auto.
  - split; [auto|split; [auto|split; auto]].
  - apply inv0.
  - lia.
  - intros v [].
  - unfold omeas. assert (zsum N (fun v => 2 * Z.of_nat N - hh0 v) <= 2 * Z.of_nat N * Z.of_nat N).
    { transitivity (zsum N (fun _ => 2 * Z.of_nat N)).
      - apply zsum_le. intros i Hi. unfold hh0. destruct (_ =? _)%nat; lia.
      - clear. assert (forall m, zsum m (fun _ => 2 * Z.of_nat N) = 2 * Z.of_nat N * Z.of_nat m); [|rewrite H; lia].
        induction m; [rewrite zsum_0; lia|]. rewrite zsum_S. lia. }
    nia.
  - cbn [bind]. destruct V0 as (W0 & S0 & G0). destruct SF as (WF & RF & CF & GF).
    destruct (reduce_ok idc Z.add Z.add btrue idc (NoAcc idc) vnomask MERGE w0 (Mat (pr_F x)))
      as (w' & Ew & Ww & Sw & Gw); auto.
    { apply W0. }
    { exact Logic.I. }
    { split; [exact Logic.I|]. simpl. lia. }
    rewrite Ew. cbn [bind].
    assert (VW : vz N w' (fun i => zsum N (fun j => f i j))).
    { split; [auto|split; [lia|]]. intros i Hi. rewrite Gw by lia. cbn [vmask_allows spec_accum].
      unfold spec_write. cbn [vnomask vmask_allows]. rewrite (ofold_osum idc Z.add Z.add) by reflexivity.
      unfold idc. rewrite ?option_map_id'.
      rewrite oz_osum, !map_map. simpl vcols. rewrite CF. unfold zsum. f_equal. apply map_ext_in.
      intros j Hj. apply in_seq in Hj. rewrite <- GF by lia. unfold capacity. simpl. destruct (mget (pr_F x) i j); auto. }
    rewrite (at_v_ok _ _ _ source VW) by auto. cbn [bind]. eexists. split; [reflexivity|].
    apply (final_max f e h k I Z0).
Qed.
End Push.
