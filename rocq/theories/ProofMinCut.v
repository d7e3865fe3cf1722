(** The maximum flow is the least capacity of a cut. *)
From Coq Require Import Lia.
From Verif Require Import Base ModelLil Spec SpecFlow ProofFlow.
Local Open Scope Z_scope.

Definition one_at (b : bool) : Z := if b then 1 else 0.
Lemma zsum_one N (P : bool) u : (u < N)%nat -> zsum N (fun a => one_at ((a =? u)%nat && P)) = one_at P.
Proof.
  intros Hu. rewrite (zsum_single N _ u Hu).
  - rewrite Nat.eqb_refl. reflexivity.
  - intros j _ Nj. rewrite (proj2 (Nat.eqb_neq _ _) Nj). reflexivity.
Qed.

Section Residual.
Context (N : nat) (cap : nat -> nat -> Z) (s t : nat) (f : nat -> nat -> Z).
Context (Hs : (s < N)%nat) (Ht : (t < N)%nat) (Hst : s <> t).
Context (FL : is_flow N cap s t f).

(** [g] can be added to the flow, and takes one unit from the source to [v] inside [S]. *)
Definition detour (S : nat -> bool) (v : nat) (g : nat -> nat -> Z) : Prop :=
  (forall a b, g a b = - g b a) /\
  (forall a b, g a b <> 0 -> S a = true /\ S b = true) /\
  (forall a b, (a < N)%nat -> (b < N)%nat -> f a b + g a b <= cap a b) /\
  (forall b, (b < N)%nat -> zsum N (fun a => g a b) = one_at (b =? v)%nat - one_at (b =? s)%nat).
Definition served (S : nat -> bool) : Prop :=
  S s = true /\ forall v, S v = true -> (v < N)%nat /\ exists g, detour S v g.

Lemma served_start : served (fun v => (v =? s)%nat).
Proof.
  split; [apply Nat.eqb_refl|]. intros v E. apply Nat.eqb_eq in E. subst v. split; [exact Hs|].
  exists (fun _ _ => 0). split; [reflexivity|]. split; [congruence|]. split.
  - intros a b Ha Hb. destruct FL as (_ & C & _). specialize (C a b Ha Hb). lia.
  - intros b _. rewrite zsum_zero by auto. lia.
Qed.
Lemma served_more S u v :
  served S -> S u = true -> S v = false -> (v < N)%nat -> f u v < cap u v ->
  served (fun x => S x || (x =? v)%nat).
Proof.
  intros (S0 & SV) Su Sv Hv R. split; [now rewrite S0|].
  assert (Ne : u <> v) by congruence.
  intros x E. apply Bool.orb_true_iff in E. destruct E as [E|E].
  - destruct (SV x E) as (Hx & g & A & B & C & D). split; [exact Hx|]. exists g.
    split; [exact A|]. split; [|split; auto]. intros a b G. destruct (B a b G) as (-> & ->). auto.
  - apply Nat.eqb_eq in E. subst x. split; [exact Hv|].
    destruct (SV u Su) as (Hu & g & A & B & C & D).
    assert (G0 : forall a, g a v = 0 /\ g v a = 0).
    { intros a. split.
      - destruct (Z.eq_dec (g a v) 0) as [|G]; auto. destruct (B a v G). congruence.
      - destruct (Z.eq_dec (g v a) 0) as [|G]; auto. destruct (B v a G). congruence. }
    exists (fun a b => g a b + one_at ((a =? u)%nat && (b =? v)%nat) - one_at ((a =? v)%nat && (b =? u)%nat)).
    split; [|split; [|split]].
    + intros a b. pose proof (A a b). destruct (a =? u)%nat, (b =? v)%nat, (a =? v)%nat, (b =? u)%nat; simpl; lia.
    + intros a b G. destruct (Nat.eqb_spec a u) as [Ea|Na]; [subst a|]; (destruct (Nat.eqb_spec b v) as [Eb|Nb]; [subst b|]);
        rewrite ?Nat.eqb_refl in *.
      * rewrite Su, Bool.orb_true_r. auto.
      * destruct (Nat.eqb_spec u v); [congruence|]. simpl in G. rewrite Z.add_0_r, Z.sub_0_r in G.
        destruct (B u b G) as (-> & ->). auto.
      * destruct (G0 a) as (G1 & _). rewrite G1 in G. destruct (Nat.eqb_spec v u); [congruence|].
        rewrite Bool.andb_false_r in G. simpl in G. lia.
      * destruct (Nat.eqb_spec a v) as [Ea|Na']; [subst a|].
        -- destruct (Nat.eqb_spec b u) as [Eb|Nb']; [subst b|].
           ++ rewrite Su, Bool.orb_true_r. auto.
           ++ destruct (G0 b) as (_ & G1). rewrite G1 in G. simpl in G. lia.
        -- simpl in G. rewrite Z.add_0_r, Z.sub_0_r in G. destruct (B a b G) as (-> & ->). auto.
    + intros a b Ha Hb. specialize (C a b Ha Hb). destruct FL as (_ & CF & _). pose proof (CF a b Ha Hb) as CF'.
      destruct (Nat.eqb_spec a u) as [Ea|Na]; [subst a|]; (destruct (Nat.eqb_spec b v) as [Eb|Nb]; [subst b|]); simpl.
      * destruct (G0 u) as (G1 & _). rewrite G1. destruct (_ && _)%bool; simpl; lia.
      * destruct (_ && _)%bool; simpl; lia.
      * destruct (_ && _)%bool; simpl; lia.
      * destruct (_ && _)%bool; simpl; lia.
    + intros b Hb.
      transitivity (zsum N (fun a => g a b) + zsum N (fun a => one_at ((a =? u)%nat && (b =? v)%nat))
        - zsum N (fun a => one_at ((a =? v)%nat && (b =? u)%nat))).
      { rewrite <- zsum_add. unfold Z.sub at 2. rewrite <- zsum_opp, <- zsum_add. apply zsum_ext. intros. lia. }
      rewrite !zsum_one by auto. rewrite D by auto. lia.
Qed.

(** Add vertices until no edge with capacity left leaves the set. *)
Lemma served_closed m : forall S, served S -> (length (filter (fun v => negb (S v)) (seq 0 N)) <= m)%nat ->
  exists S', served S' /\ forall u v, (u < N)%nat -> (v < N)%nat -> S' u = true -> S' v = false -> f u v = cap u v.
Proof.
  induction m as [|m IH]; intros S SV L.
  - exists S. split; [exact SV|]. intros u v Hu Hv _ E. exfalso.
    assert (I : In v (filter (fun v => negb (S v)) (seq 0 N))) by (apply filter_In; split; [apply in_seq; lia|now rewrite E]).
    destruct (filter _ _); [inversion I|simpl in L; lia].
  - set (P := fun e : nat * nat => S (fst e) && negb (S (snd e)) && (f (fst e) (snd e) <? cap (fst e) (snd e))).
    destruct (existsb P (list_prod (seq 0 N) (seq 0 N))) eqn:X.
    + apply existsb_exists in X. destruct X as ((u & v) & I & E). apply in_prod_iff in I. destruct I as (Iu & Iv).
      apply in_seq in Iu, Iv. unfold P in E. cbn [fst snd] in E. apply Bool.andb_true_iff in E. destruct E as (E & E3).
      apply Bool.andb_true_iff in E. destruct E as (E1 & E2). apply Bool.negb_true_iff in E2. apply Z.ltb_lt in E3.
      apply (IH (fun x => S x || (x =? v)%nat)); [apply (served_more S u v); auto; lia|].
      assert (In v (filter (fun v => negb (S v)) (seq 0 N))) by (apply filter_In; split; [apply in_seq; lia|now rewrite E2]).
      apply Nat.lt_succ_r. eapply Nat.lt_le_trans; [|exact L].
      clear - H. induction (seq 0 N) as [|x l IHl]; [inversion H|]. simpl in H |- *.
      assert (LE : (length (filter (fun x => negb (S x || (x =? v)%nat)) l) <= length (filter (fun v => negb (S v)) l))%nat).
      { clear. induction l as [|y l IHl]; simpl; auto. destruct (S y), (y =? v)%nat; simpl; lia. }
      destruct (S x) eqn:Ex; simpl in *; [now apply IHl|]. destruct (Nat.eqb_spec x v) as [->|Nx]; simpl; [lia|].
      destruct H as [H|H]; [congruence|]. apply IHl in H. lia.
    + exists S. split; [exact SV|]. intros u v Hu Hv E1 E2.
      destruct FL as (_ & C & _). specialize (C u v Hu Hv).
      destruct (Z.lt_ge_cases (f u v) (cap u v)) as [R|R]; [|lia]. exfalso.
      assert (Y : existsb P (list_prod (seq 0 N) (seq 0 N)) = true); [|congruence].
      apply existsb_exists. exists (u, v). split; [apply in_prod_iff; split; apply in_seq; lia|].
      unfold P. cbn [fst snd]. rewrite E1, E2. simpl. now apply Z.ltb_lt.
Qed.

Lemma max_flow_cut :
  (forall f', is_flow N cap s t f' -> flow_value N t f' <= flow_value N t f) ->
  exists S, is_cut N s t S /\ cut_capacity N cap S = flow_value N t f.
Proof.
  intros M. destruct (served_closed _ _ served_start (le_n _)) as (S & (S0 & SV) & SAT).
  exists S. assert (St : S t = false).
  { destruct (S t) eqn:E; auto. exfalso. destruct (SV t E) as (_ & g & A & _ & C & D).
    assert (F' : is_flow N cap s t (fun a b => f a b + g a b)).
    { destruct FL as (FA & _ & FC). split; [|split; [exact C|]].
      - intros u v Hu Hv. rewrite (FA u v Hu Hv), (A u v). lia.
      - intros v Hv Ns Nt. rewrite zsum_add, FC, D by auto.
        rewrite (proj2 (Nat.eqb_neq _ _) Ns), (proj2 (Nat.eqb_neq _ _) Nt). reflexivity. }
    apply M in F'. unfold flow_value in F'. rewrite zsum_add, (D t Ht), Nat.eqb_refl in F'.
    rewrite (proj2 (Nat.eqb_neq t s)) in F' by auto. simpl in F'. lia. }
  assert (CU : is_cut N s t S) by (split; auto). split; [exact CU|].
  rewrite (flow_cut N cap s t Hs Ht f S FL CU). apply zsum_ext. intros u Hu. apply zsum_ext. intros v Hv.
  destruct (S u) eqn:Eu, (S v) eqn:Ev; simpl; auto. symmetry. now apply SAT.
Qed.
End Residual.

(** Max-flow min-cut. *)
Lemma max_flow_min_cut N cap s t x : (s < N)%nat -> (t < N)%nat -> s <> t ->
  is_max_flow N cap s t x ->
  (exists S, is_cut N s t S /\ cut_capacity N cap S = x) /\
  forall S, is_cut N s t S -> x <= cut_capacity N cap S.
Proof.
  intros Hs Ht Ne ((f & F & E) & M). split.
  - subst x. now apply (max_flow_cut N cap s t f).
  - intros S CU. rewrite <- E. now apply (flow_le_cut N cap s t).
Qed.
