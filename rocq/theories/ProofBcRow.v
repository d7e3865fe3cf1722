(** The steps of the betweenness algorithms for one source. *)
From Coq Require Import Lia QArith Qcanon.
From Verif Require Import Base ModelLil ModelVec ModelHelpers ModelAlgoBase ModelBc Spec SpecOps SpecRank SpecBc ProofBase
  ProofGraph ProofReduce ProofRank ProofVis ProofBcPaths.
Local Open Scope nat_scope.

Lemma osum_snoc'' {X} (op : X -> X -> X) l x : osum op (l ++ [x]) = oadd op (osum op l) x.
Proof. unfold osum. rewrite fold_left_app. auto. Qed.
Lemma osum_hom {X Y} (h : X -> Y) (f : X -> X -> X) (g : Y -> Y -> Y) l :
  (forall a b, g (h a) (h b) = h (f a b)) -> osum g (map (option_map h) l) = option_map h (osum f l).
Proof.
  intro H. induction l using rev_ind; auto. rewrite map_app. cbn [map]. rewrite !osum_snoc'', IHl.
  destruct (osum f l), x; simpl; auto. rewrite H. auto.
Qed.
Lemma osum_nat N (b : nat -> bool) f : (forall k, k < N -> b k = true -> f k <> 0) ->
  osum Nat.add (map (fun k => if b k then Some (f k) else None) (seq 0 N)) =
  let t := nsum N (fun k => if b k then f k else 0) in if t =? 0 then None else Some t.
Proof.
  induction N as [|N IH]; intro H; auto. rewrite seq_S, map_app. cbn [map]. rewrite osum_snoc'', IH by auto.
  cbv zeta. simpl. specialize (H N ltac:(lia)). destruct (b N).
  - specialize (H eq_refl). destruct (Nat.eqb_spec (nsum N (fun k => if b k then f k else 0)) 0) as [E|E]; simpl.
    + rewrite E. simpl. rewrite (proj2 (Nat.eqb_neq _ 0)); auto.
    + rewrite (proj2 (Nat.eqb_neq _ 0)) by lia. auto.
  - rewrite Nat.add_0_r. destruct (nsum N (fun k => if b k then f k else 0) =? 0); auto.
Qed.

Section Row.
Context (N : nat) (edge : nat -> nat -> bool) (s : nat).
Hypothesis Hs : s < N.
Local Notation W := (W N edge).
Local Notation lev := (lev N edge s).
Local Notation levb := (levb N edge s).
Local Notation dist := (dist N edge s).
Local Notation D := (D N edge s).

Lemma levb_false k v : ~ lev k v -> levb k v = false.
Proof. intro H. destruct (levb k v) eqn:E; auto. apply levb_spec in E. contradiction. Qed.
Lemma levb_source k : levb (S k) s = false.
Proof. apply levb_false. intros (_ & H). specialize (H 0 ltac:(lia)). rewrite W_0, Nat.eqb_refl in H. discriminate. Qed.
Lemma levb_0 v : levb 0 v = (s =? v).
Proof. unfold ProofBcPaths.levb. simpl. rewrite W_0, andb_true_r. destruct (s =? v); auto. Qed.
Lemma levb_dist k v : v < N -> levb k v = match dist v with Some l => l =? k | None => false end.
Proof.
  intro Hv. destruct (dist v) as [l|] eqn:E.
  - apply (dist_lev N edge s Hs v l Hv) in E. destruct (Nat.eqb_spec l k) as [->|Nl].
    + apply levb_spec. auto.
    + apply levb_false. intro L. apply Nl. eapply lev_unique; eauto.
  - apply levb_false. intros (L & _). apply L. apply (dist_None N edge s Hs v Hv E).
Qed.
Lemma dist_source : dist s = Some 0.
Proof. apply (dist_lev N edge s Hs s 0 Hs). apply lev_source. Qed.
Lemma dist_pos v l : v < N -> v <> s -> dist v = Some l -> 1 <= l.
Proof.
  intros Hv Nv E. apply (dist_lev N edge s Hs v l Hv) in E. destruct l; [|lia]. apply (lev_0 N edge s) in E. congruence.
Qed.
(** Below an occupied level the levels are occupied. *)
Lemma lev_down j : forall k v, v < N -> lev k v -> j <= k -> exists u, u < N /\ lev j u.
Proof.
  intros k. induction k as [|k IH]; intros v Hv L Hj.
  - replace j with 0 by lia. eauto.
  - destruct (Nat.eq_dec j (S k)) as [->|]; [eauto|]. destruct (lev_pred N edge s Hs k v Hv L) as (u & Hu & Lu & _).
    apply (IH u Hu Lu). lia.
Qed.

(** ** The search *)
Section Count.
Context {C E : Type} (inj : nat -> C) (add : C -> C -> C) (mul : C -> E -> C) (truthy : C -> bool).
Context (fA : nat -> nat -> option E).
Hypothesis Hadd : forall a b, add (inj a) (inj b) = inj (a + b).
Hypothesis Htruthy : forall a, truthy (inj a) = negb (a =? 0).
Hypothesis HA : forall u v, u < N -> v < N -> edge u v = is_some (fA u v).
Hypothesis Hmul : forall u v x a, u < N -> v < N -> fA u v = Some x -> mul (inj a) x = inj a.

(** [F] holds the number of paths to the vertices at level [d]; the source may occur at level 1. *)
Definition isF (d : nat) (F : nat -> option C) : Prop :=
  (forall v, v < N -> v <> s \/ d = 0 -> F v = if levb d v then Some (inj (W d s v)) else None) /\
  (1 <= d -> F s = None \/ (d = 1 /\ exists c, F s = Some (inj c))).
(** [P] holds the numbers of paths to the vertices up to level [d]. *)
Definition isP (d : nat) (P : nat -> option C) : Prop :=
  (forall v, v < N -> v <> s -> P v = match dist v with
     | Some l => if l <=? d then Some (inj (W l s v)) else None | None => None end) /\
  exists c, c <> 0 /\ P s = Some (inj c).
(** The mask of level [d]. *)
Definition isS (d : nat) (S : nat -> bool) : Prop :=
  (forall v, v < N -> v <> s -> S v = levb d v) /\ (2 <= d -> S s = false).

Lemma step_S d F : 1 <= d -> isF d F -> isS d (fun v => otrue truthy (F v)).
Proof.
  intros Hd (A & B). split.
  - intros v Hv Nv. rewrite A by auto. destruct (levb d v) eqn:L; auto. simpl. rewrite Htruthy. apply levb_spec in L.
    rewrite (proj2 (Nat.eqb_neq _ 0)); auto. apply L.
  - intro H2. destruct (B Hd) as [->|(E1 & _)]; [auto|lia].
Qed.
Lemma step_P d F P P' : isF (S d) F -> isP d P -> (forall v, v < N -> P' v = ounion add idc idc (P v) (F v)) -> isP (S d) P'.
Proof.
  intros (A & A') (B & c & Hc & B') H. split.
  - intros v Hv Nv. rewrite H, A, B by auto. rewrite levb_dist by auto. destruct (dist v) as [l|] eqn:El; [|auto].
    destruct (Nat.leb_spec l d), (Nat.leb_spec l (S d)), (Nat.eqb_spec l (S d)); try lia; simpl; auto.
    subst. auto.
  - rewrite H, B' by auto. destruct (A' ltac:(lia)) as [->|(_ & c' & ->)]; simpl.
    + eauto.
    + rewrite Hadd. exists (c + c'). split; [lia|auto].
Qed.
(** The first level of the searches that start at the source itself. *)
Lemma step_P' d F P P' : isF (S d) F -> isP d P -> (forall v, v < N -> P' v = ounion add idc idc (F v) (P v)) -> isP (S d) P'.
Proof.
  intros (A & A') (B & c & Hc & B') H. split.
  - intros v Hv Nv. rewrite H, A, B by auto. rewrite levb_dist by auto. destruct (dist v) as [l|] eqn:El; [|auto].
    destruct (Nat.leb_spec l d), (Nat.leb_spec l (S d)), (Nat.eqb_spec l (S d)); try lia; simpl; auto.
    subst. auto.
  - rewrite H, B' by auto. destruct (A' ltac:(lia)) as [->|(_ & c' & ->)]; simpl.
    + eauto.
    + rewrite Hadd. exists (c' + c). split; [lia|auto].
Qed.

Lemma step_F d F P F' : isF d F -> isP d P ->
  (forall v, v < N -> F' v = if negb (otrue truthy (P v))
     then osum add (map (fun k => omap2 mul (F k) (fA k v)) (seq 0 N)) else None) ->
  isF (S d) F'.
Proof.
  intros (A & A') (B & c & Hc & B') H. split.
  - intros v Hv [Nv|]; [|lia]. rewrite H, B by auto. rewrite levb_dist by auto.
    assert (U : (forall j, j <= d -> W j s v = 0) ->
      osum add (map (fun k => omap2 mul (F k) (fA k v)) (seq 0 N)) =
      if W (S d) s v =? 0 then None else Some (inj (W (S d) s v))).
    { intro Z. rewrite (map_ext_in _ (fun k => option_map inj (if levb d k && edge k v then Some (W d s k) else None))).
      - rewrite <- (map_map (fun k => if levb d k && edge k v then Some (W d s k) else None) (option_map inj)).
        rewrite (osum_hom inj Nat.add add) by auto. rewrite (osum_nat N (fun k => levb d k && edge k v) (fun k => W d s k)).
        + cbv zeta. rewrite (W_next N edge s Hs d v Hv Z).
          rewrite (nsum_ext N (fun k => if levb d k && edge k v then W d s k else 0)
            (fun u => if levb d u then W d s u * b2n (edge u v) else 0)).
          * destruct (nsum N _ =? 0); auto.
          * intros k Hk. destruct (levb d k); auto. destruct (edge k v); simpl; lia.
        + intros k Hk Q. apply andb_true_iff in Q. destruct Q as (Q & _). apply levb_spec in Q. apply Q.
      - intros k Hk. apply in_seq in Hk. destruct (Nat.eq_dec k s) as [->|Nk].
        + destruct d as [|d].
          * rewrite A by auto. rewrite HA by auto. destruct (levb 0 s); simpl; auto. destruct (fA s v) eqn:EE; simpl; auto.
            rewrite (Hmul s v _ _ Hs Hv EE). auto.
          * rewrite levb_source. simpl.
            assert (Ef : edge s v = false).
            { destruct (edge s v) eqn:EE; auto. specialize (Z 1 ltac:(lia)). rewrite W_1, EE in Z by auto. discriminate. }
            rewrite HA in Ef by auto. destruct (fA s v); [discriminate|]. destruct (F s); auto.
        + rewrite A by (auto; lia). rewrite HA by (auto; lia). destruct (levb d k); simpl; auto.
          destruct (fA k v) eqn:EE; simpl; auto. rewrite (Hmul k v _ _ ltac:(lia) Hv EE). auto. }
    destruct (dist v) as [l|] eqn:El.
    + apply (dist_lev N edge s Hs v l Hv) in El. destruct (Nat.leb_spec l d) as [L|L].
      * simpl. rewrite Htruthy, (proj2 (Nat.eqb_neq _ 0)) by apply El. simpl. destruct (Nat.eqb_spec l (S d)); [lia|auto].
      * simpl. rewrite U by (intros; apply El; lia). destruct (Nat.eqb_spec l (S d)) as [->|Nl].
        -- rewrite (proj2 (Nat.eqb_neq _ 0)); auto. apply El.
        -- destruct El as (_ & El). rewrite (El (S d)) by lia. auto.
    + simpl. pose proof (dist_None N edge s Hs v Hv El) as Z. rewrite U by auto. rewrite Z. auto.
  - intros _. left. rewrite H, B' by auto. simpl. rewrite Htruthy, (proj2 (Nat.eqb_neq _ 0)) by auto. auto.
Qed.

(** The neighbours of the source; the source alone. *)
Lemma first_F F : (forall v, v < N -> F v = option_map (fun _ => inj 1) (fA s v)) -> isF 1 F.
Proof.
  intro H. split.
  - intros v Hv [Nv|]; [|lia]. rewrite H by auto. pose proof (W_1 N edge s v Hv) as Ew. rewrite HA in Ew by auto.
    destruct (fA s v) eqn:Ef; simpl in *.
    + rewrite (proj2 (levb_spec N edge s 1 v)); [rewrite Ew; auto|]. split; [lia|]. intros j Hj. replace j with 0 by lia.
      rewrite W_0, (proj2 (Nat.eqb_neq s v)); auto.
    + rewrite levb_false; auto. intros (L & _). lia.
  - intros _. rewrite H by auto. destruct (fA s s); simpl; eauto.
Qed.
Lemma source_F F : (forall v, v < N -> F v = if s =? v then Some (inj 1) else None) -> isF 0 F.
Proof.
  intro H. split; [|lia]. intros v Hv _. rewrite H, levb_0, W_0 by auto. destruct (s =? v); auto.
Qed.
Lemma source_P P : (forall v, v < N -> P v = if s =? v then Some (inj 1) else None) -> isP 0 P.
Proof.
  intro H. split.
  - intros v Hv Nv. rewrite H, (proj2 (Nat.eqb_neq s v)) by auto. destruct (dist v) as [l|] eqn:EE; auto.
    pose proof (dist_pos v l Hv Nv EE). destruct (Nat.leb_spec l 0); [lia|auto].
  - rewrite H, Nat.eqb_refl by auto. exists 1. split; auto.
Qed.
Lemma F_some d F v : isF d F -> v < N -> F v <> None -> S d <= N \/ (d = 1 /\ v = s).
Proof.
  intros (A & A') Hv H. destruct (Nat.eq_dec v s) as [->|Nv].
  - destruct d as [|d]; [left; lia|]. destruct (A' ltac:(lia)) as [Q|(Q & _)]; [congruence|auto].
  - rewrite A in H by auto. destruct (levb d v) eqn:L; [|congruence]. apply levb_spec in L.
    pose proof (lev_bound N edge s Hs d v Hv L). lia.
Qed.
(** An empty frontier: no vertex is further away. *)
Lemma F_none d F : isF d F -> 1 <= d -> (forall v, v < N -> F v = None) -> forall k v, v < N -> d <= k -> ~ lev k v.
Proof.
  intros (A & A') Hd H k v Hv Hk L. destruct (lev_down d k v Hv L Hk) as (u & Hu & Lu). pose proof Lu as Lb.
  apply levb_spec in Lb. destruct (Nat.eq_dec u s) as [->|Nu].
  - destruct d; [lia|]. rewrite levb_source in Lb. discriminate.
  - specialize (A u Hu (or_introl Nu)). rewrite Lb, H in A by auto. discriminate.
Qed.
End Count.

(** ** Back propagation *)
Local Open Scope Qc_scope.
Definition val (j v : nat) : Qc :=
  if (v =? s)%nat then 1 else match dist v with Some l => if (S j <=? l)%nat then D l v else 1 | None => 1 end.

Lemma D_last l v : (v < N)%nat -> lev l v -> (forall w, (w < N)%nat -> ~ lev (S l) w) -> D l v = 1.
Proof.
  intros Hv L H. rewrite (D_rec N edge s Hs l v Hv L). rewrite qsum_zero; [ring|]. intros w Hw.
  rewrite levb_false by auto. rewrite andb_false_r. auto.
Qed.
Lemma val_init k j v : (v < N)%nat -> (k <= S j)%nat -> (forall i w, (w < N)%nat -> (S k <= i)%nat -> ~ lev i w) -> val j v = 1.
Proof.
  intros Hv Hk H. unfold val. destruct (v =? s)%nat; auto. destruct (dist v) as [l|] eqn:E; auto.
  destruct (Nat.leb_spec (S j) l) as [L|L]; auto. apply (dist_lev N edge s Hs v l Hv) in E.
  apply D_last; auto. intros w Hw. apply H; auto. lia.
Qed.
Lemma val_final v : (v < N)%nat -> val 0 v = 1 + dependency N edge s v.
Proof.
  intro Hv. unfold val. destruct (Nat.eqb_spec v s) as [->|Nv].
  - rewrite (dep_source N edge s). ring.
  - destruct (dist v) as [l|] eqn:E.
    + pose proof (dist_pos v l Hv Nv E). destruct (Nat.leb_spec 1 l); [|lia].
      apply (D_dep N edge s Hs l v Hv Nv). apply (dist_lev N edge s Hs v l Hv). auto.
    + rewrite (dep_unreached N edge s Hs v Hv E). ring.
Qed.

Section Back.
Context {C E : Type} (inj : nat -> C) (cq : C -> Qc) (mul : Qc -> E -> Qc) (fA : nat -> nat -> option E).
Hypothesis Hcq : forall a, cq (inj a) = nat_q a.
Hypothesis HA : forall u v, (u < N)%nat -> (v < N)%nat -> edge u v = is_some (fA u v).
Hypothesis Hmul : forall u v x a, (u < N)%nat -> (v < N)%nat -> fA u v = Some x -> mul a x = a.

Lemma back_W k j P B S1 W1 :
  (1 <= j)%nat -> (S j <= k)%nat -> isP inj k P -> (forall v, (v < N)%nat -> B v = Some (val j v)) -> isS (S j) S1 ->
  (forall w, (w < N)%nat -> W1 w = if S1 w then omap2 (fun x y => x / cq y) (B w) (P w) else None) ->
  forall w, (w < N)%nat -> W1 w = if levb (S j) w then Some (D (S j) w / nat_q (W (S j) s w)) else None.
Proof.
  intros Hj Hk (HP & _) HB (HS & HS') HW w Hw. rewrite HW by auto. destruct (Nat.eq_dec w s) as [->|Nw].
  - rewrite HS' by lia. rewrite levb_source. auto.
  - rewrite HS, HB, HP by auto. rewrite levb_dist by auto. destruct (dist w) as [l|] eqn:El; auto.
    destruct (Nat.eqb_spec l (S j)) as [->|Nl]; auto. destruct (Nat.leb_spec (S j) k); [|lia]. simpl.
    rewrite Hcq. unfold val. rewrite (proj2 (Nat.eqb_neq w s)), El, Nat.leb_refl by auto. auto.
Qed.
Lemma back_B k j P B S0 W1 B' :
  (1 <= j)%nat -> (S j <= k)%nat -> isP inj k P -> (forall v, (v < N)%nat -> B v = Some (val j v)) -> isS j S0 ->
  (forall w, (w < N)%nat -> W1 w = if levb (S j) w then Some (D (S j) w / nat_q (W (S j) s w)) else None) ->
  (forall v, (v < N)%nat -> B' v = ounion Qcplus idc idc (B v)
     (if S0 v then omap2 (fun x y => x * cq y) (osum Qcplus (map (fun w => omap2 mul (W1 w) (fA v w)) (seq 0 N))) (P v)
      else None)) ->
  forall v, (v < N)%nat -> B' v = Some (val (j - 1) v).
Proof.
  intros Hj Hk (HP & c & _ & HPs) HB (HS & _) HW HB' v Hv. rewrite HB', HB by auto.
  destruct (Nat.eq_dec v s) as [->|Nv].
  - assert (E0 : osum Qcplus (map (fun w => omap2 mul (W1 w) (fA s w)) (seq 0 N)) = None).
    { apply osum_none_iff. intros x Hx. apply in_map_iff in Hx. destruct Hx as (w & <- & Hw). apply in_seq in Hw.
      rewrite HW by lia. destruct (levb (S j) w) eqn:L; auto. apply levb_spec in L. destruct L as (_ & L).
      specialize (L 1%nat ltac:(lia)). rewrite W_1 in L by lia. rewrite HA in L by lia.
      destruct (fA s w); [discriminate|auto]. }
    rewrite E0. unfold val. rewrite Nat.eqb_refl. destruct (S0 s); auto.
  - rewrite HS by auto. destruct (levb j v) eqn:L.
    + apply levb_spec in L. pose proof (proj2 (dist_lev N edge s Hs v j Hv) L) as El. rewrite HP, El by auto.
      destruct (Nat.leb_spec j k); [|lia]. unfold val. rewrite (proj2 (Nat.eqb_neq v s)), El by auto.
      destruct (Nat.leb_spec (S j) j); [lia|]. destruct (Nat.leb_spec (S (j - 1)) j); [|lia].
      rewrite (D_rec N edge s Hs j v Hv L).
      assert (Q : oq (osum Qcplus (map (fun w => omap2 mul (W1 w) (fA v w)) (seq 0 N))) =
        qsum N (fun w => if edge v w && levb (S j) w then D (S j) w / nat_q (W (S j) s w) else 0)).
      { rewrite osum_q. apply qsum_ext. intros w Hw. rewrite HW, HA by auto. destruct (levb (S j) w).
        - destruct (fA v w) eqn:E1; auto. simpl. rewrite (Hmul v w _ _ Hv Hw E1). auto.
        - rewrite andb_false_r. auto. }
      rewrite <- Q. destruct (osum Qcplus (map (fun w => omap2 mul (W1 w) (fA v w)) (seq 0 N))); simpl; f_equal.
      * rewrite Hcq. ring.
      * unfold idc. ring.
    + unfold val. rewrite (proj2 (Nat.eqb_neq v s)) by auto. cbn [ounion]. unfold idc. f_equal.
      rewrite levb_dist in L by auto. destruct (dist v) as [l|]; auto. apply Nat.eqb_neq in L.
      destruct (Nat.leb_spec (S j) l), (Nat.leb_spec (S (j - 1)) l); auto; lia.
Qed.
End Back.
End Row.
