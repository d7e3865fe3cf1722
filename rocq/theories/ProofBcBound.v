(** The search for shortest paths of [vertex_betweenness_centrality] and [edge_betweenness_centrality] in scalar types which hold
    the natural numbers up to a bound. *)
From Coq Require Import Lia ZArith QArith Qcanon.
From Verif Require Import Base ModelLil ModelVec ModelHelpers ModelViews ModelMul ModelElem ModelIndex ModelUtils
  ModelAlgoBase ModelRank ModelBc Spec SpecOps SpecRank SpecBc ProofBase ProofElem ProofReduce ProofGraph ProofRank ProofVis
  ProofRc ProofBcPaths ProofBcRow ProofBc ProofBcVert.
Local Open Scope nat_scope.

Section Search.
Context {T : Type} (add mul : T -> T -> T) (ofn : nat -> T) (tb : T -> bool) (graph : lil T) (N s : nat) (Mx : Z).
Hypothesis WA : wfm graph.
Hypothesis RA : nrows graph = N.
Hypothesis CA : ncols graph = N.
Hypothesis Hs : s < N.
Local Notation edge := (gedge graph).
Local Notation paths v := (length (shortest_paths N edge s v)).
Hypothesis Hadd : forall a b, (Z.of_nat (a + b) <= Mx)%Z -> add (ofn a) (ofn b) = ofn (a + b).
Hypothesis Hmul1 : forall a, (Z.of_nat a <= Mx)%Z -> mul (ofn a) (ofn 1) = ofn a.
Hypothesis Htb : forall a, (Z.of_nat a <= Mx)%Z -> tb (ofn a) = negb (a =? 0).
Hypothesis Hone : forall u v x, mget graph u v = Some x -> x = ofn 1.
Hypothesis HM2 : (2 <= Mx)%Z.
Hypothesis Hfit : (Z.of_nat (nsum N (fun v => paths v)) <= Mx)%Z.

Definition fn (f : nat -> option nat) (v : nat) : option T := option_map ofn (f v).
Definition idn (a : nat) : nat := a.
Definition keep (a : nat) (_ : T) : nat := a.
Definition pos (a : nat) : bool := negb (a =? 0).

Lemma osum_bounded (h : nat -> option nat) (b : nat -> nat) m : (forall k a, k < m -> h k = Some a -> a <= b k) -> (Z.of_nat (nsum m b) <= Mx)%Z ->
  osum add (map (fun k => option_map ofn (h k)) (seq 0 m)) = option_map ofn (osum Nat.add (map h (seq 0 m))) /\
  forall c, osum Nat.add (map h (seq 0 m)) = Some c -> c <= nsum m b.
Proof.
  clear - Hadd. induction m as [|m IH]; intros H B; [split; [reflexivity|discriminate]|]. cbn [nsum] in *.
  destruct (IH (fun k a Hk => H k a (Nat.lt_lt_succ_r _ _ Hk)) ltac:(lia)) as (E & U). rewrite seq_S, !map_app. cbn [map]. rewrite !osum_snoc'', E. change (0 + m) with m.
  specialize (H m). destruct (osum Nat.add (map h (seq 0 m))) as [c|], (h m) as [a|]; cbn [oadd option_map].
  - specialize (U c eq_refl). specialize (H a ltac:(lia) eq_refl). rewrite Hadd by lia. split; [reflexivity|]. intros c' [= <-]. lia.
  - split; [reflexivity|]. intros c' [= <-]. specialize (U c eq_refl). lia.
  - specialize (H a ltac:(lia) eq_refl). split; [reflexivity|]. intros c' [= <-]. lia.
  - split; [reflexivity|]. discriminate.
Qed.

Local Notation isF := (isF N edge s idn).
Local Notation isP := (isP N edge s idn).
(** At the source itself: a loop counts once. *)
Definition self_ok (f g : nat -> option nat) : Prop :=
  (f s = None \/ (f s = Some 1 /\ g s = Some 1)) /\ (exists c, g s = Some c /\ 1 <= c <= 2) /\ (edge s s = false -> f s = None /\ g s = Some 1).
Lemma lev_paths d v : v < N -> levb N edge s d v = true -> W N edge d s v = paths v.
Proof.
  clear - Hs. intros Hv L. apply levb_spec in L. apply (dist_lev N edge s Hs v d Hv) in L. rewrite shortest_dist, L. reflexivity.
Qed.
Lemma self_paths : paths s = 1.
Proof. clear - Hs. rewrite shortest_dist, (dist_source N edge s Hs). unfold walks_to. simpl. rewrite Nat.eqb_refl. auto. Qed.
Lemma fit1 v : v < N -> (Z.of_nat (paths v) <= Mx)%Z.
Proof. clear - Hfit. intro Hv. pose proof (nsum_ge N (fun v => paths v) v Hv). cbv beta in *. lia. Qed.
Lemma F_le d f g v a : v < N -> isF d f -> self_ok f g -> f v = Some a -> a <= paths v.
Proof.
  clear - Hs. intros Hv (Q & _) (HS & _) E. destruct (Nat.eq_dec v s) as [->|Nv].
  - rewrite self_paths. destruct HS as [HS|(HS & _)]; rewrite HS in E; [discriminate|]. injection E as <-. lia.
  - rewrite Q in E by auto. destruct (levb N edge s d v) eqn:L; [|discriminate]. injection E as <-. rewrite <- (lev_paths d v Hv L). apply Nat.le_refl.
Qed.
Lemma P_le d f g v a : v < N -> isP d g -> self_ok f g -> g v = Some a -> (Z.of_nat a <= Mx)%Z.
Proof.
  clear - Hs Hfit HM2. intros Hv (Q & _) (_ & (c & HS & B) & _) E. destruct (Nat.eq_dec v s) as [->|Nv].
  - rewrite HS in E. injection E as <-. lia.
  - rewrite Q in E by auto. destruct (dist N edge s v) as [l|] eqn:D; [|discriminate]. destruct (l <=? d); [|discriminate]. injection E as <-.
    unfold idn. assert (L : levb N edge s l v = true) by (apply levb_spec, dist_lev; auto). rewrite (lev_paths l v Hv L). apply fit1. auto.
Qed.
Lemma apart k f g v : v < N -> v <> s -> isF (S k) f -> isP k g -> f v = None \/ g v = None.
Proof.
  clear - Hs. intros Hv Nv (Q & _) (R & _). rewrite Q, R by auto. rewrite (levb_dist N edge s Hs) by auto.
  destruct (dist N edge s v) as [l|]; auto. destruct (Nat.leb_spec l k), (Nat.eqb_spec l (S k)); auto; lia.
Qed.
Lemma union_ok k f g v : v < N -> isF (S k) f -> isP k g -> self_ok f g ->
  ounion add idc idc (fn g v) (fn f v) = fn (fun v => ounion Nat.add idc idc (g v) (f v)) v.
Proof.
  clear - Hs Hadd HM2. intros Hv IF IP (HS & _). unfold fn. destruct (Nat.eq_dec v s) as [->|Nv].
  - destruct HS as [->|(-> & ->)]; [destruct (g s); reflexivity|]. cbn [ounion option_map]. rewrite Hadd by lia. reflexivity.
  - destruct (apart k f g v Hv Nv IF IP) as [-> | ->]; [destruct (g v)|destruct (f v)]; reflexivity.
Qed.
Lemma true_ok (f : nat -> option nat) v : (forall a, f v = Some a -> (Z.of_nat a <= Mx)%Z) -> otrue tb (fn f v) = otrue pos (f v).
Proof. clear - Htb. intro H. unfold fn, otrue. destruct (f v) as [a|]; [|reflexivity]. cbn [option_map]. apply Htb. auto. Qed.
Lemma product_ok d f g v : v < N -> isF d f -> self_ok f g ->
  osum add (map (fun k => omap2 mul (fn f k) (mget graph k v)) (seq 0 N)) = option_map ofn (osum Nat.add (map (fun k => omap2 keep (f k) (mget graph k v)) (seq 0 N))).
Proof.
  intros Hv IF HS. rewrite (map_ext_in _ (fun k => option_map ofn (omap2 keep (f k) (mget graph k v)))).
  - apply (osum_bounded (fun k => omap2 keep (f k) (mget graph k v)) (fun v => paths v) N); [|exact Hfit].
    intros k a Hk E. destruct (f k) as [c|] eqn:Ef; [|discriminate]. destruct (mget graph k v); [|discriminate]. injection E as <-. apply (F_le d f g k); auto.
  - intros k Hk. apply in_seq in Hk. unfold fn. destruct (f k) as [c|] eqn:Ef; [|reflexivity]. destruct (mget graph k v) as [x|] eqn:Ex; [|reflexivity].
    cbn [option_map omap2]. rewrite (Hone k v x Ex), Hmul1; [reflexivity|]. pose proof (F_le d f g k c ltac:(lia) IF HS Ef). pose proof (fit1 k ltac:(lia)). lia.
Qed.
Lemma gkeep u v x a : u < N -> v < N -> mget graph u v = Some x -> keep (idn a) x = idn a.
Proof. reflexivity. Qed.

Local Notation more := (fun s0 : vbs => has_vals (vnvals (fst (fst s0)))).
Definition vinvM (b : nat) (k : nat) (st : vbs) : Prop :=
  let '(F, P, Ss) := st in
  vmasks N edge s (1 - b) (b + k) Ss /\ exists f g, vis N F (fn f) /\ vis N P (fn g) /\ isF (S k) f /\ isP k g /\ self_ok f g.

Lemma vstepM b outp k F P Ss : b <= 1 -> vinvM b k (F, P, Ss) -> exists st',
  (Sg <- vec_new false (nrows graph) ;;
   Sg <- apply_v tb btrue idc (NoAcc idc) vnomask MERGE Sg F ;;
   nsp <- eWiseAdd_v add idc idc btrue idc (NoAcc idc) vnomask outp P P F ;;
   frontier <- vxm add mul tb idc (NoAcc idc) (MComp nsp) REPLACE F F (Mat graph) ;;
   Ok (frontier, nsp, Ss ++ [Sg])) = Ok st' /\ vinvM b (S k) st'.
Proof.
  intros Hb (M & f & g & HF & HP & IF & IP & HS). rewrite RA.
  destruct (vis_new false N ltac:(lia)) as (S0 & -> & V0). cbn [bind].
  destruct (vis_apply N tb btrue vnomask _ MERGE S0 F _ _ V0 HF (vmis_none _ _)) as (Sg & -> & VS). cbn [bind].
  destruct (vis_add N add idc idc btrue vnomask _ outp P P F _ _ _ HP HP HF (vmis_none _ _)) as (P' & -> & VP). cbn [bind].
  destruct (vis_vxm N add mul tb (MComp P') _ REPLACE F F graph _ _ _ HF HF (sqA graph N WA RA CA) (vmis_comp N tb P' _ VP)) as (F' & -> & VF).
  cbn [bind]. eexists. split; [reflexivity|].
  set (g' := fun v => ounion Nat.add idc idc (g v) (f v)). set (f' := fun v => if negb (otrue pos (g' v)) then osum Nat.add (map (fun k => omap2 keep (f k) (mget graph k v)) (seq 0 N)) else None).
  assert (IP' : isP (S k) g').
  { apply (step_P N edge s Hs idn Nat.add (fun _ _ => eq_refl) k f g _ IF IP). auto. }
  assert (HS' : self_ok f' g').
  { destruct HS as (HS & (c & Ec & Bc) & NL). unfold self_ok.
    assert (Eg : exists c, g' s = Some c /\ 1 <= c <= 2).
    { unfold g'. destruct HS as [HS|(HS & HG)]; rewrite HS; [rewrite Ec; exists c; auto|rewrite HG; exists 2; split; [reflexivity|lia]]. }
    assert (Ef : f' s = None).
    { unfold f'. destruct Eg as (c' & -> & Hc'). unfold otrue, pos. destruct (Nat.eqb_spec c' 0); [lia|reflexivity]. }
    split; [auto|]. split; [exact Eg|]. intro N0. split; [exact Ef|]. destruct (NL N0) as (E1 & E2). unfold g'. rewrite E1, E2. reflexivity. }
  split.
  - replace (b + S k) with (S (b + k)) by lia. apply (vmasks_snoc _ _ _ _ _ _ _ _ M VS); cbv beta;
      replace (1 - b + (b + k)) with (S k) by lia.
    + pose proof (step_S N edge s Hs idn pos (fun _ => eq_refl) (S k) f ltac:(lia) IF) as (Q & Q').
      assert (TR : forall v, v < N -> otrue btrue (wr true MERGE None (option_map tb (fn f v))) = otrue pos (f v)).
      { intros v Hv. rewrite <- true_ok; [|intros a Ea; pose proof (F_le _ f g v a Hv IF HS Ea); pose proof (fit1 v Hv); lia]. unfold wr. destruct (fn f v); reflexivity. }
      split; [intros v Hv Nv; rewrite <- Q by auto; apply TR; auto|].
      intro H2. rewrite <- (Q' H2). apply TR. auto.
    + intros NL v Hv. unfold wr. destruct (Nat.eq_dec v s) as [->|Nv].
      * unfold fn. rewrite (proj1 (proj2 (proj2 HS) NL)). rewrite levb_source by auto. auto.
      * unfold fn. rewrite (proj1 IF) by auto. destruct (levb N edge s (S k) v) eqn:L; auto. cbn [option_map]. unfold idn.
        rewrite (lev_paths _ v Hv L), Htb by (apply fit1; auto). rewrite <- (lev_paths _ v Hv L).
        apply levb_spec in L. rewrite (proj2 (Nat.eqb_neq _ 0) (proj1 L)). auto.
  - exists f', g'. split; [|split; [|split; [|split; [exact IP'|exact HS']]]].
    + eapply vis_ext; [exact VF|]. intros v Hv. unfold wr. cbv beta.
      change (wr true outp (fn g v) (ounion add idc idc (fn g v) (fn f v))) with (ounion add idc idc (fn g v) (fn f v)). rewrite (union_ok k f g v) by auto. fold g'.
      rewrite (true_ok g' v) by (intros a Ea; apply (P_le (S k) f' g' v); auto). unfold fn at 2, f'. destruct (negb (otrue pos (g' v))); [|reflexivity].
      apply (product_ok (S k) f g); auto.
    + eapply vis_ext; [exact VP|]. intros v Hv. unfold wr. apply (union_ok k); auto.
    + apply (step_F N edge s Hs idn Nat.add keep pos (mget graph) (fun _ _ => eq_refl) (fun _ => eq_refl) (gedge_some graph N) gkeep (S k) f g' f' IF IP'). auto.
Qed.

Lemma vloopM b body : (forall k st, vinvM b k st -> exists st', body st = Ok st' /\ vinvM b (S k) st') -> forall m k st,
  vinvM b k st -> k <= N -> N - k < m ->
  exists F P Ss k' g, mwhile m more body st = Ok (Some (F, P, Ss)) /\ k' <= N /\
    vmasks N edge s (1 - b) (b + k') Ss /\ vis N P (fn g) /\ isP k' g /\ (forall v a, v < N -> g v = Some a -> (Z.of_nat a <= Mx)%Z) /\
    (forall l v, v < N -> S k' <= l -> ~ lev N edge s l v) /\ (edge s s = false -> g s = Some 1).
Proof.
  intro HB. induction m as [|m IH]; intros k [[F P] Ss] I Hk Hm; [lia|]. simpl.
  destruct I as (M & f & g & HF & HP & IF & IP & HS). destruct (has_vals (vnvals F)) eqn:E.
  - destruct (HB k (F, P, Ss)) as (st' & -> & I'). { split; [auto|]. exists f, g. auto 6. } cbn [bind].
    destruct (vis_vals N F _ HF E) as (v & Hv & Q).
    assert (Q' : f v <> None) by (intro C; apply Q; unfold fn; rewrite C; reflexivity).
    destruct (F_some N edge s Hs idn _ _ v IF Hv Q') as [L|(L & _)]; apply (IH (S k)); auto; lia.
  - exists F, P, Ss, k, g. split; [auto|]. split; [auto|]. split; [auto|]. split; [auto|]. split; [auto|].
    split; [intros v a Hv Ea; apply (P_le k f g v a); auto|].
    split; [|intro NL; apply (proj2 (proj2 HS) NL)]. intros l v Hv L. apply (F_none N edge s Hs idn (S k) f IF); auto; [lia|].
    intros u Hu. pose proof (vis_no_vals N F _ HF E u Hu) as Q. unfold fn in Q. destruct (f u); [discriminate|reflexivity].
Qed.
Definition first (v : nat) : option nat := if edge s v then Some 1 else None.
Definition source (v : nat) : option nat := if v =? s then Some 1 else None.
Lemma vfirstM : isF 1 first /\ isP 0 source /\ self_ok first source.
Proof.
  clear - Hs. split; [|split].
  - apply (first_F N edge s Hs idn (mget graph) (gedge_some graph N)). intros v Hv. unfold first, gedge. destruct (mget graph s v); reflexivity.
  - apply (source_P N edge s Hs idn). intros v Hv. unfold source. rewrite Nat.eqb_sym. reflexivity.
  - unfold self_ok, first, source. rewrite Nat.eqb_refl. split; [destruct (edge s s); auto|]. split; [exists 1; split; [reflexivity|lia]|]. intros ->. auto.
Qed.
Lemma first_fn v : fn first v = mget graph s v.
Proof. clear - Hone. unfold fn, first, gedge. destruct (mget graph s v) eqn:E; [|reflexivity]. cbn [is_some option_map]. rewrite (Hone s v _ E). reflexivity. Qed.
Lemma source_fn v : fn source v = if v =? s then Some (ofn 1) else None.
Proof. unfold fn, source. destruct (v =? s); reflexivity. Qed.
End Search.
