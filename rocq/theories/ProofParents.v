(** Breadth first search: the parents. *)
From Coq Require Import Lia.
From Verif Require Import Base ModelLil ModelVec ModelHelpers ModelViews ModelMul ModelElem
  ModelAlgoBase ModelBfs Spec SpecOps SpecGraph ProofBase ProofRow ProofLil ProofVec ProofViews
  ProofMul ProofElem ProofReduce ProofUtils ProofGraph ProofBfs.

Lemma index_ramp_ok n : n <> 0 ->
  exists w, index_ramp n = Ok w /\ wfv w /\ vsize w = n /\
    forall i, vget w i = if i <? n then Some i else None.
Proof.
  intro N0. unfold index_ramp. destruct (vec_new_ok 0 n N0) as (w0 & -> & W0 & S0 & G0). cbn [bind].
  destruct (mfor_seq_inv
    (fun k w => wfv w /\ vsize w = n /\ forall i, vget w i = if i <? k then Some i else None)
    (fun i w => vec_setElement w i i) n w0) as (w & E & W & Sw & G).
  - split; [auto|]. split; [auto|]. intro i. rewrite G0. reflexivity.
  - intros k w Hk (W & Sw & G).
    destruct (vec_setElement_ok w k k) as (w' & E & _ & S' & _ & G' & W'); [apply W|lia|].
    exists w'. split; [auto|]. split; [auto|]. split; [congruence|]. intro i.
    change (1 + k) with (S k). rewrite G', G.
    destruct (Nat.eqb_spec i k), (Nat.ltb_spec i k), (Nat.ltb_spec i (S k)); subst; auto; lia.
  - exists w. auto.
Qed.

Lemma index_ramp_m_ok n :
  exists M, index_ramp_m n = Ok M /\ wfm M /\ nrows M = n /\ ncols M = n /\
    forall i j, mget M i j = if (i =? j) && (i <? n) then Some i else None.
Proof.
  unfold index_ramp_m.
  destruct (mfor_seq_inv
    (fun k M => wfm M /\ nrows M = n /\ ncols M = n /\
       forall i j, mget M i j = if (i =? j) && (i <? k) then Some i else None)
    (fun i M => lil_setElement M i i i) n (lil_new n n)) as (M & E & H).
  - split; [apply lil_new_wf|]. split; [auto|]. split; [auto|]. intros i j. rewrite mget_new.
    rewrite andb_false_r. reflexivity.
  - intros k M Hk (W & Rr & Cc & G).
    destruct (setElement_merge_ok (fun _ new : nat => new) M k k k) as (M' & E & W' & R' & C' & G');
      [auto|lia|lia|].
    exists M'. split; [exact E|]. split; [auto|]. split; [congruence|]. split; [congruence|].
    intros i j. change (1 + k) with (S k). rewrite G', (G i j).
    replace (match mget M k k with Some _ | _ => k end) with k by (destruct (mget M k k); reflexivity).
    destruct (Nat.eqb_spec i k), (Nat.eqb_spec j k), (Nat.eqb_spec i j), (Nat.ltb_spec i k),
      (Nat.ltb_spec i (S k)); subst; cbn [andb]; try lia; auto.
  - exists M. auto.
Qed.

(** ** The search on denotations, from a set of roots *)
Section Parents.
Context {T : Type} (G : lil T) (N : nat).
Hypothesis WG : wfm G.
Hypothesis RG : nrows G = N.
Hypothesis CG : ncols G = N.

Let e := edge G.

Section Roots.
Variable R : nat -> Prop.
Hypothesis R_bound : forall v, R v -> v < N.
Hypothesis R_dec : forall v, R v \/ ~ R v.

Definition parents_upto k (P : nat -> option nat) : Prop :=
  forall v p, v < N -> (P v = Some p <->
    (exists d, d <= k /\ at_distance e R d v) /\ ((R v /\ p = v) \/ best_parent e R p v)).

Lemma e_in u v : e u v = true -> u < N /\ v < N.
Proof. apply (edge_bound G N WG RG CG). Qed.

Lemma visited_parents k P : parents_upto k P -> (forall v, v < N ->
  (P v <> None <-> exists d, d <= k /\ at_distance e R d v)).
Proof.
  intros HP v Hv. split.
  - intro H. destruct (P v) as [p|] eqn:E; [|congruence]. apply (HP v p Hv) in E. tauto.
  - intros (d & Hd & Ha) E. destruct d as [|d].
    + pose proof Ha as Hr. apply at_distance_0 in Hr.
      enough (P v = Some v) by congruence. apply (HP v v Hv). split; [|auto].
      exists 0. split; [lia|auto].
    + (* a least parent exists *)
      assert (L : exists p, best_parent e R p v).
      { pose proof (at_distance_pred e R d v Ha) as (u & Hu & Eu).
        assert (K : forall m, (forall p', p' < m -> ~ (at_distance e R d p' /\ e p' v = true)) \/
                  exists p, at_distance e R d p /\ e p v = true /\
                    forall p', at_distance e R d p' -> e p' v = true -> p <= p').
        { induction m as [|m [Hm|Hm]]; [left; intros; lia| |auto].
          assert (D : at_distance e R d m \/ ~ at_distance e R d m).
          { destruct (walks_dec N e R e_in R_dec d m) as [Hw|Hw].
            - destruct (walks_least N e R e_in R_dec d m Hw) as (d' & Hd' & Ha').
              destruct (Nat.eq_dec d' d) as [->|]; [left; auto|].
              right. intros Hx. pose proof (at_distance_unique _ _ _ _ _ Hx Ha'). lia.
            - right. intros [Hx _]. auto. }
          destruct D as [D|D]; [destruct (e m v) eqn:Em|].
          - right. exists m. split; [auto|]. split; [auto|]. intros p' H1 H2.
            apply Nat.nlt_ge. intro Hlt. apply (Hm p' Hlt). auto.
          - left. intros p' Hp [H1 H2]. assert (p' = m \/ p' < m) as [->|] by lia; [congruence|].
            apply (Hm p'); auto.
          - left. intros p' Hp [H1 H2]. assert (p' = m \/ p' < m) as [->|] by lia; [auto|].
            apply (Hm p'); auto. }
        destruct (K (S u)) as [Hn|(p & H1 & H2 & H3)].
        - exfalso. apply (Hn u); auto.
        - exists p, d. auto. }
      destruct L as (p & Hp).
      enough (P v = Some p) by congruence. apply (HP v p Hv). split; eauto.
Qed.

Lemma parent_step k (W P W' P' : nat -> option nat) :
  frontier N e R k (fun v => is_some (W v)) -> parents_upto k P ->
  (forall v, v < N -> W' v =
     if is_some (P v) then None
     else osum nmin (map (fun u => if is_some (W u) && e u v then Some u else None) (seq 0 N))) ->
  (forall v, v < N -> P' v = match P v with Some q => Some q | None => W' v end) ->
  frontier N e R (S k) (fun v => is_some (W' v)) /\ parents_upto (S k) P'.
Proof.
  intros FW FP G2 GP.
  assert (VK : visited N e R (S k) (fun v => is_some (P v))).
  { intros v Hv. rewrite is_some_true, (visited_parents k P FP v Hv).
    split; intros (d & Hd & Ha); exists d; (split; [lia|auto]). }
  assert (FW2 : frontier N e R (S k) (fun v => is_some (W' v))).
  { intros v Hv. rewrite G2 by auto. destruct (is_some (P v)) eqn:E; simpl.
    - split; [discriminate|]. intro Ha. apply (VK v Hv) in E. destruct E as (d & Hd & Hb).
      pose proof (at_distance_unique _ _ _ _ _ Ha Hb). lia.
    - rewrite osum_map_some. split.
      + intros (u & Hu & Ho). destruct (is_some (W u)) eqn:Ew; [|simpl in Ho; congruence].
        destruct (e u v) eqn:Ee; [|simpl in Ho; congruence].
        apply (FW u Hu) in Ew. split; [exists u; split; [apply Ew|auto]|].
        intros k' Hk Hw. apply (walks_least N e R e_in R_dec) in Hw. destruct Hw as (d & Hd & Ha).
        enough (is_some (P v) = true) by congruence. apply (VK v Hv). exists d. split; [lia|auto].
      + intro Ha. apply at_distance_pred in Ha. destruct Ha as (u & Hu & Ee).
        assert (Hb : u < N) by (apply e_in in Ee; tauto). exists u. split; [auto|].
        apply (FW u Hb) in Hu. rewrite Hu, Ee. discriminate. }
  split; [exact FW2|].
  intros v q Hv. rewrite GP by auto.
  destruct (P v) as [q0|] eqn:Ep.
  - rewrite <- Ep. rewrite (FP v q Hv). split; intros [(d & Hd & Ha) H].
    + split; [exists d; split; [lia|auto]|auto].
    + split; [|auto]. apply (visited_parents k P FP v Hv). congruence.
  - assert (NV : ~ exists d, d <= k /\ at_distance e R d v).
    { rewrite <- (visited_parents k P FP v Hv). congruence. }
    rewrite G2, Ep by auto. cbn [is_some]. rewrite osum_nmin.
    assert (IN : forall x, In (Some x) (map (fun u => if is_some (W u) && e u v then Some u else None)
                    (seq 0 N)) <-> at_distance e R k x /\ e x v = true).
    { intro x. rewrite in_map_iff. split.
      - intros (u & Eu & Hu). apply in_seq in Hu. destruct (is_some (W u)) eqn:Ew; [|discriminate].
        destruct (e u v) eqn:Ee; [|discriminate]. simpl in Eu. injection Eu as <-.
        split; [|auto]. apply (FW u); [lia|auto].
      - intros [Hx Ex]. assert (Hb : x < N) by (apply e_in in Ex; tauto). exists x.
        apply (FW x Hb) in Hx. rewrite Hx, Ex. split; [reflexivity|]. apply in_seq. lia. }
    split.
    + intros [Hin Hle]. apply IN in Hin. destruct Hin as [Hq Eq].
      assert (Hd : at_distance e R (S k) v).
      { split; [exists q; split; [apply Hq|auto]|]. intros k' Hk Hw.
        apply (walks_least N e R e_in R_dec) in Hw. destruct Hw as (d & Hd & Ha).
        apply NV. exists d. split; [lia|auto]. }
      split; [exists (S k); auto|]. right. exists k. split; [auto|]. split; [auto|]. split; [auto|].
      intros p' H1 H2. apply Hle. apply IN. auto.
    + intros [(d & Hd & Ha) H].
      assert (Dk : d = S k).
      { destruct (Nat.eq_dec d (S k)); auto. exfalso. apply NV. exists d. split; [lia|auto]. }
      subst d. destruct H as [[Hr ->]|(d & H1 & H2 & H3 & H4)].
      * exfalso. apply NV. exists 0. split; [lia|]. apply at_distance_0. auto.
      * pose proof (at_distance_unique _ _ _ _ _ Ha H1) as Ed. injection Ed as <-.
        split; [apply IN; auto|]. intros x Hx. apply IN in Hx. apply H4; tauto.
Qed.

Lemma parent_start (W P : nat -> option nat) :
  (forall v, v < N -> (W v <> None <-> R v)) ->
  (forall v, v < N -> P v = if is_some (W v) then Some v else None) ->
  frontier N e R 0 (fun v => is_some (W v)) /\ parents_upto 0 P.
Proof.
  intros HW HP. split.
  - intros v Hv. rewrite at_distance_0, is_some_true. auto.
  - intros v q Hv. rewrite HP by auto. destruct (is_some (W v)) eqn:E.
    + apply is_some_true, HW in E; auto. split.
      * intro H. injection H as <-. split; [|auto]. exists 0. split; [lia|].
        apply at_distance_0. auto.
      * intros [_ [[_ ->]|(d & H1 & _)]]; [reflexivity|].
        assert (A0 : at_distance e R 0 v) by (apply at_distance_0; auto).
        pose proof (at_distance_unique _ _ _ _ _ A0 H1). lia.
    + split; [discriminate|]. intros [(d & Hd & Ha) _]. replace d with 0 in Ha by lia.
      apply at_distance_0, HW in Ha; auto. apply is_some_true in Ha. congruence.
Qed.

Lemma parent_end k (W P : nat -> option nat) :
  frontier N e R k (fun v => is_some (W v)) -> (forall v, v < N -> W v = None) ->
  parents_upto k P ->
  forall v q, v < N -> (P v = Some q <-> (R v /\ q = v) \/ best_parent e R q v).
Proof.
  intros FW HW FP v q Hv. rewrite (FP v q Hv).
  split; [tauto|]. intro H. split; [|auto].
  assert (exists d, at_distance e R d v) as (d & Ha).
  { destruct H as [[Hr ->]|(d & H1 & _)]; [exists 0; apply at_distance_0; auto|eauto]. }
  exists d. split; [|auto].
  assert (d < k); [|lia]. apply (frontier_end N e R e_in R_bound k d v); auto.
  intros u Hu Hu'. apply (FW u Hu) in Hu'. rewrite HW in Hu'; auto. discriminate.
Qed.
End Roots.

Definition parent_inv R k (s : bvec nat * bvec nat) : Prop :=
  let '(w, p) := s in
  wfv w /\ wfv p /\ vsize w = N /\ vsize p = N /\
  frontier N e R k (fun v => is_some (vget w v)) /\ parents_upto R k (vget p).

Lemma ramp_wave ramp (w0 w : bvec nat) outp :
  wfv ramp -> vsize ramp = N -> (forall i, vget ramp i = if i <? N then Some i else None) ->
  wfv w0 -> vsize w0 = N -> wfv w -> vsize w = N ->
  exists w1, eWiseMult_v (fun a _ : nat => a) btrue idc (NoAcc idc) vnomask outp w0 ramp w = Ok w1 /\
    wfv w1 /\ vsize w1 = N /\
    forall v, v < N -> vget w1 v = if is_some (vget w v) then Some v else None.
Proof.
  intros Wr Sr Gr W0 S0 Ww Sw.
  destruct (eWiseMult_v_ok (fun a _ : nat => a) btrue idc (NoAcc idc) vnomask outp w0 ramp w)
    as (w1 & E & Ww1 & Sw1 & Gw1).
  { apply W0. } { apply wfv_wfvn; auto. } { apply wfv_wfvn; auto. } { exact Logic.I. }
  { split; [exact Logic.I|]. split; congruence. }
  exists w1. split; [auto|]. split; [auto|]. split; [congruence|].
  intros v Hv. rewrite Gw1 by congruence. simpl. rewrite Gr.
  destruct (Nat.ltb_spec v N); [|lia]. destruct (vget w v); reflexivity.
Qed.

(** A sum of converted indices. *)
Lemma osum_conv (it : nat -> T) (ti : T -> nat) tmin (f : nat -> option nat) l :
  (forall i, i < N -> ti (it i) = i) ->
  (forall i j, i < N -> j < N -> tmin (it i) (it j) = it (nmin i j)) ->
  (forall u x, f u = Some x -> x < N) ->
  option_map ti (osum tmin (map (fun u => option_map it (f u)) l)) = osum nmin (map f l).
Proof.
  intros H1 H2 Hf. unfold osum.
  assert (H : forall l o, (forall x, o = Some x -> x < N) ->
     fold_left (oadd tmin) (map (fun u => option_map it (f u)) l) (option_map it o) =
     option_map it (fold_left (oadd nmin) (map f l) o) /\
     forall x, fold_left (oadd nmin) (map f l) o = Some x -> x < N).
  { clear l. induction l as [|u l IH]; intros o Ho; simpl; [auto|].
    assert (Ho' : forall x, oadd nmin o (f u) = Some x -> x < N).
    { intros x. destruct o as [a|], (f u) as [b|] eqn:Eb; simpl; intro E; try discriminate;
        try (injection E as <-).
      - unfold nmin. destruct (a <? b); [apply Ho|eapply Hf]; eauto.
      - apply Ho; auto.
      - eapply Hf; eauto. }
    destruct (IH _ Ho') as [E1 E2]. split; [|exact E2]. rewrite <- E1. f_equal.
    destruct o as [a|], (f u) as [b|] eqn:Eb; simpl; auto. rewrite H2; eauto. }
  destruct (H l None) as [E1 E2]; [discriminate|]. change (option_map it None) with (@None T) in E1.
  rewrite E1. destruct (fold_left (oadd nmin) (map f l) None) as [x|]; [|reflexivity].
  simpl. rewrite H1; auto.
Qed.

(** ** bfs from one source *)
Lemma parent_body source ramp k s :
  source < N ->
  wfv ramp -> vsize ramp = N -> (forall i, vget ramp i = if i <? N then Some i else None) ->
  parent_inv (eq source) k s ->
  exists s', bfs_body ramp G s = Ok s' /\ parent_inv (eq source) (S k) s'.
Proof.
  intros HS Wr Sr Gr. destruct s as [w p]. intros (Ww & Wp & Sw & Sp & FW & FP).
  unfold bfs_body.
  destruct (ramp_wave ramp w w MERGE Wr Sr Gr Ww Sw Ww Sw) as (w1 & -> & Ww1 & Sw1 & G1).
  cbn [bind].
  destruct (vxm_ok nmin (fun (a : nat) (_ : T) => a) ntrue idc (NoAcc idc)
                 (MSComp p) REPLACE w1 w1 (Mat G)) as (w2 & -> & Ww2 & Sw2 & Gw2).
  { apply Ww1. } { exact WG. } { apply wfv_wfvn; auto. } { apply Wp. }
  { simpl; congruence. } { simpl; congruence. } { simpl; congruence. }
  cbn [bind].
  destruct (apply_v_ok idc btrue idc (Acc Nat.add idc idc) vnomask MERGE p w2)
    as (p2 & -> & Wp2 & Sp2 & Gp2).
  { apply Wp. } { apply wfv_wfvn; auto. } { exact Logic.I. }
  { split; [exact Logic.I|congruence]. }
  cbn [bind]. exists (w2, p2). split; [reflexivity|].
  split; [auto|]. split; [auto|]. split; [congruence|]. split; [congruence|].
  assert (G2 : forall v, v < N -> vget w2 v =
     if is_some (vget p v) then None
     else osum nmin (map (fun u => if is_some (vget w u) && e u v then Some u else None) (seq 0 N))).
  { intros v Hv. rewrite Gw2 by congruence. simpl. unfold spec_write, svmul. simpl.
    destruct (is_some (vget p v)); [reflexivity|]. simpl. unfold idc. rewrite !option_map_id', RG.
    f_equal. apply map_ext_in. intros u Hu. apply in_seq in Hu. rewrite G1 by lia.
    unfold e, edge. destruct (is_some (vget w u)); simpl; [|reflexivity].
    destruct (mget G u v); reflexivity. }
  apply (parent_step (eq source) ltac:(intros; lia) k (vget w) (vget p)); auto.
  intros v Hv. rewrite Gp2 by congruence. simpl. unfold idc. rewrite !option_map_id'.
  destruct (vget p v) eqn:Ep; [|destruct (vget w2 v); reflexivity].
  rewrite G2, Ep by auto. reflexivity.
Qed.

Lemma parent_loop (R : nat -> Prop) body n w p :
  (forall v, R v -> v < N) ->
  (forall k s, parent_inv R k s -> exists s', body s = Ok s' /\ parent_inv R (S k) s') ->
  parent_inv R 0 (w, p) -> N < n ->
  exists p', (r <- mwhile n (fun s => has_vals (vnvals (fst s))) body (w, p) ;;
              Ok (option_map snd r)) = Ok (Some p') /\ wfv p' /\ vsize p' = N /\
    forall v q, v < N -> (vget p' v = Some q <-> (R v /\ q = v) \/ best_parent e R q v).
Proof.
  intros RB Hbody I0 Hn.
  destruct (mwhile_inv (fun s => has_vals (vnvals (fst s))) body
              (parent_inv R) N) with (n := n) (k := 0) (s := (w, p))
    as (k & [w' p'] & E & I & C); auto; [|lia|lia|].
  - intros k [w' p'] I C. split; [|apply Hbody; auto].
    destruct I as (Ww & _ & Sw & _ & FW & _).
    destruct (has_vals_v w' Ww C) as (v & Hv & Hg). cbn [fst] in *. rewrite Sw in Hv.
    apply (at_distance_lt N e R e_in RB k v). apply (FW v Hv). apply is_some_true; auto.
  - rewrite E. cbn [bind]. exists p'. destruct I as (Ww & Wp' & Sw & Sp' & FW & FP).
    split; [reflexivity|]. split; [auto|]. split; [auto|].
    apply (parent_end R RB k (vget w')); auto.
    intros v Hv. apply (no_vals_v w' Ww C).
Qed.

Theorem bfs_ok n source (parents : bvec nat) :
  source < N -> wfv0 parents -> vsize parents = N -> N < n ->
  exists p, bfs n G source parents = Ok (Some p) /\ wfv p /\ vsize p = N /\
    forall v q, v < N ->
      (vget p v = Some q <->
       (v = source /\ q = source) \/ best_parent (edge G) (eq source) q v).
Proof.
  intros HS Wp Sp Hn. unfold bfs. rewrite RG.
  destruct (index_ramp_ok N) as (ramp & -> & Wr & Sr & Gr); [lia|]. cbn [bind].
  destruct (vec_new_ok 0 N) as (w0 & -> & W0 & S0 & G0); [lia|]. cbn [bind].
  destruct (vec_setElement_ok w0 source 1) as (w1 & -> & _ & S1 & _ & G1 & W1);
    [apply W0|lia|]. cbn [bind].
  destruct (vec_clear_wf parents Wp) as [Wc Gc].
  destruct (vec_setElement_ok (vec_clear parents) source source) as (p1 & -> & _ & Sp1 & _ & Gp1 & Wp1);
    [apply Wc|simpl; lia|]. cbn [bind].
  destruct (parent_loop (eq source) (bfs_body ramp G) n w1 p1) as (p & E & Wp' & Sp' & Gp'); auto.
  - intros; subst; auto.
  - intros k s I. apply parent_body; auto.
  - split; [auto|]. split; [auto|]. split; [congruence|]. split; [simpl in *; congruence|].
    apply parent_start.
    + intros v Hv. rewrite G1, G0. destruct (Nat.eqb_spec v source); split; intro H;
        try discriminate; congruence.
    + intros v Hv. rewrite Gp1, Gc, G1, G0. destruct (Nat.eqb_spec v source); subst; reflexivity.
  - exists p. split; [exact E|]. split; [auto|]. split; [auto|]. intros v q Hv.
    rewrite Gp' by auto. fold e. split; intros [[H1 H2]|H]; auto; left; split; congruence.
Qed.

Lemma has_parent (R : nat -> Prop) v :
  (forall v, R v -> v < N) -> (forall v, R v \/ ~ R v) ->
  reachable e R v -> R v \/ exists q, best_parent e R q v.
Proof.
  intros RB RD (k & Hk). assert (Hv : v < N) by (apply (walks_bound N e R e_in RB k); auto).
  apply (walks_least N e R e_in RD) in Hk. destruct Hk as (d & _ & Hd).
  destruct d as [|d]; [left; apply at_distance_0 in Hd; auto|]. right.
  destruct (at_distance_pred e R d v Hd) as (u & Hu & Eu).
  assert (K : forall m, (forall p', p' < m -> ~ (at_distance e R d p' /\ e p' v = true)) \/
            exists p, at_distance e R d p /\ e p v = true /\
              forall p', at_distance e R d p' -> e p' v = true -> p <= p').
  { induction m as [|m [Hm|Hm]]; [left; intros; lia| |auto].
    assert (D : at_distance e R d m \/ ~ at_distance e R d m).
    { destruct (walks_dec N e R e_in RD d m) as [Hw|Hw].
      - destruct (walks_least N e R e_in RD d m Hw) as (d' & Hd' & Ha').
        destruct (Nat.eq_dec d' d) as [->|]; [left; auto|].
        right. intros Hx. pose proof (at_distance_unique _ _ _ _ _ Hx Ha'). lia.
      - right. intros [Hx _]. auto. }
    destruct D as [D|D]; [destruct (e m v) eqn:Em|].
    - right. exists m. split; [auto|]. split; [auto|]. intros p' H1 H2.
      apply Nat.nlt_ge. intro Hlt. apply (Hm p' Hlt). auto.
    - left. intros p' Hp [H1 H2]. assert (p' = m \/ p' < m) as [->|] by lia; [congruence|].
      apply (Hm p'); auto.
    - left. intros p' Hp [H1 H2]. assert (p' = m \/ p' < m) as [->|] by lia; [auto|].
      apply (Hm p'); auto. }
  destruct (K (S u)) as [Hn|(p & H1 & H2 & H3)].
  - exfalso. apply (Hn u); auto.
  - exists p, d. auto.
Qed.

Theorem bfs_reaches n source (parents : bvec nat) :
  source < N -> wfv0 parents -> vsize parents = N -> N < n ->
  exists p, bfs n G source parents = Ok (Some p) /\
    forall v, v < N -> (vget p v <> None <-> reachable (edge G) (eq source) v).
Proof.
  intros HS Wp Sp Hn. destruct (bfs_ok n source parents HS Wp Sp Hn) as (p & E & _ & _ & H).
  exists p. split; [auto|]. intros v Hv. split.
  - intro Hg. destruct (vget p v) as [q|] eqn:Eq; [|congruence]. apply H in Eq; auto.
    destruct Eq as [[-> _]|(d & Hd & _)]; [exists 0; reflexivity|exists (S d); apply Hd].
  - intros Hr. destruct (has_parent (eq source) v) as [<-|(q & Hq)]; auto.
    + intros; subst; auto.
    + intros; lia.
    + assert (vget p source = Some source); [apply H; auto|congruence].
    + assert (vget p v = Some q); [apply H; auto|congruence].
Qed.

(** ** bfs from a wavefront, in the graph's scalar type *)
Section Typed.
Variables (it : nat -> T) (ti : T -> nat) (tmin tplus : T -> T -> T).
Hypothesis Hconv : forall i, i < N -> ti (it i) = i.
Hypothesis Hmin : forall i j, i < N -> j < N -> tmin (it i) (it j) = it (nmin i j).

Lemma parent_values (R : nat -> Prop) k P :
  (forall v, R v -> v < N) -> parents_upto R k P -> forall v q, v < N -> P v = Some q -> q < N.
Proof.
  intros RB FP v q Hv E. apply (FP v q Hv) in E. destruct E as [_ [[H ->]|(d & _ & H & _)]]; auto.
  apply (walks_bound N e R e_in RB d). apply H.
Qed.

Lemma parent_w_body (R : nat -> Prop) ramp k s :
  (forall v, R v -> v < N) -> (forall v, R v \/ ~ R v) ->
  wfv ramp -> vsize ramp = N -> (forall i, vget ramp i = if i <? N then Some i else None) ->
  parent_inv R k s ->
  exists s', bfs_w_body it ti tmin tplus ramp G s = Ok s' /\ parent_inv R (S k) s'.
Proof.
  intros RB RD Wr Sr Gr. destruct s as [w p]. intros (Ww & Wp & Sw & Sp & FW & FP).
  unfold bfs_w_body.
  destruct (ramp_wave ramp w w MERGE Wr Sr Gr Ww Sw Ww Sw) as (w1 & -> & Ww1 & Sw1 & G1).
  cbn [bind].
  destruct (vxm_ok tmin (fun (a : nat) (_ : T) => it a) ntrue ti (NoAcc idc)
                 (MSComp p) REPLACE w1 w1 (Mat G)) as (w2 & -> & Ww2 & Sw2 & Gw2).
  { apply Ww1. } { exact WG. } { apply wfv_wfvn; auto. } { apply Wp. }
  { simpl; congruence. } { simpl; congruence. } { simpl; congruence. }
  cbn [bind].
  destruct (apply_v_ok it btrue ti (Acc (fun p x => tplus (it p) x) it idc) vnomask MERGE p w2)
    as (p2 & -> & Wp2 & Sp2 & Gp2).
  { apply Wp. } { apply wfv_wfvn; auto. } { exact Logic.I. }
  { split; [exact Logic.I|congruence]. }
  cbn [bind]. exists (w2, p2). split; [reflexivity|].
  split; [auto|]. split; [auto|]. split; [congruence|]. split; [congruence|].
  assert (G2 : forall v, v < N -> vget w2 v =
     if is_some (vget p v) then None
     else osum nmin (map (fun u => if is_some (vget w u) && e u v then Some u else None) (seq 0 N))).
  { intros v Hv. rewrite Gw2 by congruence. simpl. unfold spec_write, svmul. simpl.
    destruct (is_some (vget p v)); [reflexivity|]. simpl. unfold idc. rewrite !option_map_id', RG.
    rewrite <- (osum_conv it ti tmin); auto.
    - f_equal. f_equal. apply map_ext_in. intros u Hu. apply in_seq in Hu. rewrite G1 by lia.
      unfold e, edge. destruct (is_some (vget w u)); simpl; [|reflexivity].
      destruct (mget G u v); reflexivity.
    - intros u x. destruct (is_some (vget w u)); [|discriminate]. simpl.
      destruct (e u v) eqn:Ee; [|discriminate]. intro H. injection H as <-. apply e_in in Ee. tauto. }
  destruct (parent_step R RD k (vget w) (vget p) (vget w2)
              (fun v => match vget p v with Some q => Some q | None => vget w2 v end))
    as [F2 P2]; auto.
  split; [exact F2|]. intros v q Hv. rewrite <- (P2 v q Hv).
  rewrite Gp2 by congruence. simpl. unfold idc.
  destruct (vget p v) as [q0|] eqn:Ep.
  - rewrite G2, Ep by auto. simpl. rewrite Hconv; [reflexivity|].
    eapply (parent_values R k (vget p)); eauto.
  - destruct (vget w2 v) as [q0|] eqn:E2; [|reflexivity]. simpl. rewrite Hconv; [reflexivity|].
    rewrite G2, Ep in E2 by auto. cbn [is_some] in E2. apply osum_nmin in E2. destruct E2 as [E2 _].
    apply in_map_iff in E2. destruct E2 as (u & Eu & Hu). apply in_seq in Hu.
    destruct (_ && _); [injection Eu as <-; lia|discriminate].
Qed.

Theorem bfs_w_ok n (roots parents : bvec nat) :
  N <> 0 -> wfv roots -> vsize roots = N -> wfv parents -> vsize parents = N -> N < n ->
  let R := fun u => vget roots u <> None in
  exists p, bfs_w it ti tmin tplus n G roots parents = Ok (Some p) /\ wfv p /\ vsize p = N /\
    forall v q, v < N ->
      (vget p v = Some q <-> (R v /\ q = v) \/ best_parent (edge G) R q v).
Proof.
  intros N0 Wo So Wp Sp Hn R.
  assert (RB : forall v, R v -> v < N).
  { intros v Hv. apply Nat.nle_gt; intro L. apply Hv. apply vget_oob; [apply Wo|lia]. }
  assert (RD : forall v, R v \/ ~ R v).
  { intro v. unfold R. destruct (vget roots v); [left|right]; congruence. }
  unfold bfs_w. rewrite RG.
  destruct (index_ramp_ok N) as (ramp & -> & Wr & Sr & Gr); [lia|]. cbn [bind].
  destruct (ramp_wave ramp parents roots MERGE Wr Sr Gr Wp Sp Wo So) as (p1 & -> & Wp1 & Sp1 & G1).
  cbn [bind].
  destruct (ramp_wave ramp p1 p1 MERGE Wr Sr Gr Wp1 Sp1 Wp1 Sp1) as (p2 & -> & Wp2 & Sp2 & G2).
  cbn [bind].
  apply parent_loop; auto.
  - intros k s I. apply parent_w_body; auto.
  - split; [auto|]. split; [auto|]. split; [auto|]. split; [auto|].
    apply parent_start; [reflexivity|]. intros v Hv. rewrite G2, G1 by auto.
    destruct (vget roots v); reflexivity.
Qed.

(** ** bfs_batch *)
Lemma roots_bound (roots : lil nat) : wfm roots -> ncols roots = N ->
  forall r v, row_roots roots r v -> v < N.
Proof.
  intros Wr Cr r v Hv. apply Nat.nle_gt; intro L. apply Hv. apply mget_oob; auto. lia.
Qed.

Definition parent_inv_m (roots : lil nat) k (s : lil nat * lil nat) : Prop :=
  let '(w, p) := s in
  wfm w /\ wfm p /\ nrows w = nrows roots /\ ncols w = N /\ nrows p = nrows roots /\ ncols p = N /\
  forall r, r < nrows roots ->
    frontier N e (row_roots roots r) k (fun v => is_some (mget w r v)) /\
    parents_upto (row_roots roots r) k (mget p r).

Lemma to_index_ok (C w ramp : lil nat) :
  wfm ramp -> nrows ramp = N -> ncols ramp = N ->
  (forall i j, mget ramp i j = if (i =? j) && (i <? N) then Some i else None) ->
  wfm C -> wfm w -> nrows C = nrows w -> ncols C = N -> ncols w = N ->
  exists w1, to_index it ti tmin C w ramp = Ok w1 /\ wfm w1 /\ nrows w1 = nrows C /\ ncols w1 = N /\
    forall r v, r < nrows C -> v < N ->
      mget w1 r v = if is_some (mget w r v) then Some v else None.
Proof.
  intros Wr Rr Cr Gr WC Ww RC CC Cw. unfold to_index.
  destruct (mxm_ok tmin (fun _ b : nat => it b) (fun b _ : nat => it b) ti it btrue ti (NoAcc idc)
              mnomask MERGE C (Mat w) (Mat ramp)) as (w1 & E & W1 & R1 & C1 & G1).
  { auto. } { auto. } { auto. } { exact Logic.I. } { exact Logic.I. }
  { auto. } { simpl; congruence. } { simpl; congruence. } { exact Logic.I. }
  exists w1. split; [exact E|]. split; [auto|]. split; [auto|]. split; [congruence|].
  intros r v Hr Hv. rewrite G1 by lia. simpl. unfold spec_write, smul. simpl.
  rewrite Cw. rewrite (osum_single tmin (fun k => omap2 (fun _ b : nat => it b) (mget w r k) (mget ramp k v))
    N v Hv).
  - rewrite Gr, Nat.eqb_refl. destruct (Nat.ltb_spec v N); [|lia]. simpl.
    destruct (mget w r v); simpl; [|reflexivity]. unfold idc. rewrite Hconv; auto.
  - intros k Hk. rewrite Gr. destruct (Nat.eqb_spec k v); [lia|]. simpl.
    destruct (mget w r k); reflexivity.
Qed.

Lemma parent_m_body roots ramp k s :
  wfm roots -> ncols roots = N ->
  wfm ramp -> nrows ramp = N -> ncols ramp = N ->
  (forall i j, mget ramp i j = if (i =? j) && (i <? N) then Some i else None) ->
  parent_inv_m roots k s ->
  exists s', bfs_batch_p_body it ti tmin tplus ramp G s = Ok s' /\ parent_inv_m roots (S k) s'.
Proof.
  intros Wo Co Wr Rr Cr Gr. destruct s as [w p]. intros (Ww & Wp & Rw & Cw & Rp & Cp & F).
  unfold bfs_batch_p_body.
  destruct (to_index_ok w w ramp Wr Rr Cr Gr Ww Ww eq_refl Cw Cw) as (w1 & -> & Ww1 & Rw1 & Cw1 & G1).
  cbn [bind].
  destruct (mxm_ok tmin (fun (a : nat) (_ : T) => it a) (fun (_ : T) (a : nat) => it a) ti it
                  ntrue ti (NoAcc idc) (MSComp p) REPLACE w1 (Mat w1) (Mat G))
    as (w2 & -> & Ww2 & Rw2 & Cw2 & Gw2).
  { auto. } { auto. } { auto. } { auto. } { simpl; split; congruence. }
  { auto. } { simpl; congruence. } { simpl; congruence. } { exact Logic.I. }
  cbn [bind].
  destruct (apply_ok it btrue ti (Acc (fun p x => tplus (it p) x) it idc) mnomask MERGE p (Mat w2))
    as (p2 & -> & Wp2 & Rp2 & Cp2 & Gp2).
  { auto. } { auto. } { exact Logic.I. }
  { split; [exact Logic.I|]. simpl. split; congruence. }
  cbn [bind]. exists (w2, p2). split; [reflexivity|].
  split; [auto|]. split; [auto|]. split; [congruence|]. split; [congruence|].
  split; [congruence|]. split; [congruence|].
  intros r Hr. destruct (F r Hr) as [FW FP].
  assert (RB := roots_bound roots Wo Co r). assert (RD := row_roots_dec roots r).
  assert (G2 : forall v, v < N -> mget w2 r v =
     if is_some (mget p r v) then None
     else osum nmin (map (fun u => if is_some (mget w r u) && e u v then Some u else None) (seq 0 N))).
  { intros v Hv. rewrite Gw2 by congruence. simpl. unfold spec_write, smul. simpl.
    destruct (is_some (mget p r v)); [reflexivity|]. simpl. unfold idc. rewrite !option_map_id', Cw1.
    rewrite <- (osum_conv it ti tmin); auto.
    - f_equal. f_equal. apply map_ext_in. intros u Hu. apply in_seq in Hu. rewrite G1 by lia.
      unfold e, edge. destruct (is_some (mget w r u)); simpl; [|reflexivity].
      destruct (mget G u v); reflexivity.
    - intros u x. destruct (is_some (mget w r u)); [|discriminate]. simpl.
      destruct (e u v) eqn:Ee; [|discriminate]. intro H. injection H as <-. apply e_in in Ee. tauto. }
  destruct (parent_step (row_roots roots r) RD k (mget w r) (mget p r) (mget w2 r)
              (fun v => match mget p r v with Some q => Some q | None => mget w2 r v end))
    as [F2 P2]; auto.
  split; [exact F2|]. intros v q Hv. rewrite <- (P2 v q Hv).
  rewrite Gp2 by congruence. simpl. unfold idc.
  destruct (mget p r v) as [q0|] eqn:Ep.
  - rewrite G2, Ep by auto. simpl. rewrite Hconv; [reflexivity|].
    eapply (parent_values (row_roots roots r) k (mget p r)); eauto.
  - destruct (mget w2 r v) as [q0|] eqn:E2; [|reflexivity]. simpl. rewrite Hconv; [reflexivity|].
    rewrite G2, Ep in E2 by auto. cbn [is_some] in E2. apply osum_nmin in E2. destruct E2 as [E2 _].
    apply in_map_iff in E2. destruct E2 as (u & Eu & Hu). apply in_seq in Hu.
    destruct (_ && _); [injection Eu as <-; lia|discriminate].
Qed.

Theorem bfs_batch_ok n (roots parents : lil nat) :
  wfm roots -> ncols roots = N -> wfm parents -> nrows parents = nrows roots ->
  ncols parents = N -> N < n ->
  exists p, bfs_batch it ti tmin tplus n G roots parents = Ok (Some p) /\
    wfm p /\ nrows p = nrows roots /\ ncols p = N /\
    forall r v q, r < nrows roots -> v < N ->
      (mget p r v = Some q <->
       (mget roots r v <> None /\ q = v) \/
       best_parent (edge G) (fun u => mget roots r u <> None) q v).
Proof.
  intros Wo Co Wp Rp Cp Hn. unfold bfs_batch. rewrite RG.
  destruct (index_ramp_m_ok N) as (ramp & -> & Wr & Rr & Cr & Gr). cbn [bind].
  destruct (to_index_ok parents roots ramp Wr Rr Cr Gr Wp Wo Rp Cp Co)
    as (p1 & -> & Wp1 & Rp1 & Cp1 & G1). cbn [bind].
  destruct (mwhile_inv (fun s => has_vals (nvals (fst s))) (bfs_batch_p_body it ti tmin tplus ramp G)
              (parent_inv_m roots) N) with (n := n) (k := 0) (s := (roots, p1))
    as (k & [w' p'] & E & I & C).
  - intros k [w' p'] I C. split; [|apply parent_m_body; auto].
    destruct I as (Ww & _ & Rw & Cw & _ & _ & F).
    destruct (has_vals_m w' Ww C) as (r & v & Hr & Hv & Hg). cbn [fst] in *.
    rewrite Rw in Hr. rewrite Cw in Hv. destruct (F r Hr) as [FW _].
    apply (at_distance_lt N e (row_roots roots r) e_in (roots_bound roots Wo Co r) k v).
    apply (FW v Hv). apply is_some_true; auto.
  - split; [auto|]. split; [auto|]. split; [auto|]. split; [auto|]. split; [congruence|].
    split; [auto|]. intros r Hr. apply parent_start; [reflexivity|].
    intros v Hv. apply G1; auto. congruence.
  - lia.
  - lia.
  - rewrite E. cbn [bind]. exists p'. destruct I as (Ww & Wp' & Rw & Cw & Rp' & Cp' & F).
    split; [reflexivity|]. split; [auto|]. split; [auto|]. split; [auto|].
    intros r v q Hr Hv. destruct (F r Hr) as [FW FP].
    apply (parent_end (row_roots roots r) (roots_bound roots Wo Co r) k (mget w' r)); auto.
    intros u Hu. apply (no_vals_m w' Ww C).
Qed.
End Typed.
End Parents.
