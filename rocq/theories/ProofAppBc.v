(** The betweenness centrality of the appendix, one source. *)
From Coq Require Import Lia QArith Qcanon.
From Verif Require Import Base ModelLil ModelVec ModelHelpers ModelViews ModelMul ModelElem ModelIndex ModelUtils ProofLil
  ModelAlgoBase ModelRank ModelBc ModelAppendix Spec SpecOps SpecIndex SpecRank SpecBc ProofBase ProofVec ProofElem ProofReduce
  ProofIndex ProofAssign ProofAssignRC ProofGraph ProofRank ProofVis ProofRc ProofBcPaths ProofBcRow ProofBc ProofBcVert
  ProofAppendix.
Local Open Scope nat_scope.

(** A row of a matrix, converted. *)
Lemma vis_extract_row_cast {TA TW TM} N (tz : TA -> TW) (truthy : TM -> bool) m b outp (w : bvec TW) (A : lil TA) f fA u :
  vis N w f -> sq N A fA -> vmis N truthy m b -> u < N ->
  exists w', extract_col truthy idc (NoAcc tz) m outp w (Trn A) AllIdx u = Ok w' /\
    vis N w' (fun j => wr (b j) outp (f j) (option_map tz (fA u j))).
Proof.
  intros (Ww & Sw & Gw) (WA & RA & CA & GA) (Wm & Fm & B) Hu.
  destruct (extract_col_ok truthy idc (NoAcc tz) m outp w (Trn A) AllIdx u (proj1 Ww) WA Wm) as (w' & E & W' & S' & G').
  { split; [congruence|]. split; [exact Logic.I|]. split; [simpl; lia|exact Logic.I]. }
  exists w'. split; [auto|]. split; [auto|]. split; [congruence|]. intros i Hi. rewrite G' by lia. rewrite B, Gw by auto.
  simpl. unfold scextract. simpl. unfold stran. rewrite GA by auto. unfold spec_write, wr. destruct (b i); auto.
  unfold idc. rewrite option_map_id'. auto.
Qed.
(** A vector assigned to a row. *)
Lemma sq_assign_row {T} (dflt : T) N (C : lil T) (u : bvec T) f g i :
  sq N C f -> vis N u g -> i < N ->
  exists C', assign_row dflt idc btrue idc (NoAcc idc) vnomask MERGE C u i AllIdx = Ok C' /\
    sq N C' (fun k j => if k =? i then g j else f k j).
Proof.
  intros (WC & RC & CC & GC) (Wu & Su & Gu) Hi.
  destruct (assign_row_ok btrue dflt idc idc (NoAcc idc) vnomask MERGE C u i AllIdx) as (C' & E & W' & R' & C'' & G'); auto.
  { apply Wu. } { exact Logic.I. }
  { split; [exact Logic.I|]. split; [exact Logic.I|]. split; [lia|exact Logic.I]. }
  { lia. } { exact Logic.I. } { simpl. lia. }
  exists C'. split; [auto|]. split; [auto|]. split; [lia|]. split; [lia|]. intros k j Hk Hj. rewrite G' by lia.
  destruct (k =? i); [|auto]. simpl. rewrite in_all by lia. unfold spec_write, sassign, idc. simpl.
  assert (P : SpecIndex.pos AllIdx (vsize u) j = Some j).
  { unfold SpecIndex.pos. simpl. destruct (find (fun k => k =? j) (seq 0 (vsize u))) eqn:F.
    - apply find_some in F. destruct F as (_ & F). apply Nat.eqb_eq in F. congruence.
    - assert (Q : (j =? j) = false) by (apply (find_none _ _ F j), in_seq; lia). rewrite Nat.eqb_refl in Q. discriminate. }
  rewrite P. simpl. rewrite Gu by auto. rewrite !option_map_id'. auto.
Qed.

Section B4.
Context {T : Type} (ti : T -> Z) (tq : T -> Qc) (A : lil T) (N s : nat).
Hypothesis WA : wfm A.
Hypothesis RA : nrows A = N.
Hypothesis CA : ncols A = N.
Hypothesis Hs : s < N.
Hypothesis H1 : forall u v x, mget A u v = Some x -> ti x = 1%Z /\ tq x = 1%Qc.
Local Notation edge := (fun u v => is_some (mget A u v)).
Local Notation inj := Z.of_nat.

Lemma b4_sqA : sq N A (mget A).
Proof. split; [auto|split; [auto|split; auto]]. Qed.
Lemma b4_add a b : (inj a + inj b)%Z = inj (a + b).
Proof. lia. Qed.
Lemma b4_true a : ztrue (inj a) = negb (a =? 0).
Proof. unfold ztrue. destruct a; reflexivity. Qed.
Lemma b4_edge u v : u < N -> v < N -> edge u v = is_some (mget A u v).
Proof. auto. Qed.
Lemma b4_mul u v x a : u < N -> v < N -> mget A u v = Some x -> mul_ia ti (inj a) x = inj a.
Proof. intros _ _ E. unfold mul_ia. rewrite (proj1 (H1 _ _ _ E)). lia. Qed.
Lemma b4_qmul u v x a : u < N -> v < N -> mget A u v = Some x -> mul_qa tq a x = a.
Proof. intros _ _ E. unfold mul_qa. rewrite (proj2 (H1 _ _ _ E)). ring. Qed.

Local Notation W := (W N edge).
Local Notation lev := (lev N edge s).
Local Notation levb := (levb N edge s).
Definition lev_row (j v : nat) : option Z := if levb (S j) v then Some (inj (W (S j) s v)) else None.
Definition b4_inv (k : nat) (st : b4s) : Prop :=
  let '(q, p, sigma, d) := st in
  d = k /\ sq N sigma (fun j v => if j <? k then lev_row j v else None) /\
  exists f g, vis N q f /\ vis N p g /\ isF N edge s inj (S k) f /\ f s = None /\ isP N edge s inj k g.

Lemma b4_next_ok k p q f g : vis N q f -> vis N p g -> isF N edge s inj k f -> isP N edge s inj k g ->
  exists q' f', b4_next ti A p q = Ok q' /\ vis N q' f' /\ isF N edge s inj (S k) f' /\ f' s = None.
Proof.
  intros Vq Vp If Ip. unfold b4_next.
  destruct (vis_vxm N Z.add (mul_ia ti) ztrue (MComp p) _ REPLACE q q A _ _ _ Vq Vq b4_sqA (vmis_comp N ztrue p _ Vp))
    as (q' & -> & V'). eexists _, _. split; [reflexivity|]. split; [exact V'|]. split.
  - apply (step_F N edge s Hs inj Z.add (mul_ia ti) ztrue (mget A) b4_add b4_true b4_edge b4_mul k f g _ If Ip). auto.
  - destruct Ip as (_ & c & Hc & E). cbv beta. rewrite E. simpl. rewrite b4_true. destruct c; [lia|]. auto.
Qed.

Lemma b4_body_ok k st : k < N -> b4_inv k st -> exists st', b4_body ti A st = Ok st' /\ b4_inv (S k) st'.
Proof.
  destruct st as [[[q p] sigma] d]. intros Hk (-> & Vs & f & g & Vq & Vp & If & Fs & Ip). unfold b4_body.
  destruct (sq_assign_row 0%Z N sigma q _ _ k Vs Vq Hk) as (sigma' & -> & Vs'). cbn [bind].
  destruct (vis_add N Z.add idc idc btrue vnomask _ MERGE p p q _ _ _ Vp Vp Vq (vmis_none _ _)) as (p' & -> & Vp'). cbn [bind].
  assert (Ip' : isP N edge s inj (S k) (fun v => ounion Z.add idc idc (g v) (f v))).
  { apply (step_P N edge s Hs inj Z.add b4_add k f g _ If Ip). auto. }
  destruct (b4_next_ok (S k) p' q f _ Vq Vp' If Ip') as (q' & f' & -> & Vq' & If' & Fs'). cbn [bind].
  eexists. split; [reflexivity|]. split; [auto|]. split.
  - eapply sq_ext; [exact Vs'|]. intros i j Hi Hj. cbv beta. destruct (Nat.eqb_spec i k) as [->|Ni].
    + destruct (Nat.ltb_spec k (S k)); [|lia]. unfold lev_row. destruct (Nat.eq_dec j s) as [->|Nj].
      * rewrite Fs. rewrite (levb_source N edge s Hs). auto.
      * apply (proj1 If); auto.
    + destruct (Nat.ltb_spec i k), (Nat.ltb_spec i (S k)); auto; lia.
  - exists f', (fun v => ounion Z.add idc idc (g v) (f v)). auto.
Qed.

Local Notation more := (fun s0 : b4s => has_vals (vnvals (fst (fst (fst s0))))).
Lemma b4_loop : forall m k st, b4_inv k st -> k <= N -> N - k < m ->
  exists q p sigma k' g, mwhile m more (b4_body ti A) st = Ok (Some (q, p, sigma, k')) /\ k <= k' /\ k' <= N /\
    sq N sigma (fun j v => if j <? k' then lev_row j v else None) /\ isP N edge s inj k' g /\
    (forall l v, v < N -> S k' <= l -> ~ lev l v).
Proof.
  induction m as [|m IH]; intros k st I Hk Hm; [lia|]. destruct st as [[[q p] sigma] d].
  pose proof I as (-> & Vs & f & g & Vq & Vp & If & Fs & Ip). cbn [mwhile fst]. destruct (has_vals (vnvals q)) eqn:E.
  - destruct (vis_vals N q f Vq E) as (v & Hv & Q).
    assert (K : S k < N).
    { destruct (Nat.eq_dec v s) as [->|Nv]; [congruence|]. destruct (F_some N edge s Hs inj _ _ v If Hv Q) as [L|(_ & L)]; [lia|congruence]. }
    destruct (b4_body_ok k (q, p, sigma, k) ltac:(lia) I) as (st' & -> & I'). cbn [bind].
    destruct (IH (S k) st' I' ltac:(lia) ltac:(lia)) as (q' & p' & sg & k' & g' & E' & L & R). exists q', p', sg, k', g'.
    split; [exact E'|]. split; [lia|exact R].
  - exists q, p, sigma, k, g. split; [auto|]. split; [auto|]. split; [auto|]. split; [auto|]. split; [auto|].
    intros l v Hv L. apply (F_none N edge s Hs inj (S k) f If); auto; [lia|].
    intros u Hu. apply (vis_no_vals N q f Vq E u Hu).
Qed.

Local Notation val' := (val N edge s).
Lemma b4_back_ok k j sigma g t1 t2 t3 t4 delta f1 f2 f3 f4 fd :
  sq N sigma (fun i v => if i <? k then lev_row i v else None) -> isP N edge s inj k g -> k <= N -> S j < k ->
  vis N t1 f1 -> vis N t2 f2 -> vis N t3 f3 -> vis N t4 f4 -> vis N delta fd ->
  (forall v, v < N -> (1 + oq (fd v))%Qc = val' (S j) v) ->
  exists t1' t2' t3' t4' delta' f1 f2 f3 f4 fd',
    b4_back tq A sigma (S j) (t1, t2, t3, t4, delta) = Ok (t1', t2', t3', t4', delta') /\
    vis N t1' f1 /\ vis N t2' f2 /\ vis N t3' f3 /\ vis N t4' f4 /\ vis N delta' fd' /\
    (forall v, v < N -> (1 + oq (fd' v))%Qc = val' j v).
Proof.
  intros Vs Ip Hk Hj V1 V2 V3 V4 Vd HD. unfold b4_back.
  destruct (vis_fill N btrue vnomask _ MERGE t1 _ 1%Qc V1 (vmis_none _ _)) as (t1a & -> & V1a). cbn [bind].
  destruct (vis_add N Qcplus idc idc btrue vnomask _ MERGE t1a t1a delta _ _ _ V1a V1a Vd (vmis_none _ _)) as (t1b & -> & V1b).
  cbn [bind].
  destruct (vis_extract_row_cast N zq btrue vnomask _ MERGE t2 sigma _ _ (S j) V2 Vs (vmis_none _ _) ltac:(lia)) as (t2a & -> & V2a).
  cbn [bind].
  destruct (vis_mult N Qcdiv btrue vnomask _ MERGE t2a t1b t2a _ _ _ V2a V1b V2a (vmis_none _ _)) as (t2b & -> & V2b). cbn [bind].
  destruct (vis_mxv N Qcplus (mul_aq tq) (mul_qa tq) btrue vnomask _ MERGE t3 t2b A _ _ _ V3 V2b b4_sqA (vmis_none _ _))
    as (t3a & -> & V3a). cbn [bind].
  replace (S j - 1) with j by lia.
  destruct (vis_extract_row_cast N zq btrue vnomask _ MERGE t4 sigma _ _ j V4 Vs (vmis_none _ _) ltac:(lia)) as (t4a & -> & V4a).
  cbn [bind].
  destruct (vis_mult N Qcmult btrue vnomask _ MERGE t4a t4a t3a _ _ _ V4a V4a V3a (vmis_none _ _)) as (t4b & -> & V4b). cbn [bind].
  destruct (vis_add N Qcplus idc idc btrue vnomask _ MERGE delta delta t4b _ _ _ Vd Vd V4b (vmis_none _ _)) as (d' & -> & Vd').
  cbn [bind]. eexists _, _, _, _, _, _, _, _, _, _. split; [reflexivity|]. split; [exact V1b|]. split; [exact V2b|].
  split; [exact V3a|]. split; [exact V4b|]. split; [exact Vd'|]. clear V1a V1b V2a V2b V3a V4a V4b Vd'.
  set (W1 := fun w => if levb (S (S j)) w then Some (D N edge s (S (S j)) w / nat_q (W (S (S j)) s w))%Qc else None).
  set (X := fun v => osum Qcplus (map (fun w => omap2 (mul_qa tq) (W1 w) (mget A v w)) (seq 0 N))).
  assert (Q : forall v, v < N -> ounion Qcplus idc idc (Some (val' (S j) v))
     (if levb (S j) v then omap2 (fun x y => (x * zq y)%Qc) (X v) (g v) else None) = Some (val' (S j - 1) v)).
  { apply (back_B N edge s Hs inj zq (mul_qa tq) (mget A) zq_nat b4_edge b4_qmul k (S j) g
      (fun v => Some (val' (S j) v)) (levb (S j)) W1); auto; try lia.
    split; [auto|]. intros _. apply (levb_source N edge s Hs). }
  intros v Hv. cbv beta. unfold wr. cbv iota. specialize (Q v Hv). replace (S j - 1) with j in Q by lia.
  (* the weights *)
  assert (HW : forall w, w < N -> omap2 Qcdiv (ounion Qcplus idc idc (Some 1%Qc) (fd w))
      (option_map zq (if S j <? k then lev_row (S j) w else None)) = W1 w).
  { intros w Hw. destruct (Nat.ltb_spec (S j) k); [|lia]. unfold lev_row, W1. destruct (levb (S (S j)) w) eqn:L.
    - cbn [option_map]. rewrite zq_nat.
      assert (E : ounion Qcplus idc idc (Some 1%Qc) (fd w) = Some (val' (S j) w)).
      { rewrite <- HD by auto. destruct (fd w); cbn [ounion oq]; unfold idc; f_equal; ring. }
      rewrite E. cbn [omap2]. f_equal. f_equal. unfold val. destruct (Nat.eqb_spec w s) as [->|Nw].
      + rewrite (levb_source N edge s Hs) in L. discriminate.
      + rewrite levb_dist in L by auto. destruct (dist N edge s w) as [l|]; [|discriminate]. apply Nat.eqb_eq in L. subst l.
        rewrite Nat.leb_refl. auto.
    - destruct (fd w); reflexivity. }
  rewrite (map_ext_in _ (fun w => omap2 (mul_qa tq) (W1 w) (mget A v w))).
  2: { intros w Hw. apply in_seq in Hw. rewrite <- (HW w) by lia. apply omap2_flip. intros; unfold mul_aq, mul_qa; ring. }
  fold (X v).
  assert (E : (1 + oq (ounion Qcplus idc idc (fd v)
      (omap2 Qcmult (option_map zq (if j <? k then lev_row j v else None)) (X v))))%Qc =
      oq (ounion Qcplus idc idc (Some (val' (S j) v))
        (if levb (S j) v then omap2 (fun x y => (x * zq y)%Qc) (X v) (g v) else None))).
  { rewrite <- HD by auto. destruct (Nat.ltb_spec j k); [|lia]. unfold lev_row. destruct (levb (S j) v) eqn:L.
    - assert (Eg : g v = Some (inj (W (S j) s v))).
      { destruct (Nat.eq_dec v s) as [->|Nv]; [rewrite (levb_source N edge s Hs) in L; discriminate|].
        rewrite (proj1 Ip) by auto. rewrite levb_dist in L by auto. destruct (dist N edge s v) as [l|]; [|discriminate].
        apply Nat.eqb_eq in L. subst l. destruct (Nat.leb_spec (S j) k); [auto|lia]. }
      rewrite Eg. destruct (X v), (fd v); cbn [omap2 option_map ounion oq]; unfold idc; ring.
    - destruct (X v), (fd v); cbn [omap2 option_map ounion oq]; unfold idc; ring. }
  rewrite E, Q. auto.
Qed.

Theorem b4_ok n delta fd : N <= n -> vis N delta fd -> (forall v, v < N -> oq (fd v) = 0%Qc) ->
  exists r f, BC_appendixB4 ti tq n delta A s = Ok (Some r) /\ vis N r f /\
    forall v, v < N -> oq (f v) = dependency N edge s v.
Proof.
  intros Hn Vd Zd. unfold BC_appendixB4. rewrite RA.
  destruct (vis_new 0%Z N ltac:(lia)) as (q0 & -> & V0). cbn [bind].
  destruct (vis_set N q0 _ s 1%Z V0 Hs) as (q1 & -> & V1 & _). cbn [bind].
  destruct (b4_next_ok 0 q1 q1 _ _ V1 V1) as (q & f & -> & Vq & If & Fs).
  { apply (source_F N edge s Hs inj). intros v Hv. rewrite Nat.eqb_sym. auto. }
  { apply (source_P N edge s Hs inj). intros v Hv. rewrite Nat.eqb_sym. auto. }
  cbn [bind]. unfold mdo.
  destruct (b4_body_ok 0 (q, q1, lil_new N N, 0)) as (st & -> & I); [lia| |].
  { split; [auto|]. split; [apply sq_new|]. do 2 eexists. split; [exact Vq|]. split; [exact V1|]. split; [auto|]. split; [auto|].
    apply (source_P N edge s Hs inj). intros v Hv. rewrite Nat.eqb_sym. auto. }
  cbn [bind]. destruct (b4_loop n 1 st I ltac:(lia) ltac:(lia)) as (q' & p' & sigma & k & g & E & Lk & Hk & Vs & Ip & Hl).
  unfold b4s in E. rewrite E. cbn [bind].
  destruct (vis_new 0%Qc N ltac:(lia)) as (t & -> & Vt). cbn [bind].
  destruct (mdown_inv (fun j '(t1, t2, t3, t4, delta) => j <= k - 1 /\ exists f1 f2 f3 f4 fd, vis N t1 f1 /\ vis N t2 f2 /\ vis N t3 f3 /\
      vis N t4 f4 /\ vis N delta fd /\ forall v, v < N -> (1 + oq (fd v))%Qc = val' j v)
    (b4_back tq A sigma)) with (k := k - 1) (s := (t, t, t, t, delta)) as ([[[[t1 t2] t3] t4] dl] & E' & _ & J).
  - intros j [[[[t1 t2] t3] t4] dl] (Hj & f1 & f2 & f3 & f4 & fd1 & W1 & W2 & W3 & W4 & Wd & HD).
    destruct (b4_back_ok k j sigma g t1 t2 t3 t4 dl f1 f2 f3 f4 fd1 Vs Ip Hk ltac:(lia) W1 W2 W3 W4 Wd HD)
      as (t1' & t2' & t3' & t4' & dl' & g1 & g2 & g3 & g4 & gd & -> & R).
    exists (t1', t2', t3', t4', dl'). split; [auto|]. split; [lia|]. exists g1, g2, g3, g4, gd. exact R.
  - split; [lia|]. do 5 eexists. split; [exact Vt|]. split; [exact Vt|]. split; [exact Vt|]. split; [exact Vt|]. split; [exact Vd|].
    intros v Hv. rewrite Zd by auto. rewrite (val_init N edge s Hs k); auto; try lia.
  - rewrite E'. cbn [bind snd]. destruct J as (f1 & f2 & f3 & f4 & fd1 & _ & _ & _ & _ & Wd & HD).
    exists dl, fd1. split; [auto|]. split; [auto|]. intros v Hv. specialize (HD v Hv). rewrite (val_final N edge s Hs v Hv) in HD.
    apply (f_equal (fun x => (x - 1)%Qc)) in HD. ring_simplify in HD. exact HD.
Qed.
End B4.

(** * The batch version *)
Lemma rc_extract_rows_tm {TA TC TM} N K (tz : TA -> TC) (truthy : TM -> bool) m b outp (A : lil TA) fA l :
  rc N K A fA -> Forall (fun i => i < N) l -> mrc K (length l) truthy m b ->
  exists C', extract_m truthy idc (NoAcc tz) m outp (lil_new K (length l)) (Trn A) AllIdx (IdxArr l) = Ok C' /\
    rc K (length l) C' (fun j i => if b j i then option_map tz (fA (nth i l 0) j) else None).
Proof.
  intros HA F Hm.
  destruct (rc_written K (length l) truthy m b outp (lil_new K (length l)) (fun _ _ => None) _ tz _
    (rc_new _ _) Hm
    (extract_m_ok truthy idc (NoAcc tz) m outp (lil_new K (length l)) (Trn A) AllIdx (IdxArr l)
      (lil_new_wf _ _) (proj1 HA) (proj1 Hm)
      ltac:(destruct HA as (? & HR & ? & _); split; [exact (proj1 (proj2 Hm))|]; split; [exact Logic.I|]; split; [reflexivity|];
            simpl; rewrite HR; split; [exact Logic.I|exact F]))) as (C' & E & V).
  exists C'. split; [exact E|]. eapply rc_ext; [exact V|]. intros i j Hi Hj. cbv beta. unfold wr.
  destruct (b i j); [|destruct outp; auto]. unfold smextract. simpl.
  rewrite (nth_error_nth' l 0 Hj). simpl. unfold stran. rewrite (rc_get _ _ _ _ _ _ HA); auto.
  rewrite Forall_forall in F. apply F, nth_In. auto.
Qed.

Section B5.
Context {T : Type} (ti : T -> Z) (tq : T -> Qc) (A : lil T) (src : list nat) (N : nat).
Local Notation p := (length src).
Hypothesis WA : wfm A.
Hypothesis RA : nrows A = N.
Hypothesis CA : ncols A = N.
Hypothesis Hp : src <> [].
Hypothesis Hsrc : Forall (fun s => s < N) src.
Hypothesis Hone : forall u v x, mget A u v = Some x -> ti x = 1%Z /\ tq x = 1%Qc.
Local Notation sr i := (nth i src 0).

Lemma b5_body_eq st : p = N -> nrows (fst (fst st)) = N -> ncols (fst (fst st)) = p -> b5_body ti A src st = bc_body_c ti A st.
Proof.
  intros EN HR HK. destruct st as [[F P] Ss]. simpl in HR, HK. unfold b5_body, bc_body_c, bc_sigma.
  rewrite RA, HR, HK, EN. reflexivity.
Qed.
Lemma b5_body_ok : p = N -> body_ok A src N btrue 1 false (b5_body ti A src).
Proof.
  intros EN k st I. rewrite b5_body_eq; auto.
  - apply (body_r_ok ti tq A src N WA RA CA Hsrc Hone false _ eq_refl k st I).
  - destruct st as [[F P] Ss]. destruct I as (_ & f & g & HF & _). apply (rc_dims _ _ _ _ HF).
  - destruct st as [[F P] Ss]. destruct I as (_ & f & g & HF & _). apply (rc_dims _ _ _ _ HF).
Qed.

Lemma b5_back_step (P : lil Z) I g Ss j W B b Si Sp si sp w :
  bv src N false P g -> bv src N false I (fun i v => option_map (fun x => Qcinv (zq x)) (g i v)) ->
  nth_error Ss j = Some Si -> nth_error Ss (j - 1) = Some Sp -> bv src N false Si si -> bv src N false Sp sp ->
  bv src N false W w -> bv src N false B b ->
  exists W' B', b5_back tq A P I Ss j (W, B) = Ok (W', B') /\ wbv src N false W' /\
    bv src N false B' (Bf tq A N b (W1f b g (fun i v => otrue btrue (si i v))) g (fun i v => otrue btrue (sp i v))).
Proof.
  intros HP HI Ei Ep Hi Hp' HW HB. simpl in HP, HI, Hi, Hp', HW, HB.
  pose proof (rcA A N WA RA CA) as HA.
  unfold b5_back. rewrite (sigma_at_ok _ _ _ Ei). cbn [bind].
  destruct (rc_mult N p Qcmult Qcmult idc btrue (MVal Si) _ REPLACE W B I _ _ _ HW HB HI (mrc_val _ _ btrue Si _ Hi))
    as (W1 & -> & V1). cbn [bind]. rewrite (sigma_at_ok _ _ _ Ep). cbn [bind].
  destruct (rc_mxm N N p Qcplus (mul_aq tq) (mul_qa tq) idc idc btrue (MVal Sp) _ REPLACE W1 A W1 _ _ _ V1 HA V1
    (mrc_val _ _ btrue Sp _ Hp')) as (W2 & -> & V2). cbn [bind].
  destruct (rc_mult_acc N p (fun x y => (x * zq y)%Qc) Qcmult zq Qcplus idc btrue mnomask _ MERGE B W2 P _ _ _ HB V2 HP
    (mrc_none _ _ _)) as (B' & -> & VB). cbn [bind]. exists W2, B'. split; [auto|].
  split; [exists (fun i v => wr (otrue btrue (sp i v)) REPLACE (wr (otrue btrue (si i v)) REPLACE (w i v)
    (omap2 Qcmult (b i v) (option_map (fun x : Z => (/ zq x)%Qc) (g i v))))
    (osum Qcplus (map (fun k => omap2 (mul_aq tq) (mget A v k) (wr (otrue btrue (si i k)) REPLACE (w i k)
      (omap2 Qcmult (b i k) (option_map (fun x : Z => (/ zq x)%Qc) (g i k))))) (seq 0 N)))); exact V2|].
  eapply rc_ext; [exact VB|]. intros v i _ _. unfold Bf, W1f, wr. f_equal.
  destruct (otrue btrue (sp i v)); [|auto]. f_equal. f_equal. apply map_ext. intro u.
  rewrite (omap2_flip (mul_aq tq) (mul_qa tq)) by (intros; unfold mul_aq, mul_qa; ring). f_equal.
  destruct (otrue btrue (si i u)); [|auto]. destruct (g i u), (b i u); simpl; auto.
Qed.

(** The first frontier holds the neighbours other than the source itself. *)
Definition b5_first (i v : nat) : option Z := if sr i =? v then None else option_map ti (mget A (sr i) v).
Lemma b5_first_F i : i < p -> isF N (edge A) (sr i) Z.of_nat 1 (b5_first i).
Proof.
  intro Hi. pose proof (sr_lt src N Hsrc i Hi) as Hs.
  destruct (first_F N (edge A) (sr i) Hs Z.of_nat (mget A) (fun u v _ _ => edge_some A u v)
    (fun v => option_map ti (mget A (sr i) v))) as (H & _).
  { intros v Hv. destruct (mget A (sr i) v) eqn:E; auto. simpl. rewrite (proj1 (Hone _ _ _ E)). auto. }
  split.
  - intros v Hv [Nv|]; [|lia]. rewrite <- H by auto. unfold b5_first. rewrite (proj2 (Nat.eqb_neq (sr i) v)); auto.
  - intros _. left. unfold b5_first. rewrite Nat.eqb_refl. auto.
Qed.
Lemma b5_start : exists P F, build_or_throw (lil_new N p) (src_cols src) = Ok P /\
  extract_m ztrue idc (NoAcc ti) (MComp P) REPLACE (lil_new N p) (Trn A) AllIdx (IdxArr src) = Ok F /\
  rc N p F (fun v i => b5_first i v) /\ inv A src N btrue 1 false 0 (F, P, []).
Proof.
  unfold src_cols. destruct (rc_build_cols N src 1%Z Hsrc) as (P & -> & VP).
  destruct (rc_extract_rows_tm N N ti ztrue (MComp P) _ REPLACE A _ src (rcA A N WA RA CA) Hsrc (mrc_comp N p ztrue P _ VP))
    as (F & EF & VF). exists P, F. split; [auto|]. split; [exact EF|].
  assert (VF' : rc N p F (fun v i => b5_first i v)).
  { eapply rc_ext; [exact VF|]. intros v i Hv Hi. cbv beta. unfold b5_first. destruct (sr i =? v); auto. }
  split; [exact VF'|]. split; [split; [auto|intros; lia]|].
  exists b5_first, (fun i j => if sr i =? j then Some 1%Z else None).
  split; [exact VF'|]. split; [exact VP|]. split; [apply b5_first_F|].
  intros i Hi. apply (source_P N (edge A) (sr i) (sr_lt src N Hsrc i Hi) Z.of_nat). auto.
Qed.

Definition stuck : Prop := forall s v, In s src -> v < N -> s <> v -> mget A s v = None.

Theorem b5_ok n delta fd : p = N \/ stuck -> S N < n -> vis N delta fd ->
  exists r, BC_update_appendixB5 ti tq n delta A src = Ok (Some r) /\ vis N r (fun v => Some (betweenness N (edge A) src v)).
Proof.
  intros Hc Hn Vd. unfold BC_update_appendixB5. rewrite RA.
  destruct b5_start as (P & F & -> & EF & VF & I0). cbn [bind]. rewrite EF. cbn [bind].
  assert (L : exists st k, mwhile n bc_more (b5_body ti A src) (F, P, []) = Ok (Some st) /\
    inv A src N btrue 1 false k st /\ within A src N k).
  { destruct Hc as [Hc|Hc].
    - apply (loop_ok A src N RA CA Hp Hsrc btrue 1 false _ (le_n _) (b5_body_ok Hc) n 0 (F, P, []) I0); lia.
    - assert (E : bc_more (F, P, @nil (lil bool)) = false).
      { unfold bc_more. simpl. destruct (has_vals (nvals F)) eqn:E; auto. exfalso.
        destruct (rc_vals N p F _ VF E) as (v & i & Hv & Hi & Q). unfold b5_first in Q.
        destruct (Nat.eqb_spec (sr i) v) as [|Ne]; [congruence|]. rewrite Hc in Q; auto. apply nth_In. auto. }
      destruct n as [|n]; [lia|]. exists (F, P, []), 0. simpl. rewrite E. split; [auto|]. split; [exact I0|].
      apply (inv_done A src N RA CA Hsrc btrue 1 false 0 _ (le_n _) (le_n _) I0 E). }
  destruct L as ([[F' P'] Ss] & k & E & I & Hw). setoid_rewrite E. cbn [bind].
  destruct I as (M & f & g & _ & HP & _ & IP).
  destruct (inverse_ok src N false P' g HP) as (I & EI & VI). unfold bc_inverse in EI. pose proof HP as HP0. simpl in HP0.
  destruct (rc_dims _ _ _ _ HP0) as (-> & ->) in EI. rewrite EI. cbn [bind].
  destruct (ones_ok src N false) as (B & EB & VB). simpl in EB. rewrite EB. cbn [bind].
  destruct (back_ok ti tq A src N RA CA Hsrc Hone btrue false k P' Ss g (b5_back tq A P' I Ss) (lil_new N p) B M HP IP Hw)
    as (W' & B' & EM & VB'); auto.
  { intros j W0 B0 b w Si Sp si sp Ei Ep Vi Vp HW0 HB0. eapply b5_back_step; eauto. }
  { exists (fun _ _ => None). apply (bv_new src N false). }
  rewrite EM. cbn [bind snd].
  destruct (vis_fill N btrue vnomask _ MERGE delta _ (- qn p)%Qc Vd (vmis_none _ _)) as (r1 & -> & V1). cbn [bind].
  simpl in VB'.
  destruct (vis_reduce_acc N p Qcplus MERGE r1 _ B' _ V1 VB') as (r2 & -> & V2). exists r2. split; [auto|].
  eapply vis_ext; [exact V2|]. intros v Hv. cbv beta. rewrite osum_all by apply (p_pos A src N RA CA Hp Hsrc). simpl.
  rewrite (sum_result A src N). auto.
Qed.
Theorem b5_throws n delta : p <> N -> ~ stuck -> 0 < n -> BC_update_appendixB5 ti tq n delta A src = Throw DimensionException.
Proof.
  intros Hc Hs Hn. unfold BC_update_appendixB5. rewrite RA.
  destruct b5_start as (P & F & -> & EF & VF & I0). cbn [bind]. rewrite EF. cbn [bind].
  assert (E : bc_more (F, P, @nil (lil bool)) = true).
  { unfold bc_more. simpl. destruct (has_vals (nvals F)) eqn:E; auto. exfalso. apply Hs. intros s v Is Hv Ne.
    destruct (In_nth src s 0 Is) as (i & Hi & Es). pose proof (rc_no_vals N p F _ VF E v i Hv Hi) as Q. simpl in Q.
    unfold b5_first in Q. rewrite Es, (proj2 (Nat.eqb_neq s v)) in Q by auto. destruct (mget A s v); [discriminate|auto]. }
  destruct n as [|n]; [lia|].
  assert (Q : b5_body ti A src (F, P, []) = Throw DimensionException).
  { unfold b5_body. rewrite apply_throws; [auto|]. intros (_ & H1 & H2). destruct (rc_dims _ _ _ _ VF) as (D1 & D2).
    simpl in H1, H2. rewrite D1 in *. lia. }
  cbn [mwhile]. rewrite E. setoid_rewrite Q. reflexivity.
Qed.
End B5.
