(** Delta stepping computes shortest distances when all weights are positive. *)
From Coq Require Import Lia.
From Verif Require Import Base ModelLil ModelVec ModelHelpers ModelViews ModelMul ModelElem
  ModelIndex ModelAlgoBase ModelDelta Spec SpecOps SpecPaths SpecFlow ProofBase ProofLil ProofVec
  ProofGraph ProofBfs ProofPaths ProofVis ProofFlow.

Lemma zsum_lt N f g i :
  (forall j, j < N -> (f j <= g j)%Z) -> i < N -> (f i < g i)%Z -> (zsum N f < zsum N g)%Z.
Proof.
  induction N as [|N IH]; intros H Hi L; [lia|]. rewrite !zsum_S.
  destruct (Nat.eq_dec i N) as [->|].
  - assert (zsum N f <= zsum N g)%Z by (apply zsum_le; auto). lia.
  - assert (zsum N f < zsum N g)%Z by (apply IH; auto; lia). specialize (H N). lia.
Qed.

Lemma zsum_bounds N d f : (forall j, (0 <= f j <= d)%Z) -> (0 <= zsum N f <= Z.of_nat N * d)%Z.
Proof.
  intro H. induction N as [|n IH]; [rewrite zsum_0; lia|]. rewrite zsum_S. specialize (H n). lia.
Qed.

Section Delta.
Context (G : lil Z) (N src : nat) (delta : Z).
Hypothesis WG : wfm G.
Hypothesis RG : nrows G = N.
Hypothesis CG : ncols G = N.
Hypothesis Hsrc : src < N.
Hypothesis Hdelta : (0 < delta)%Z.
Let w : nat -> nat -> option Z := mget G.
Hypothesis pos : forall u v g, w u v = Some g -> (0 < g)%Z.

Lemma ds_bound u v g : w u v = Some g -> u < N /\ v < N.
Proof.
  intro E. destruct (Nat.lt_ge_cases u N), (Nat.lt_ge_cases v N); auto; exfalso;
    unfold w in E; rewrite mget_oob in E by (auto; lia); discriminate.
Qed.

Definition edges_if (p : Z -> bool) (u v : nat) : option Z :=
  match w u v with Some g => if p g then Some g else None | None => None end.

Lemma ds_select_ok p : exists A, ds_select p N G = Ok A /\ sq N A (edges_if p).
Proof.
  unfold ds_select. assert (HG : sq N G w) by (split; auto).
  destruct (sq_apply N (fun x => bz (p x)) btrue mnomask _ MERGE _ G _ _ (sq_new N) HG (mmis_none N btrue))
    as (A & -> & HA). cbn [bind].
  destruct (sq_apply N (@idc Z) ztrue (MVal A) _ REPLACE A G _ _ HA HG (mmis_val N ztrue A _ HA))
    as (A' & -> & HA'). exists A'. split; [reflexivity|]. eapply sq_ext; [exact HA'|].
  intros i j Hi Hj. unfold edges_if, wr. simpl. destruct (w i j); simpl; [|reflexivity].
  destruct (p z); reflexivity.
Qed.

(** One relaxation. *)
Definition request (fm : nat -> option Z) (fA : nat -> nat -> option Z) (v : nat) : option Z :=
  osum zmin (map (fun k => omap2 Z.add (fm k) (fA k v)) (seq 0 N)).
Lemma request_sound fm fA v y :
  request fm fA v = Some y -> exists k x g, k < N /\ fm k = Some x /\ fA k v = Some g /\ y = (x + g)%Z.
Proof.
  intro E. apply osum_zmin in E. destruct E as (E & _). apply in_map_iff in E. destruct E as (k & E & Hk).
  apply in_seq in Hk. destruct (fm k) as [x|] eqn:Ex, (fA k v) as [g|] eqn:Eg; try discriminate.
  simpl in E. injection E as <-. exists k, x, g. split; [lia|auto].
Qed.
Lemma request_le fm fA v k x g :
  k < N -> fm k = Some x -> fA k v = Some g -> exists y, request fm fA v = Some y /\ (y <= x + g)%Z.
Proof.
  intros Hk Ex Eg. apply osum_zmin_le. apply in_map_iff. exists k. rewrite Ex, Eg. split; [reflexivity|].
  apply in_seq. lia.
Qed.

Definition sound (t : nat -> option Z) : Prop :=
  forall v x, v < N -> t v = Some x -> exists k, wwalk w src v k x.
Definition below (t : nat -> option Z) (v : nat) (y : Z) : Prop := exists x, t v = Some x /\ (x <= y)%Z.
Definition relaxed (c : Z) (t : nat -> option Z) : Prop :=
  forall u v x g, t u = Some x -> (x < c)%Z -> w u v = Some g -> below t v (x + g).

Lemma walk_nonneg u v k c : wwalk w u v k c -> (0 <= c)%Z.
Proof. induction 1 as [|v t k c g W IH E]; [lia|]. specialize (pos _ _ _ E). lia. Qed.

(** Once all distances below [c] have been relaxed, they are final. *)
Lemma relaxed_covers c t v k y :
  relaxed c t -> below t src 0 -> wwalk w src v k y -> (y < c)%Z -> below t v y.
Proof.
  intros HR H0 W. induction W as [|v v' k y g W IH E]; intro Hy; [auto|].
  pose proof (pos _ _ _ E). destruct IH as (x & Ex & Hx); [lia|].
  destruct (HR v v' x g Ex ltac:(lia) E) as (x' & Ex' & Hx'). exists x'. split; [auto|lia].
Qed.

Definition omin (a b : option Z) : option Z := ounion zmin idc idc a b.
Lemma omin_below_l t q v y : below t v y -> below (fun j => omin (t j) (q j)) v y.
Proof.
  intros (x & E & L). unfold below, omin. rewrite E. destruct (q v) as [z|]; simpl; unfold idc, zmin.
  - destruct (Z.ltb_spec x z); eexists; (split; [reflexivity|lia]).
  - eauto.
Qed.
Lemma omin_below_r (t q : nat -> option Z) v y :
  (exists z, q v = Some z /\ (z <= y)%Z) -> below (fun j => omin (t j) (q j)) v y.
Proof.
  intros (z & E & L). unfold below, omin. rewrite E. destruct (t v) as [x|]; simpl; unfold idc, zmin.
  - destruct (Z.ltb_spec x z); eexists; (split; [reflexivity|lia]).
  - eauto.
Qed.
Lemma omin_cases a b x : omin a b = Some x ->
  (a = Some x /\ forall z, b = Some z -> (x <= z)%Z) \/
  (b = Some x /\ forall z, a = Some z -> (x < z)%Z) \/ (a = Some x /\ b = Some x).
Proof.
  unfold omin. destruct a as [p|], b as [q|]; simpl; unfold idc, zmin; intro E; try discriminate.
  - destruct (Z.ltb_spec p q); injection E as <-.
    + left. split; [auto|]. intros z Ez. injection Ez as <-. lia.
    + destruct (Z.eq_dec p q) as [->|].
      * right. right. auto.
      * right. left. split; [auto|]. intros z Ez. injection Ez as <-. lia.
  - left. split; [auto|]. intros; discriminate.
  - right. left. split; [auto|]. intros; discriminate.
Qed.

Lemma relax_sound fm p t :
  sound t -> (forall k x, k < N -> fm k = Some x -> t k = Some x) ->
  sound (fun j => omin (t j) (request fm (edges_if p) j)).
Proof.
  intros HS HM v x Hv E.
  assert (Q : request fm (edges_if p) v = Some x -> exists k, wwalk w src v k x).
  { intro E'. destruct (request_sound _ _ _ _ E') as (k & x' & g & Hk & Ex & Eg & ->).
    destruct (HS k x' Hk (HM k x' Hk Ex)) as (m & Wm). unfold edges_if in Eg.
    destruct (w k v) as [g'|] eqn:Ew; [|discriminate]. destruct (p g'); [|discriminate]. injection Eg as <-.
    exists (S m). econstructor; eauto. }
  apply omin_cases in E. destruct E as [(E & _)|[(E & _)|(E & _)]]; eauto.
Qed.

(** Values below [c] do not change when nothing smaller is requested. *)
Lemma relax_keeps c fm fA t u x :
  (forall k y, k < N -> fm k = Some y -> (c <= y)%Z) ->
  (forall k g, fA k u = Some g -> (0 <= g)%Z) ->
  omin (t u) (request fm fA u) = Some x -> (x < c)%Z -> t u = Some x.
Proof.
  intros HM HA E Hx. apply omin_cases in E. destruct E as [(E & _)|[(E & _)|(E & _)]]; auto.
  exfalso. destruct (request_sound _ _ _ _ E) as (k & y & g & Hk & Ey & Eg & ->).
  specialize (HM k y Hk Ey). specialize (HA k g Eg). lia.
Qed.

(** ** The inner loop, for bucket [i] *)
Definition low (i : nat) : Z := ds_low delta i.
Lemma low_S i : low (i + 1) = (low i + delta)%Z.
Proof. unfold low, ds_low. lia. Qed.
Lemma low_pos i : (0 <= low i)%Z.
Proof. unfold low, ds_low. nia. Qed.
Let light g := (g <=? delta)%Z.
Let heavy g := (delta <? g)%Z.

Definition inner_inv (i : nat) (ft : nat -> option Z) (x : ds_state) : Prop :=
  exists fm fb fs fq fc fl,
    vis N (ds_t x) ft /\ vis N (ds_masked x) fm /\ vis N (ds_bi x) fb /\ vis N (ds_s x) fs /\
    vis N (ds_req x) fq /\ vis N (ds_comp x) fc /\ vis N (ds_less x) fl /\ ds_i x = i /\
    sound ft /\ below ft src 0 /\ (forall v, N <= v -> ft v = None) /\ relaxed (low i) ft /\
    (forall u, u < N -> fm u = if otrue btrue (fb u) then ft u else None) /\
    (forall u, u < N -> fb u = Some true -> exists y, ft u = Some y /\ (low i <= y < low (i + 1))%Z) /\
    (forall u, u < N -> fs u = Some true -> exists y, ft u = Some y /\ (low i <= y)%Z) /\
    (forall u y, u < N -> ft u = Some y -> (low i <= y < low (i + 1))%Z ->
       fm u = Some y \/
       (fs u = Some true /\ forall v g, w u v = Some g -> light g = true -> below ft v (y + g))).

(** How far the bucket can still sink. *)
Definition room (i : nat) (o : option Z) : Z :=
  match o with Some x => Z.min delta (Z.max 0 (x - low i)) | None => delta end.
Definition rooms (i : nat) (ft : nat -> option Z) : Z := zsum N (fun v => room i (ft v)).

Lemma room_bound i o : (0 <= room i o <= delta)%Z.
Proof. destruct o; simpl; lia. Qed.
Lemma rooms_bound i ft : (0 <= rooms i ft <= Z.of_nat N * delta)%Z.
Proof. apply zsum_bounds. intro. apply room_bound. Qed.

Lemma inner_step AL i ft x :
  sq N AL (edges_if light) -> inner_inv i ft x ->
  exists ft' x', ds_inner_body delta AL x = Ok x' /\ inner_inv i ft' x' /\
    (has_vals (vnvals (ds_masked x')) = true -> (rooms i ft' < rooms i ft)%Z).
Proof.
  intros HA (fm & fb & fs & fq & fc & fl & VT & VM & VB & VS & VQ & VC & VL & Ei & SO & SR & OB & RX & MB & BR & SL & BU).
  unfold ds_inner_body. rewrite Ei. fold (low i). fold (low (i + 1)).
  destruct (vis_vxm N zmin Z.add btrue vnomask _ MERGE _ _ AL _ _ _ VQ VM HA (vmis_none N btrue)) as (q & -> & Q).
  cbn [bind].
  destruct (vis_add N orb idc idc btrue vnomask _ MERGE _ _ _ _ _ _ VS VS VB (vmis_none N btrue)) as (s' & -> & S').
  cbn [bind].
  assert (Q' : vis N q (request fm (edges_if light))) by (eapply vis_ext; [exact Q|]; intros; reflexivity). clear Q.
  set (fr := request fm (edges_if light)) in *.
  destruct (vis_add N Z.ltb ztrue ztrue ztrue (MVal q) _ REPLACE _ _ _ _ _ _ VL Q' VT (vmis_val N ztrue q _ Q'))
    as (l' & -> & L'). cbn [bind].
  destruct (vis_apply N (in_range (low i) (low (i + 1))) btrue (MVal l') _ REPLACE _ _ _ _ VB Q'
              (vmis_val N btrue l' _ L')) as (b' & -> & B'). cbn [bind].
  destruct (vis_add N zmin idc idc btrue vnomask _ MERGE _ _ _ _ _ _ VT VT Q' (vmis_none N btrue)) as (t' & -> & T').
  cbn [bind].
  destruct (vis_apply N (@idc Z) btrue (MVal b') _ REPLACE _ _ _ _ VM T' (vmis_val N btrue b' _ B')) as (m' & -> & M').
  cbn [bind].
  assert (FM : forall k y, k < N -> fm k = Some y -> ft k = Some y /\ fb k = Some true /\ (low i <= y < low (i + 1))%Z).
  { intros k y Hk E. rewrite MB in E by auto. destruct (fb k) as [[|]|] eqn:Eb; simpl in E; try discriminate.
    split; [auto|]. split; [auto|]. destruct (BR k Hk Eb) as (y' & E' & L). congruence. }
  assert (FR : forall v y, fr v = Some y -> (low i < y)%Z).
  { intros v y E. destruct (request_sound _ _ _ _ E) as (k & y' & g & Hk & Ey & Eg & ->).
    destruct (FM k y' Hk Ey) as (_ & _ & L). unfold edges_if in Eg.
    destruct (w k v) as [g'|] eqn:Ew; [|discriminate]. destruct (light g'); [|discriminate].
    injection Eg as <-. specialize (pos _ _ _ Ew). lia. }
  set (ft' := fun v => if v <? N then omin (ft v) (fr v) else None).
  assert (FT' : forall v, v < N -> ft' v = omin (ft v) (fr v)).
  { intros v Hv. unfold ft'. destruct (Nat.ltb_spec v N); [auto|lia]. }
  assert (BE : forall v y, v < N -> below ft v y -> below ft' v y).
  { intros v y Hv H. destruct (omin_below_l ft fr v y H) as (z & E & L). exists z. rewrite FT' by auto. auto. }
  assert (BQ : forall v y, v < N -> (exists z, fr v = Some z /\ (z <= y)%Z) -> below ft' v y).
  { intros v y Hv H. destruct (omin_below_r ft fr v y H) as (z & E & L). exists z. rewrite FT' by auto. auto. }
  assert (T2 : vis N t' ft').
  { eapply vis_ext; [exact T'|]. intros v Hv. rewrite FT' by auto. reflexivity. }
  set (nw := fun v => match fr v with
              | Some z => match ft v with Some x => (z <? x)%Z | None => true end
              | None => false end).
  assert (B2 : vis N b' (fun v => if nw v then option_map (in_range (low i) (low (i + 1))) (fr v) else None)).
  { eapply vis_ext; [exact B'|]. intros v Hv. unfold nw. destruct (fr v) as [z|] eqn:Er; [|reflexivity].
    specialize (FR v z Er). pose proof (low_pos i). destruct z as [|p|p]; try lia.
    destruct (ft v) as [y|]; cbn -[Z.ltb in_range]; [destruct (Z.pos p <? y)%Z; reflexivity|reflexivity]. }
  assert (M2 : vis N m' (fun v => if otrue btrue (if nw v then option_map (in_range (low i) (low (i + 1))) (fr v) else None)
                                  then ft' v else None)).
  { eapply vis_ext; [exact M'|]. intros v Hv. cbv beta. rewrite <- (vis_get _ _ _ _ B' Hv), (vis_get _ _ _ _ B2 Hv).
    rewrite <- (vis_get _ _ _ _ T' Hv), (vis_get _ _ _ _ T2 Hv). unfold wr.
    destruct (otrue _ _); [|reflexivity]. destruct (ft' v); reflexivity. }
  assert (NW : forall v, nw v = true -> v < N -> exists z, fr v = Some z /\ ft' v = Some z).
  { intros v E Hv. unfold nw in E. rewrite FT' by auto. destruct (fr v) as [z|]; [|discriminate]. exists z.
    split; [reflexivity|]. unfold omin, zmin. destruct (ft v) as [y|]; simpl; [|reflexivity].
    destruct (Z.ltb_spec y z), (Z.ltb_spec z y); try discriminate; try lia. reflexivity. }
  exists ft'. eexists. split; [reflexivity|]. split.
  - do 6 eexists. cbn [ds_t ds_masked ds_req ds_bi ds_comp ds_less ds_s ds_i].
    split; [exact T2|]. split; [exact M2|]. split; [exact B2|]. split; [exact S'|]. split; [exact Q'|].
    split; [exact VC|]. split; [exact L'|]. split; [auto|].
    split.
    { intros v y Hv E. rewrite FT' in E by auto. eapply (relax_sound fm light ft SO); eauto.
      intros k z Hk Ek. apply FM; auto. }
    split; [apply BE; auto|].
    split; [intros v Hv; unfold ft'; destruct (Nat.ltb_spec v N); [lia|auto]|].
    split.
    { intros u v y g E Hy Ew. destruct (ds_bound _ _ _ Ew) as (Hu & Hv). apply BE; [auto|].
      apply (RX u v y g); auto. rewrite FT' in E by auto.
      apply (relax_keeps (low i) fm (edges_if light) ft u y); auto.
      - intros k z Hk Ek. apply FM in Ek; auto. lia.
      - intros k z Ek. unfold edges_if in Ek. destruct (w k u) eqn:Ek'; [|discriminate].
        destruct (light z0); [|discriminate]. injection Ek as <-. specialize (pos _ _ _ Ek'). lia. }
    split; [reflexivity|].
    split.
    { intros u Hu E. destruct (nw u) eqn:Enw; [|discriminate]. destruct (NW u Enw Hu) as (z & Ez & Et).
      rewrite Ez in E. simpl in E. injection E as E. unfold in_range in E. apply andb_true_iff in E.
      destruct E as (E1 & E2). apply Z.leb_le in E1. apply Z.ltb_lt in E2. exists z. split; [auto|lia]. }
    split.
    { intros u Hu E.
      assert (K : exists y, ft u = Some y /\ (low i <= y)%Z).
      { unfold wr in E. simpl in E. destruct (fs u) as [[|]|] eqn:Es; simpl in E.
        - apply SL; auto.
        - destruct (fb u) as [[|]|] eqn:Eb; simpl in E; try discriminate.
          destruct (BR u Hu Eb) as (y & Ey & L). exists y. split; [auto|lia].
        - destruct (fb u) as [[|]|] eqn:Eb; simpl in E; try discriminate.
          destruct (BR u Hu Eb) as (y & Ey & L). exists y. split; [auto|lia]. }
      destruct K as (y & Ey & L). rewrite FT' by auto. destruct (omin (ft u) (fr u)) as [z|] eqn:Eo.
      - exists z. split; [auto|]. apply omin_cases in Eo. destruct Eo as [(Eo & _)|[(Eo & _)|(Eo & _)]].
        + congruence.
        + specialize (FR u z Eo). lia.
        + congruence.
      - unfold omin in Eo. rewrite Ey in Eo. destruct (fr u); discriminate. }
    intros u y Hu E Hy. rewrite FT' in E by auto.
    assert (OLD : ft u = Some y -> (forall z, fr u = Some z -> (y <= z)%Z) ->
      (if otrue btrue (if nw u then option_map (in_range (low i) (low (i + 1))) (fr u) else None)
       then ft' u else None) = Some y \/
      wr true MERGE (fs u) (ounion orb idc idc (fs u) (fb u)) = Some true /\
      (forall v g, w u v = Some g -> light g = true -> below ft' v (y + g))).
    { intros Et _. right. destruct (BU u y Hu Et Hy) as [Em|(Es & Er)].
      - destruct (FM u y Hu Em) as (_ & Eb & _). split.
        + unfold wr. rewrite Eb. destruct (fs u) as [[|]|]; reflexivity.
        + intros v g Ew Lg. destruct (ds_bound _ _ _ Ew) as (_ & Hv). apply BQ; [auto|].
          apply (request_le fm (edges_if light) v u y g Hu Em). unfold edges_if. rewrite Ew, Lg. reflexivity.
      - split.
        + unfold wr. rewrite Es. destruct (fb u) as [[|]|]; reflexivity.
        + intros v g Ew Lg. destruct (ds_bound _ _ _ Ew) as (_ & Hv). apply BE; auto. }
    apply omin_cases in E. destruct E as [(E & Ez)|[(E & Ez)|(E & E')]].
    + apply OLD; auto.
    + left. assert (Enw : nw u = true).
      { unfold nw. rewrite E. destruct (ft u) as [z|]; [|reflexivity]. apply Z.ltb_lt. auto. }
      destruct (NW u Enw Hu) as (z & Ez' & Et). rewrite Enw, E. simpl.
      assert (RG' : in_range (low i) (low (i + 1)) y = true).
      { unfold in_range. apply andb_true_iff. split; [apply Z.leb_le|apply Z.ltb_lt]; lia. }
      rewrite RG'. simpl. congruence.
    + apply OLD; auto. intros z Ez. assert (z = y) by congruence. lia.
  - cbn [ds_masked]. intro HV. destruct (vis_vals _ _ _ M2 HV) as (v & Hv & Fv).
    destruct (nw v) eqn:Enw; [|simpl in Fv; congruence].
    destruct (NW v Enw Hv) as (z & Ez & Et). rewrite Ez in Fv. simpl in Fv.
    destruct (in_range (low i) (low (i + 1)) z) eqn:Er; [|simpl in Fv; congruence].
    unfold in_range in Er. apply andb_true_iff in Er. destruct Er as (E1 & E2).
    apply Z.leb_le in E1. apply Z.ltb_lt in E2. rewrite low_S in E2.
    unfold rooms. apply (zsum_lt N _ _ v); auto.
    + intros j Hj. rewrite FT' by auto. unfold omin, zmin.
      destruct (ft j) as [a|], (fr j) as [b|]; simpl; unfold idc; try lia.
      destruct (Z.ltb_spec a b); lia.
    + rewrite Et. unfold nw in Enw. rewrite Ez in Enw. simpl. destruct (ft v) as [y|]; simpl; [|lia].
      apply Z.ltb_lt in Enw. lia.
Qed.

Lemma inner_loop AL i n : forall ft x,
  sq N AL (edges_if light) -> inner_inv i ft x ->
  (has_vals (vnvals (ds_masked x)) = true -> (rooms i ft + 1 < Z.of_nat n)%Z) -> 0 < n ->
  exists ft' x', mwhile n (fun x => has_vals (vnvals (ds_masked x))) (ds_inner_body delta AL) x = Ok (Some x') /\
    inner_inv i ft' x' /\ has_vals (vnvals (ds_masked x')) = false.
Proof.
  induction n as [|n IH]; intros ft x HA HI Hn Hp; [lia|]. simpl.
  destruct (has_vals (vnvals (ds_masked x))) eqn:HV.
  - destruct (inner_step AL i ft x HA HI) as (ft' & x' & -> & HI' & DEC). cbn [bind].
    specialize (Hn eq_refl). pose proof (rooms_bound i ft).
    apply (IH ft'); auto; [|lia]. intro HV'. specialize (DEC HV'). lia.
  - exists ft, x. auto.
Qed.

(** ** The outer loop *)
Definition outer_inv (ft : nat -> option Z) (x : ds_state) : Prop :=
  exists fm fb fs fq fc fl,
    vis N (ds_t x) ft /\ vis N (ds_masked x) fm /\ vis N (ds_bi x) fb /\ vis N (ds_s x) fs /\
    vis N (ds_req x) fq /\ vis N (ds_comp x) fc /\ vis N (ds_less x) fl /\
    sound ft /\ below ft src 0 /\ (forall v, N <= v -> ft v = None) /\ relaxed (low (ds_i x)) ft /\
    (forall u, u < N -> (fc u <> None <-> exists y, ft u = Some y /\ (low (ds_i x) <= y)%Z)).

Lemma compare_ok i outp tc fc t ft :
  vis N tc fc -> vis N t ft -> (outp = REPLACE \/ forall v y, v < N -> ft v = Some y -> (low i <= y)%Z) ->
  exists tc', ds_compare outp delta i tc t = Ok tc' /\
    exists fc', vis N tc' fc' /\ forall u, u < N -> (fc' u <> None <-> exists y, ft u = Some y /\ (low i <= y)%Z).
Proof.
  intros VC VT H. unfold ds_compare. fold (low i).
  destruct (vis_apply N (fun v => (low i <=? v)%Z) btrue vnomask _ MERGE _ _ _ _ VC VT (vmis_none N btrue))
    as (c1 & -> & C1). cbn [bind].
  destruct (vis_apply N (@idc bool) btrue (MVal c1) _ outp _ _ _ _ C1 C1 (vmis_val N btrue c1 _ C1))
    as (c2 & -> & C2). exists c2. split; [reflexivity|]. eexists. split; [exact C2|].
  intros u Hu. unfold wr. simpl. destruct (ft u) as [y|] eqn:Eu; simpl.
  - destruct (Z.leb_spec (low i) y); simpl.
    + split; [|congruence]. intros _. exists y. auto.
    + destruct H as [->|H].
      * split; [congruence|]. intros (y' & E & L). injection E as <-. lia.
      * specialize (H u y Hu Eu). lia.
  - split.
    + destruct outp; congruence.
    + intros (y & E & _). discriminate.
Qed.

Lemma outer_step AL AH n ft x :
  sq N AL (edges_if light) -> sq N AH (edges_if heavy) -> outer_inv ft x ->
  (Z.of_nat N * delta + 1 < Z.of_nat n)%Z ->
  exists ft' x', ds_outer_body n delta AL AH x = Ok (Some x') /\ outer_inv ft' x' /\ ds_i x' = ds_i x + 1.
Proof.
  intros HL HH (fm & fb & fs & fq & fc & fl & VT & VM & VB & VS & VQ & VC & VL & SO & SR & OB & RX & CO) Hn.
  unfold ds_outer_body. set (i := ds_i x) in *. fold (low i). fold (low (i + 1)).
  destruct (vis_apply N (in_range (low i) (low (i + 1))) btrue vnomask _ MERGE _ _ _ _ VB VT (vmis_none N btrue))
    as (b1 & -> & B1). cbn [bind].
  destruct (vis_apply N (fun b => ztrue (bz b)) btrue (MVal b1) _ REPLACE _ _ _ _ B1 B1 (vmis_val N btrue b1 _ B1))
    as (b2 & -> & B2). cbn [bind].
  assert (B3 : vis N b2 (fun v => match ft v with
            | Some y => if in_range (low i) (low (i + 1)) y then Some true else None | None => None end)).
  { eapply vis_ext; [exact B2|]. intros v Hv. unfold wr. simpl. destruct (ft v) as [y|]; simpl; [|reflexivity].
    destruct (in_range (low i) (low (i + 1)) y); reflexivity. }
  clear B2.
  destruct (vis_apply N (@idc Z) btrue (MVal b2) _ REPLACE _ _ _ _ VM VT (vmis_val N btrue b2 _ B3))
    as (m1 & -> & M1). cbn [bind].
  set (x0 := mkDs (ds_t x) m1 (ds_req x) b2 (ds_comp x) (ds_less x) (vec_clear (ds_s x)) i).
  assert (I0 : inner_inv i ft x0).
  { do 6 eexists. cbn [x0 ds_t ds_masked ds_req ds_bi ds_comp ds_less ds_s ds_i].
    split; [exact VT|]. split; [exact M1|]. split; [exact B3|].
    split; [apply vis_clear; [apply VS|apply VS]|]. split; [exact VQ|]. split; [exact VC|]. split; [exact VL|].
    split; [reflexivity|]. split; [auto|]. split; [auto|]. split; [auto|]. split; [auto|].
    assert (RNG : forall y, in_range (low i) (low (i + 1)) y = true <-> (low i <= y < low (i + 1))%Z).
    { intro y. unfold in_range. rewrite andb_true_iff, Z.leb_le, Z.ltb_lt. tauto. }
    split.
    { intros u Hu. unfold wr. destruct (ft u) as [y|]; simpl; [|reflexivity].
      destruct (in_range (low i) (low (i + 1)) y); reflexivity. }
    split.
    { intros u Hu E. destruct (ft u) as [y|]; [|discriminate]. exists y. split; [auto|]. apply RNG.
      destruct (in_range (low i) (low (i + 1)) y); [auto|discriminate]. }
    split; [intros; discriminate|].
    intros u y Hu E L. left. apply RNG in L. unfold wr. rewrite E, L. simpl. reflexivity. }
  destruct (inner_loop AL i n ft x0 HL I0) as (ft1 & x1 & -> & I1 & EM).
  { intros _. pose proof (rooms_bound i ft). lia. }
  { destruct n; [simpl in Hn; nia|lia]. }
  cbn [bind]. clear I0 x0 M1 B3 B1 b1 VT SO SR OB RX CO VM VB VS VQ VC VL fm fb fs fq fc fl.
  destruct I1 as (fm & fb & fs & fq & fc & fl & VT & VM & VB & VS & VQ & VC & VL & Ei & SO & SR & OB & RX & MB & BR & SL & BU).
  destruct (vis_apply N (@idc Z) btrue (MVal (ds_s x1)) _ REPLACE _ _ _ _ VM VT (vmis_val N btrue _ _ VS))
    as (m2 & -> & M2). cbn [bind].
  destruct (vis_vxm N zmin Z.add btrue vnomask _ MERGE _ _ AH _ _ _ VQ M2 HH (vmis_none N btrue)) as (q & -> & Q).
  cbn [bind].
  set (gm := fun v => if otrue btrue (fs v) then ft1 v else None).
  assert (M3 : vis N m2 gm).
  { eapply vis_ext; [exact M2|]. intros v Hv. unfold wr, gm. destruct (otrue btrue (fs v)); [|reflexivity].
    destruct (ft1 v); reflexivity. }
  assert (Q' : vis N q (request gm (edges_if heavy))).
  { eapply vis_ext; [exact Q|]. intros v Hv. unfold wr, request. f_equal. apply map_ext. intro k. unfold gm.
    destruct (otrue btrue (fs k)); [|reflexivity]. destruct (ft1 k); reflexivity. }
  clear Q. set (fr := request gm (edges_if heavy)) in *.
  destruct (vis_add N zmin idc idc btrue vnomask _ MERGE _ _ _ _ _ _ VT VT Q' (vmis_none N btrue)) as (t' & -> & T').
  cbn [bind]. rewrite Ei.
  set (ft' := fun v => if v <? N then omin (ft1 v) (fr v) else None).
  assert (FT' : forall v, v < N -> ft' v = omin (ft1 v) (fr v)).
  { intros v Hv. unfold ft'. destruct (Nat.ltb_spec v N); [auto|lia]. }
  assert (T2 : vis N t' ft').
  { eapply vis_ext; [exact T'|]. intros v Hv. rewrite FT' by auto. reflexivity. }
  destruct (compare_ok (i + 1) REPLACE _ _ _ _ VC T2 (or_introl eq_refl)) as (c' & -> & fc' & C' & CC). cbn [bind].
  exists ft'. eexists. split; [reflexivity|]. split; [|reflexivity].
  do 6 eexists. cbn [ds_t ds_masked ds_req ds_bi ds_comp ds_less ds_s ds_i].
  split; [exact T2|]. split; [exact M3|]. split; [exact VB|]. split; [exact VS|]. split; [exact Q'|].
  split; [exact C'|]. split; [exact VL|].
  assert (BE : forall v y, v < N -> below ft1 v y -> below ft' v y).
  { intros v y Hv H. destruct (omin_below_l ft1 fr v y H) as (z & E & L). exists z. rewrite FT' by auto. auto. }
  assert (BQ : forall v y, v < N -> (exists z, fr v = Some z /\ (z <= y)%Z) -> below ft' v y).
  { intros v y Hv H. destruct (omin_below_r ft1 fr v y H) as (z & E & L). exists z. rewrite FT' by auto. auto. }
  assert (GM : forall k y, k < N -> gm k = Some y -> ft1 k = Some y /\ (low i <= y)%Z).
  { intros k y Hk E. unfold gm in E. destruct (fs k) as [[|]|] eqn:Es; simpl in E; try discriminate.
    split; [auto|]. destruct (SL k Hk Es) as (z & Ez & L). congruence. }
  split.
  { intros v y Hv E. rewrite FT' in E by auto. eapply (relax_sound gm heavy ft1 SO); eauto.
    intros k z Hk Ek. apply GM; auto. }
  split; [apply BE; auto|].
  split; [intros v Hv; unfold ft'; destruct (Nat.ltb_spec v N); [lia|auto]|].
  split; [|exact CC].
  intros u v y g E Hy Ew. destruct (ds_bound _ _ _ Ew) as (Hu & Hv). rewrite FT' in E by auto.
  assert (Eu : ft1 u = Some y).
  { apply omin_cases in E. destruct E as [(E & _)|[(E & _)|(E & _)]]; auto. exfalso.
    destruct (request_sound _ _ _ _ E) as (k & z & h & Hk & Ez & Eh & ->).
    destruct (GM k z Hk Ez) as (_ & L). unfold edges_if in Eh. destruct (w k u) as [h'|]; [|discriminate].
    destruct (heavy h') eqn:Hh; [|discriminate]. injection Eh as <-. unfold heavy in Hh. apply Z.ltb_lt in Hh.
    rewrite low_S in Hy. lia. }
  destruct (Z.ltb_spec y (low i)) as [Ly|Ly].
  - apply BE; auto. apply (RX u v y g); auto.
  - destruct (BU u y Hu Eu ltac:(lia)) as [Em|(Es & Er)].
    + exfalso. rewrite (vis_no_vals _ _ _ VM EM u Hu) in Em. discriminate.
    + destruct (light g) eqn:Lg.
      * apply BE; auto.
      * apply BQ; auto. apply (request_le gm (edges_if heavy) v u y g Hu).
        -- unfold gm. rewrite Es. simpl. auto.
        -- unfold edges_if. rewrite Ew. unfold heavy. unfold light in Lg.
           destruct (Z.leb_spec g delta); [discriminate|]. destruct (Z.ltb_spec delta g); [reflexivity|lia].
Qed.

Lemma outer_loop AL AH fuel m : forall n ft x,
  sq N AL (edges_if light) -> sq N AH (edges_if heavy) -> outer_inv ft x ->
  (Z.of_nat N * delta + 1 < Z.of_nat fuel)%Z ->
  (forall v k y, wwalk w src v k y -> exists k' y', wwalk w src v k' y' /\ (y' < low m)%Z) ->
  ds_i x <= m -> m - ds_i x < n ->
  exists ft' x', ds_outer n fuel delta AL AH x = Ok (Some x') /\ outer_inv ft' x' /\
    has_vals (vnvals (ds_comp x')) = false.
Proof.
  induction n as [|n IH]; intros ft x HL HH HI Hf HB Hi Hn; [lia|]. simpl.
  destruct (has_vals (vnvals (ds_comp x))) eqn:HV.
  - assert (L : ds_i x < m).
    { destruct (Nat.eq_dec (ds_i x) m) as [Em|]; [exfalso|lia].
      destruct HI as (fm & fb & fs & fq & fc & fl & VT & VM & VB & VS & VQ & VC & VL & SO & SR & OB & RX & CO).
      destruct (vis_vals _ _ _ VC HV) as (u & Hu & Fu). apply (CO u Hu) in Fu. destruct Fu as (y & Ey & Ly).
      destruct (SO u y Hu Ey) as (k & Wk). destruct (HB u k y Wk) as (k' & y' & Wk' & Ly').
      rewrite Em in *. destruct (relaxed_covers (low m) ft u k' y' RX SR Wk' Ly') as (z & Ez & Lz).
      assert (z = y) by congruence. lia. }
    destruct (outer_step AL AH fuel ft x HL HH HI Hf) as (ft' & x' & -> & HI' & Ei). cbn [bind].
    apply (IH ft'); auto; lia.
  - exists ft, x. auto.
Qed.

Lemma short_walks W m :
  (forall u v g, w u v = Some g -> (g <= W)%Z) -> (Z.of_nat N * W < low m)%Z -> (0 <= W)%Z ->
  forall v k y, wwalk w src v k y -> exists k' y', wwalk w src v k' y' /\ (y' < low m)%Z.
Proof.
  intros HW Hm W0 v k y Wk.
  destruct (shorten N w ds_bound (fun u => if u =? src then Some 0%Z else None)
     ltac:(intros u x E; cbv beta in E; destruct (Nat.eqb_spec u src); [subst; exact Hsrc|discriminate E]) k v y) as (k' & y' & Hk & Wf).
  { exists src, 0%Z, y. rewrite Nat.eqb_refl. split; [auto|]. split; [auto|lia]. }
  destruct Wf as (u & a & c & E & Wc & ->). destruct (Nat.eqb_spec u src); [|discriminate]. injection E as <-. subst u.
  exists k', c. split; [auto|]. assert (c <= Z.of_nat k' * W)%Z; [|nia].
  clear - Wc HW. induction Wc as [|v t k c g Wc IH E]; [lia|]. specialize (HW _ _ _ E). lia.
Qed.

Theorem delta_step_ok n m W paths :
  wfv0 paths -> vsize paths = N -> (0 <= W)%Z ->
  (forall u v g, w u v = Some g -> (g <= W)%Z) -> (Z.of_nat N * W < Z.of_nat m * delta)%Z -> m < n ->
  (Z.of_nat N * delta + 1 < Z.of_nat n)%Z ->
  exists d, sssp_delta_step n G delta src paths = Ok (Some d) /\ wfv d /\ vsize d = N /\
    forall v x, vget d v = Some x <-> distance w src v x.
Proof.
  intros Wp Sp W0 HW Hm Hmn Hn. unfold sssp_delta_step. rewrite RG.
  assert (N0 : N <> 0) by lia.
  destruct (vis_new 0%Z N N0) as (v0 & -> & V0). cbn [bind].
  destruct (vis_new false N N0) as (b0 & -> & B0). cbn [bind].
  destruct (vis_set N v0 _ src 0%Z V0 Hsrc) as (t0 & -> & T0 & _). cbn [bind].
  destruct (ds_select_ok (fun g => (g <=? delta)%Z)) as (AL & -> & HL). cbn [bind].
  destruct (ds_select_ok (fun g => (delta <? g)%Z)) as (AH & -> & HH). cbn [bind].
  set (ft := fun k => if k =? src then Some 0%Z else None) in *.
  destruct (compare_ok 0 MERGE b0 _ t0 _ B0 T0) as (c0 & -> & fc & C0 & CC).
  { right. intros v y Hv E. unfold ft in E. destruct (v =? src); [|discriminate]. injection E as <-.
    unfold low, ds_low. simpl. lia. }
  cbn [bind].
  destruct (outer_loop AL AH n m n ft (mkDs t0 v0 v0 b0 c0 b0 b0 0) HL HH) as (ft' & x & -> & HI & EC); auto.
  - do 6 eexists. cbn [ds_t ds_masked ds_req ds_bi ds_comp ds_less ds_s ds_i].
    split; [exact T0|]. split; [exact V0|]. split; [exact B0|]. split; [exact B0|]. split; [exact V0|].
    split; [exact C0|]. split; [exact B0|].
    split.
    { intros v y Hv E. unfold ft in E. destruct (Nat.eqb_spec v src); [|discriminate]. injection E as <-. subst.
      exists 0. constructor. }
    split; [exists 0%Z; unfold ft; rewrite Nat.eqb_refl; split; [auto|lia]|].
    split; [intros v Hv; unfold ft; destruct (Nat.eqb_spec v src); [lia|auto]|].
    split; [|exact CC].
    intros u v y g E Hy _. unfold ft in E. destruct (u =? src); [|discriminate]. injection E as <-.
    unfold low, ds_low in Hy. simpl in Hy. lia.
  - apply (short_walks W); auto.
  - simpl. lia.
  - simpl. lia.
  - cbn [bind].
    destruct HI as (fm & fb & fs & fq & fc' & fl & VT & VM & VB & VS & VQ & VC & VL & SO & SR & OB & RX & CO).
    destruct (vis_apply N (@idc Z) btrue vnomask _ MERGE _ _ _ _ (vis_clear N paths Wp Sp) VT (vmis_none N btrue))
      as (d & -> & D). cbn [bind]. exists d. split; [reflexivity|].
    pose proof D as (Wd & Sd & Gd). split; [auto|]. split; [auto|].
    assert (ED : forall v, vget d v = ft' v).
    { intro v. destruct (Nat.lt_ge_cases v N) as [Hv|Hv].
      - rewrite Gd by auto. unfold wr. destruct (ft' v); reflexivity.
      - rewrite (vis_oob _ _ _ _ D Hv), OB; auto. }
    assert (SM : forall v y, ft' v = Some y -> v < N /\ (y < low (ds_i x))%Z).
    { intros v y E. destruct (Nat.lt_ge_cases v N) as [Hv|Hv]; [|rewrite OB in E by auto; discriminate].
      split; [auto|]. apply Z.nle_gt. intro L. assert (K : fc' v <> None) by (apply CO; eauto).
      apply K. apply (vis_no_vals _ _ _ VC EC v Hv). }
    assert (COV : forall v k y, wwalk w src v k y -> below ft' v y).
    { intros v k y Wk. induction Wk as [|v t k c g Wk IH E]; [auto|].
      destruct IH as (z & Ez & Lz). destruct (RX v t z g Ez) as (z' & Ez' & Lz'); auto; [apply SM with v; auto|].
      exists z'. split; [auto|lia]. }
    intros v y. rewrite ED. split.
    + intro E. split; [apply SO; auto; eapply SM; eauto|]. intros k z Wk.
      destruct (COV v k z Wk) as (y' & E' & L). assert (y' = y) by congruence. lia.
    + intros ((k & Wk) & MIN). destruct (COV v k y Wk) as (z & Ez & Lz).
      destruct (SO v z) as (k' & Wk'); [eapply SM; eauto|auto|]. specialize (MIN k' z Wk').
      assert (z = y) by lia. congruence.
Qed.
End Delta.

Lemma weights_bounded (G : lil Z) :
  exists W, (0 <= W)%Z /\ forall u v g, mget G u v = Some g -> (g <= W)%Z.
Proof.
  assert (ROW : forall r : list (nat * Z), exists W, (0 <= W)%Z /\ forall v g, In (v, g) r -> (g <= W)%Z).
  { induction r as [|(a, b) r (W & W0 & IH)]; [exists 0%Z; split; [lia|intros v g []]|].
    exists (Z.max b W). split; [lia|]. intros v g [E|H].
    - injection E as -> ->. lia.
    - specialize (IH v g H). lia. }
  assert (ALL : forall d : list (list (nat * Z)), exists W, (0 <= W)%Z /\
            forall r v g, In r d -> In (v, g) r -> (g <= W)%Z).
  { induction d as [|r d (W & W0 & IH)]; [exists 0%Z; split; [lia|intros r v g []]|].
    destruct (ROW r) as (W1 & W10 & H1). exists (Z.max W1 W). split; [lia|]. intros r' v g [<-|H] Hv.
    - specialize (H1 v g Hv). lia.
    - specialize (IH r' v g H Hv). lia. }
  destruct (ALL (data G)) as (W & W0 & H). exists W. split; [auto|]. intros u v g E.
  unfold mget in E. destruct (nth_error (data G) u) as [r|] eqn:Er.
  - apply (H r v g); [eapply nth_error_In; eauto|].
    rewrite (nth_error_nth _ _ _ Er) in E. clear - E. induction r as [|(a, b) r IH]; simpl in E; [discriminate|].
    destruct (Nat.eqb_spec a v); [injection E as ->; subst; left; auto|right; auto].
  - apply nth_error_None in Er. rewrite nth_overflow in E by auto. discriminate.
Qed.
