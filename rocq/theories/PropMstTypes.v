(** Minimum spanning trees over the built-in integer types (C135, C137) and over [float] and [double] (C136). *)
From Coq Require Import Lia ZArith Floats.SpecFloat Permutation.
From Verif Require Import Base ModelLil ModelVec ModelViews ModelAlgoBase ModelAlgebra ModelFloat ModelInts ModelIntPaths ModelMstTypes
  Spec SpecAlgebra SpecFloats SpecFpaths SpecGraph SpecMst SpecMstTypes SpecInts SpecIntPaths
  ProofLil ProofVec ProofViews ProofAlgebra ProofLaws ProofRound ProofFloat ProofInts ProofExact ProofIntPaths ProofMst ProofMstTypes PropMst SpecRel.

Definition ikey (x : ival) : Z := match x with Ok z => z | _ => 0%Z end.
Definition ivalid (t : ctype) (x : ival) : Prop := exists z, x = Ok z /\ inty t z.
Lemma ivalid_ltb t x y : ivalid t x -> ivalid t y -> iltb x y = (ikey x <? ikey y)%Z.
Proof. intros (a & -> & _) (b & -> & _). reflexivity. Qed.
Lemma ivalid_plus t x : integer_type t -> ivalid t x -> ivalid t (op2 Plus t (Ok 0%Z) x) /\ ikey (op2 Plus t (Ok 0%Z) x) = ikey x.
Proof.
  intros T (a & -> & Ha). simpl. rewrite fits_plus by auto. simpl. split; [|auto]. exists a. auto.
Qed.
Lemma ivalid_chkv t (u : bvec ival) : wfv u -> (forall i x, vget u i = Some x -> ivalid t x) -> defined_v u = Ok u.
Proof. intros (W & _) H. apply defined_v_ok; auto. intros i x E. destruct (H i x E) as (z & -> & _). eauto. Qed.
Lemma exactly_valid t M z x : exactly t M z x -> ivalid t x /\ ikey x = (z * 1)%Z.
Proof. intros (-> & I & _). split; [exists z; auto|]. simpl. lia. Qed.

(** ** C135: integer types; weights of absolute value at most [M] on [N] vertices.  [G] is the graph of integers that the
    machine graph [G'] holds. *)
Theorem C135_mst :
  forall (t : ctype) (G : lil Z) (G' : lil ival) (N n : nat) (M : Z) (parents : bvec nat), integer_type t ->
    mrel (exactly t M) G G' -> nrows G = N -> ncols G = N -> N <> 0 ->
    (forall i j, mget G i j = mget G j i) ->
    (forall v, v < N -> reachable (edge G) (fun u => u = 0) v) ->
    wfv0 parents -> vsize parents = N -> N < n ->
    (0 <= M)%Z -> (M * Z.of_nat (N - 1) <= tmax t)%Z ->
    exists x r, imst t n G' parents = Ok (Some (x, r)) /\ wfv r /\ vsize r = N /\
      vget r 0 = None /\ (forall v, 0 < v < N -> vget r v <> None) /\
      minimum_spanning_tree N (mget G) (parent_edges N (vget r)) /\
      exactly t (M * Z.of_nat (N - 1)) (tree_weight (mget G) (parent_edges N (vget r))) x.
Proof.
  intros t G G' N n M parents T HG RG CG N0 SY CO Wp Sp Hn M0 HM.
  apply (rel_mst iltb (op2 Plus t) (Ok 0%Z) defined defined_v (ivalid t) ikey 1 (exactly t M)
           (fun k => exactly t (M * Z.of_nat k))); auto.
  - lia.
  - apply exactly_valid.
  - apply ivalid_ltb.
  - intros. apply ivalid_plus; auto.
  - apply ivalid_chkv.
  - split; [auto|]. split; [apply (inty_0 t T)|]. simpl. lia.
  - intros k a x b y Hk Ha Hb. replace (M * Z.of_nat (S k))%Z with (M * Z.of_nat k + M)%Z by lia.
    apply exactly_plus; auto. nia.
  - intros k a x (-> & _). reflexivity.
Qed.
Print Assumptions C135_mst.

(** The types whose addition wraps around: the tree is right without a bound on the weights, and the number returned is its
    weight modulo 2^bits. *)
Theorem C135_mst_wraps :
  forall (t : ctype) (G : lil Z) (G' : lil ival) (N n : nat) (M : Z) (parents : bvec nat), plus_wraps t ->
    mrel (exactly t M) G G' -> nrows G = N -> ncols G = N -> N <> 0 ->
    (forall i j, mget G i j = mget G j i) ->
    (forall v, v < N -> reachable (edge G) (fun u => u = 0) v) ->
    wfv0 parents -> vsize parents = N -> N < n ->
    exists x r, imst t n G' parents = Ok (Some (x, r)) /\ wfv r /\ vsize r = N /\
      vget r 0 = None /\ (forall v, 0 < v < N -> vget r v <> None) /\
      minimum_spanning_tree N (mget G) (parent_edges N (vget r)) /\
      wrapped t (tree_weight (mget G) (parent_edges N (vget r))) x.
Proof.
  intros t G G' N n M parents T HG RG CG N0 SY CO Wp Sp Hn.
  assert (T' : integer_type t) by (destruct T as (s & w & -> & _); exists s, w; auto).
  apply (rel_mst iltb (op2 Plus t) (Ok 0%Z) defined defined_v (ivalid t) ikey 1 (exactly t M) (fun _ => wrapped t)); auto.
  - lia.
  - apply exactly_valid.
  - apply ivalid_ltb.
  - intros. apply ivalid_plus; auto.
  - apply ivalid_chkv.
  - unfold wrapped. rewrite convert_id; [auto|apply (inty_0 t T')].
  - intros k a x b y Hk Ha (-> & I & _). apply wrapped_plus; auto. unfold wrapped. rewrite convert_id; auto.
  - intros k a x ->. reflexivity.
Qed.
Print Assumptions C135_mst_wraps.

Theorem C135_mst_disconnected :
  forall (t : ctype) (G : lil Z) (G' : lil ival) (N n : nat) (M : Z) (parents : bvec nat) (v : nat), integer_type t ->
    mrel (exactly t M) G G' -> nrows G = N -> ncols G = N -> N <> 0 ->
    (forall i j, mget G i j = mget G j i) ->
    v < N -> ~ reachable (edge G) (fun u => u = 0) v ->
    wfv0 parents -> vsize parents = N -> N < n ->
    plus_wraps t \/ (0 <= M /\ M * Z.of_nat (N - 1) <= tmax t)%Z ->
    imst t n G' parents = Throw PanicException.
Proof.
  intros t G G' N n M parents v T HG RG CG N0 SY Hv NR Wp Sp Hn [HM|(M0 & HM)].
  - apply (rel_disconnected iltb (op2 Plus t) (Ok 0%Z) defined defined_v (ivalid t) ikey 1 (exactly t M) (fun _ => wrapped t) G G' N)
      with (v := v); auto.
    + apply exactly_valid.
    + apply ivalid_ltb.
    + intros. apply ivalid_plus; auto.
    + apply ivalid_chkv.
    + unfold wrapped. rewrite convert_id; [auto|apply (inty_0 t T)].
    + intros k a x b y Hk Ha (-> & I & _). apply wrapped_plus; auto. unfold wrapped. rewrite convert_id; auto.
    + intros k a x ->. reflexivity.
  - apply (rel_disconnected iltb (op2 Plus t) (Ok 0%Z) defined defined_v (ivalid t) ikey 1 (exactly t M)
           (fun k => exactly t (M * Z.of_nat k)) G G' N) with (v := v); auto.
    + apply exactly_valid.
    + apply ivalid_ltb.
    + intros. apply ivalid_plus; auto.
    + apply ivalid_chkv.
    + split; [auto|]. split; [apply (inty_0 t T)|]. simpl. lia.
    + intros k a x b y Hk Ha Hb. replace (M * Z.of_nat (S k))%Z with (M * Z.of_nat k + M)%Z by lia.
      apply exactly_plus; auto. nia.
    + intros k a x (-> & _). reflexivity.
Qed.
Print Assumptions C135_mst_disconnected.

(** A tree weight that is a value of the type, of type [int] but with a partial sum that is not. *)
Definition path3 (a b c : Z) : lil Z :=
  mkLil 4 4 6%Z [[(1, a)]; [(0, a); (2, b)]; [(1, b); (3, c)]; [(2, c)]].
Definition held {A B} (f : A -> B) (G : lil A) : lil B :=
  mkLil (nrows G) (ncols G) (nvals G) (map (map (fun e => (fst e, f (snd e)))) (data G)).
Definition nopar (N : nat) : bvec nat := mkVec N 0%Z (repeat 0 N) (repeat false N).

Lemma path3_facts a b c (D : Type) (R : Z -> D -> Prop) (f : Z -> D) : R a (f a) -> R b (f b) -> R c (f c) ->
  mrel R (path3 a b c) (held f (path3 a b c)) /\
  (forall i j, mget (path3 a b c) i j = mget (path3 a b c) j i) /\
  (forall v, v < 4 -> reachable (edge (path3 a b c)) (fun u => u = 0) v).
Proof.
  intros Ha Hb Hc.
  assert (W : wfm (path3 a b c)) by wf_mat.
  assert (W' : wfm (held f (path3 a b c))) by (unfold held; simpl; wf_mat).
  split; [|split].
  - split; [auto|]. split; [auto|]. split; [reflexivity|]. split; [reflexivity|]. intros i j.
    destruct (Nat.lt_ge_cases i 4), (Nat.lt_ge_cases j 4).
    2, 3, 4: rewrite !mget_oob by (auto; simpl; lia); exact I.
    do 4 (destruct i as [|i]; [do 4 (destruct j as [|j]; [cbn; auto|]); lia|]). lia.
  - intros i j. destruct (Nat.lt_ge_cases i 4), (Nat.lt_ge_cases j 4).
    2, 3, 4: rewrite !mget_oob by (auto; simpl; lia); reflexivity.
    do 4 (destruct i as [|i]; [do 4 (destruct j as [|j]; [reflexivity|]); lia|]). lia.
  - intros v Hv. exists v. do 4 (destruct v as [|v]; [cbn; first [reflexivity|exists 0; split; reflexivity|
      exists 1; split; [exists 0; split; reflexivity|reflexivity]|
      exists 2; split; [exists 1; split; [exists 0; split; reflexivity|reflexivity]|reflexivity]]|]). lia.
Qed.

(** ** C137 *)
Theorem C137_mst_representable_refuted :
  exists (t : ctype) (G : lil Z) (G' : lil ival) (N n : nat) (parents : bvec nat), integer_type t /\
    mrel (exactly t (tmax t)) G G' /\ nrows G = N /\ ncols G = N /\ N <> 0 /\
    (forall i j, mget G i j = mget G j i) /\
    (forall v, v < N -> reachable (edge G) (fun u => u = 0) v) /\
    wfv0 parents /\ vsize parents = N /\ N < n /\
    (exists es, minimum_spanning_tree N (mget G) es /\ inty t (tree_weight (mget G) es)) /\
    imst t n G' parents = UB.
Proof.
  set (G := path3 2147483647 1 (-5)).
  destruct (path3_facts 2147483647 1 (-5) ival (exactly (CInt true W32) 2147483647) (fun z => Ok z)) as (H1 & H2 & H3);
    [split; [reflexivity|split; [split; intro; discriminate|intro; discriminate]]..|].
  exists (CInt true W32), G, (held (fun z => Ok z) G), 4, 5, (nopar 4).
  split; [exists true, W32; auto|]. split; [exact H1|]. split; [reflexivity|]. split; [reflexivity|]. split; [discriminate|].
  split; [exact H2|]. split; [exact H3|]. split; [repeat split; simpl; auto|]. split; [reflexivity|]. split; [lia|]. split.
  - destruct (C65_mst G 4 5 (nopar 4)) as (x & r & E & _ & _ & _ & _ & MS & EW); auto; try reflexivity; try lia.
    { exact (proj1 H1). } { repeat split; simpl; auto. }
    exists (parent_edges 4 (vget r)). split; [exact MS|]. rewrite <- EW. vm_compute in E. injection E as <- _.
    split; intro; discriminate.
  - vm_compute. reflexivity.
Qed.
Print Assumptions C137_mst_representable_refuted.

(** ** C136: [float] and [double], finite weights *)
Definition fvalid (t : ftype) (x : fval) : Prop := number t x /\ finite x.
Lemma fvalid_ltb t x y : fvalid t x -> fvalid t y -> SFltb x y = (multiple t x <? multiple t y)%Z.
Proof.
  intros (Hx & Fx) (Hy & Fy). rewrite (ltb_sv t) by auto.
  destruct x, y; try contradiction; reflexivity.
Qed.
Lemma fvalid_plus t x : fvalid t x -> fvalid t (FPlus t f0 x) /\ multiple t (FPlus t f0 x) = multiple t x.
Proof.
  intros (Hx & Fx). destruct x as [s|s| |s m e]; try contradiction; [|split; [split; auto|reflexivity]].
  destruct s; (split; [split; [split; [reflexivity|discriminate]|exact I]|reflexivity]).
Qed.

(** The tree is one of least weight, for the exact values of the weights; the number returned is the rounded sum of its edges. *)
Theorem C136_mst :
  forall (t : ftype) (G : lil fval) (N n : nat) (parents : bvec nat),
    wfm G -> nrows G = N -> ncols G = N -> N <> 0 ->
    (forall i j x, mget G i j = Some x -> number t x /\ finite x) ->
    let w := fun i j => option_map (multiple t) (mget G i j) in
    (forall i j, w i j = w j i) ->
    (forall v, v < N -> reachable (edge G) (fun u => u = 0) v) ->
    wfv0 parents -> vsize parents = N -> N < n ->
    exists x r, fmst t n G parents = Ok (Some (x, r)) /\ wfv r /\ vsize r = N /\
      vget r 0 = None /\ (forall v, 0 < v < N -> vget r v <> None) /\
      minimum_spanning_tree N w (parent_edges N (vget r)) /\
      exists es, Permutation es (parent_edges N (vget r)) /\ x = added (FPlus t) f0 (mget G) es.
Proof.
  intros t G N n parents WG RG CG N0 VG w SY CO Wp Sp Hn.
  apply (gmst_ok SFltb (FPlus t) f0 (fun x => Ok x) (fun u => Ok u) (fvalid t) (multiple t) G N); auto.
  - apply fvalid_ltb.
  - apply fvalid_plus.
Qed.
Print Assumptions C136_mst.

Theorem C136_mst_disconnected :
  forall (t : ftype) (G : lil fval) (N n : nat) (parents : bvec nat) (v : nat),
    wfm G -> nrows G = N -> ncols G = N -> N <> 0 ->
    (forall i j x, mget G i j = Some x -> number t x /\ finite x) ->
    (forall i j, option_map (multiple t) (mget G i j) = option_map (multiple t) (mget G j i)) ->
    v < N -> ~ reachable (edge G) (fun u => u = 0) v ->
    wfv0 parents -> vsize parents = N -> N < n ->
    fmst t n G parents = Throw PanicException.
Proof.
  intros t G N n parents v WG RG CG N0 VG SY Hv NR Wp Sp Hn.
  apply (gmst_disconnected SFltb (FPlus t) f0 (fun x => Ok x) (fun u => Ok u) (fvalid t) (multiple t) G N) with (v := v); auto.
  - apply fvalid_ltb.
  - apply fvalid_plus.
Qed.
Print Assumptions C136_mst_disconnected.

(** Integer weights within the precision of the type: nothing is rounded. *)
Theorem C136_mst_exact :
  forall (t : ftype) (G : lil Z) (G' : lil fval) (N n : nat) (M : Z) (parents : bvec nat),
    mrel (fexactly t M) G G' -> nrows G = N -> ncols G = N -> N <> 0 ->
    (forall i j, mget G i j = mget G j i) ->
    (forall v, v < N -> reachable (edge G) (fun u => u = 0) v) ->
    wfv0 parents -> vsize parents = N -> N < n ->
    (0 <= M <= 2 ^ prec t)%Z -> (M * Z.of_nat (N - 1) <= 2 ^ prec t)%Z ->
    exists x r, fmst t n G' parents = Ok (Some (x, r)) /\ wfv r /\ vsize r = N /\
      vget r 0 = None /\ (forall v, 0 < v < N -> vget r v <> None) /\
      minimum_spanning_tree N (mget G) (parent_edges N (vget r)) /\
      fexactly t (M * Z.of_nat (N - 1)) (tree_weight (mget G) (parent_edges N (vget r))) x.
Proof.
  intros t G G' N n M parents HG RG CG N0 SY CO Wp Sp Hn (M0 & M1) HM.
  destruct (rel_mst SFltb (FPlus t) f0 (fun x => Ok x) (fun u => Ok u) (fvalid t) (multiple t) (unit_of t) (fexactly t M)
           (fun k => ex (FR t) (M * Z.of_nat k)) G G' N) with (n := n) (par := parents) as (x & r & E & H1 & H2 & H3 & H4 & H5 & H6); auto.
  - apply unit_pos.
  - intros z x Hx. apply (FR_ex t M) in Hx; auto. destruct Hx as (Hx & L).
    destruct (FR_finite t z x ltac:(lia) Hx) as (F & S). split; [split; [apply Hx|auto]|]. rewrite <- S.
    destruct x; try contradiction; reflexivity.
  - apply fvalid_ltb.
  - apply fvalid_plus.
  - split; [apply FR_0|]. simpl. lia.
  - intros k a x b y Hk (Ha & La) Hb. apply (FR_ex t M) in Hb; auto. destruct Hb as (Hb & Lb).
    assert (M * Z.of_nat (S k) <= M * Z.of_nat (N - 1))%Z by (apply Z.mul_le_mono_nonneg_l; lia).
    split; [apply FR_plus; auto; lia|lia].
  - exists x, r. do 6 (split; [assumption|]). apply FR_ex; auto.
Qed.
Print Assumptions C136_mst_exact.

Definition shown {A} (o : res (option (A * bvec nat))) : option (A * list (option nat)) :=
  match o with Ok (Some (x, r)) => Some (x, map (vget r) (seq 0 (vsize r))) | _ => None end.

(** The graph of C65 (a square with a diagonal, weights -2 to 5) over [signed char]; 200 + 100 + 3 over [unsigned char]. *)
Example C135_example :
  mrel (exactly (CInt true W8) 5) emst_G (held (fun z => Ok z) emst_G) /\ (5 * Z.of_nat 3 <= tmax (CInt true W8))%Z /\
  shown (imst (CInt true W8) 5 (held (fun z => Ok z) emst_G) emst_p) = Some (Ok 5%Z, [None; Some 2; Some 0; Some 2]) /\
  plus_wraps (CInt false W8) /\
  mrel (exactly (CInt false W8) 255) (path3 200 100 3) (held (fun z => Ok z) (path3 200 100 3)) /\
  shown (imst (CInt false W8) 5 (held (fun z => Ok z) (path3 200 100 3)) (nopar 4)) = Some (Ok 47%Z, [None; Some 0; Some 1; Some 2]).
Proof.
  split.
  { split; [wf_mat|]. split; [unfold held; simpl; wf_mat|]. split; [reflexivity|]. split; [reflexivity|].
    intros i j. destruct (Nat.lt_ge_cases i 4), (Nat.lt_ge_cases j 4).
    2, 3, 4: rewrite !mget_oob by (try (unfold held; simpl; wf_mat); try wf_mat; simpl; lia); exact I.
    do 4 (destruct i as [|i]; [do 4 (destruct j as [|j];
      [cbn; first [exact I|split; [reflexivity|split; [split; intro; discriminate|simpl; lia]]]|]); lia|]). lia. }
  split; [intro; discriminate|]. split; [vm_compute; reflexivity|]. split; [exists false, W8; split; [auto|discriminate]|].
  split; [apply path3_facts; (split; [reflexivity|split; [split; intro; discriminate|simpl; lia]])|]. vm_compute. reflexivity.
Qed.

(** Weights 1/10, 2/10, 3/10 over [double]: the sum is rounded twice, (0.1 + 0.2) + 0.3 <> 0.6.  Over [float] 200, 100, 3. *)
Definition tenths (z : Z) : fval := FDiv CDouble (of_int CDouble z) (of_int CDouble 10).
Example C136_example :
  wfm (held tenths (path3 1 2 3)) /\
  (forall i j x, mget (held tenths (path3 1 2 3)) i j = Some x -> number CDouble x /\ finite x) /\
  (exists x, shown (fmst CDouble 5 (held tenths (path3 1 2 3)) (nopar 4)) = Some (x, [None; Some 0; Some 1; Some 2]) /\
     SFltb (tenths 6) x = true) /\
  mrel (fexactly CFloat 200) (path3 200 100 3) (held (of_int CFloat) (path3 200 100 3)) /\
  (200 * Z.of_nat 3 <= 2 ^ prec CFloat)%Z /\
  shown (fmst CFloat 5 (held (of_int CFloat) (path3 200 100 3)) (nopar 4)) = Some (of_int CFloat 303, [None; Some 0; Some 1; Some 2]).
Proof.
  assert (W : wfm (held tenths (path3 1 2 3))) by (unfold held; simpl; wf_mat).
  split; [exact W|]. split.
  { intros i j x E. destruct (Nat.lt_ge_cases i 4), (Nat.lt_ge_cases j 4).
    2, 3, 4: rewrite mget_oob in E by (auto; simpl; lia); discriminate.
    do 4 (destruct i as [|i]; [do 4 (destruct j as [|j]; [vm_compute in E; first [discriminate|injection E as <-;
      split; [split; [vm_compute; reflexivity|discriminate]|exact I]]|]); lia|]). lia. }
  split; [eexists; split; vm_compute; reflexivity|].
  split; [apply path3_facts; (split; [split; [split; [vm_compute; reflexivity|vm_compute; discriminate]|vm_compute; reflexivity]|simpl; lia])|].
  split; [intro; discriminate|]. vm_compute. reflexivity.
Qed.
