(** Errors of assign, backward ranges, AllIndices as a range, extract after assign. *)
From Coq Require Import Lia.
From Verif Require Import Base ModelLil ModelVec ModelHelpers ModelViews ModelIndex.
From Verif Require Import Spec SpecOps SpecIndex ProofBase ProofRow ProofLil ProofVec ProofWrite.
From Verif Require Import ProofViews ProofMask ProofMul ProofElem ProofKron ProofIndex ProofAssign.
From Verif Require Import ProofAssignRC.

(** ** Errors *)
Section Errors.
Context {TM : Type} (truthy : TM -> bool).

Lemma assign_v_errors {TU TW TZ} (cz' : TW -> TZ) (zc : TZ -> TW) (a : accum TW TU TZ)
    (m : mask (bvec TM)) outp (w : bvec TW) (u : bvec TU) s : idx_fwd s ->
  (~ (vmask_fits m (vsize w) /\ idx_size s (vsize u)) ->
   assign_v cz' truthy zc a m outp w u s = Throw DimensionException) /\
  (vmask_fits m (vsize w) /\ idx_size s (vsize u) -> ~ idx_in s (vsize w) ->
   assign_v cz' truthy zc a m outp w u s = Throw IndexOutOfBoundsException).
Proof.
  intro F. unfold assign_v, assign_v_backend. split.
  - intro H. apply check_vmask_bind. intro Fm. apply check_nindices_bind; auto. tauto.
  - intros [Fm S] I. rewrite check_mask_size_ok by auto. cbn [bind].
    rewrite check_nindices_ok by auto. cbn [bind]. rewrite check_content_throw by auto. reflexivity.
Qed.

Lemma assign_m_errors {TA TC TZ} (cz' : TC -> TZ) (zc : TZ -> TC) (a : accum TC TA TZ)
    (m : mask (lil TM)) outp (C : lil TC) (A : mview TA) rs cs : idx_fwd rs -> idx_fwd cs ->
  (~ (mask_fits m (nrows C) (ncols C) /\ idx_size rs (vrows A) /\ idx_size cs (vcols A)) ->
   assign_m cz' truthy zc a m outp C A rs cs = Throw DimensionException) /\
  (mask_fits m (nrows C) (ncols C) /\ idx_size rs (vrows A) /\ idx_size cs (vcols A) ->
   ~ (idx_in rs (nrows C) /\ idx_in cs (ncols C)) ->
   assign_m cz' truthy zc a m outp C A rs cs = Throw IndexOutOfBoundsException).
Proof.
  intros Fr Fc. unfold assign_m. split.
  - intro H. apply check_mask_bind. intro Fm. apply check_nindices_bind; auto.
    intro. apply check_nindices_bind; auto. tauto.
  - intros (Fm & Sr & Sc) I. destruct (check_mask_ok m _ _ Fm) as [-> ->]. cbn [bind].
    rewrite !check_nindices_ok by auto. cbn [bind].
    destruct (idx_in_dec rs (nrows C)).
    + rewrite check_content_ok by auto. cbn [bind]. rewrite check_content_throw by tauto. reflexivity.
    + rewrite check_content_throw by auto. reflexivity.
Qed.

Lemma assign_col_errors {TU TC TZ} (dflt : TC) (cz' : TC -> TZ) (zc : TZ -> TC)
    (a : accum TC TU TZ) (m : mask (bvec TM)) outp (C : lil TC) (u : bvec TU) rs j : idx_fwd rs ->
  (~ (vmask_fits m (nrows C) /\ idx_size rs (vsize u)) ->
   assign_col dflt cz' truthy zc a m outp C u rs j = Throw DimensionException) /\
  (vmask_fits m (nrows C) /\ idx_size rs (vsize u) -> ncols C <= j ->
   assign_col dflt cz' truthy zc a m outp C u rs j = Throw InvalidIndexException) /\
  (vmask_fits m (nrows C) /\ idx_size rs (vsize u) -> j < ncols C -> ~ idx_in rs (nrows C) ->
   assign_col dflt cz' truthy zc a m outp C u rs j = Throw IndexOutOfBoundsException).
Proof.
  intro F. unfold assign_col, check_index_within. split; [|split].
  - intro H. apply check_vmask_bind. intro Fm. apply check_nindices_bind; auto. tauto.
  - intros [Fm S] I. rewrite check_mask_size_ok by auto. cbn [bind].
    rewrite check_nindices_ok by auto. cbn [bind].
    destruct (Nat.leb_spec (ncols C) j); [reflexivity|lia].
  - intros [Fm S] Hc I. rewrite check_mask_size_ok by auto. cbn [bind].
    rewrite check_nindices_ok by auto. cbn [bind].
    destruct (Nat.leb_spec (ncols C) j); [lia|]. cbn [throw_if bind].
    rewrite check_content_throw by auto. reflexivity.
Qed.

Lemma assign_row_errors {TU TC TZ} (dflt : TC) (cz' : TC -> TZ) (zc : TZ -> TC)
    (a : accum TC TU TZ) (m : mask (bvec TM)) outp (C : lil TC) (u : bvec TU) i cs : idx_fwd cs ->
  (~ (vmask_fits m (ncols C) /\ idx_size cs (vsize u)) ->
   assign_row dflt cz' truthy zc a m outp C u i cs = Throw DimensionException) /\
  (vmask_fits m (ncols C) /\ idx_size cs (vsize u) -> nrows C <= i ->
   assign_row dflt cz' truthy zc a m outp C u i cs = Throw InvalidIndexException) /\
  (vmask_fits m (ncols C) /\ idx_size cs (vsize u) -> i < nrows C -> ~ idx_in cs (ncols C) ->
   assign_row dflt cz' truthy zc a m outp C u i cs = Throw IndexOutOfBoundsException).
Proof.
  intro F. unfold assign_row, check_index_within. split; [|split].
  - intro H. apply check_vmask_bind. intro Fm. apply check_nindices_bind; auto. tauto.
  - intros [Fm S] I. rewrite check_mask_size_ok by auto. cbn [bind].
    rewrite check_nindices_ok by auto. cbn [bind].
    destruct (Nat.leb_spec (nrows C) i); [reflexivity|lia].
  - intros [Fm S] Hc I. rewrite check_mask_size_ok by auto. cbn [bind].
    rewrite check_nindices_ok by auto. cbn [bind].
    destruct (Nat.leb_spec (nrows C) i); [lia|]. cbn [throw_if bind].
    rewrite check_content_throw by auto. reflexivity.
Qed.

Lemma idx_size_le_dec s n : {idx_size_le s n} + {~ idx_size_le s n}.
Proof.
  destruct s as [|l|b e]; simpl; auto; [apply le_dec|].
  destruct (le_dec b e); [destruct (le_dec e (b + n))|]; [left|right|right]; lia.
Qed.

Lemma check_within_bind {A} s n (k : unit -> res A) : idx_fwd s ->
  (idx_size_le s n -> k tt = Throw DimensionException) ->
  bind (check_nindices_within s n) k = Throw DimensionException.
Proof.
  intros F H. destruct (idx_size_le_dec s n) as [L|L].
  - rewrite check_within_ok by auto. cbn [bind]. auto.
  - destruct s as [|l|b e]; simpl in *; try tauto.
    + destruct (Nat.ltb_spec n (length l)); [reflexivity|lia].
    + destruct (Nat.leb_spec b e); [|lia]. rewrite seq_length.
      destruct (Nat.ltb_spec n (e - b)); [reflexivity|lia].
Qed.

Lemma assign_const_v_errors {TV TW TZ} (cz' : TW -> TZ) (zc : TZ -> TW) (a : accum TW TV TZ)
    (m : mask (bvec TM)) outp (w : bvec TW) (val : TV) s : idx_fwd s ->
  (~ (vmask_fits m (vsize w) /\ idx_size_le s (vsize w)) ->
   assign_const_v cz' truthy zc a m outp w val s = Throw DimensionException) /\
  (vmask_fits m (vsize w) /\ idx_size_le s (vsize w) -> ~ idx_in s (vsize w) ->
   assign_const_v cz' truthy zc a m outp w val s = Throw IndexOutOfBoundsException).
Proof.
  intro F. unfold assign_const_v. split.
  - intro H. apply check_vmask_bind. intro Fm. apply check_within_bind; auto. tauto.
  - intros [Fm S] I. rewrite check_mask_size_ok by auto. cbn [bind].
    rewrite check_within_ok by auto. cbn [bind]. rewrite check_content_throw by auto. reflexivity.
Qed.

Lemma assign_const_m_errors {TV TC TZ} (cz' : TC -> TZ) (zc : TZ -> TC) (a : accum TC TV TZ)
    (m : mask (lil TM)) outp (C : lil TC) (val : TV) rs cs : idx_fwd rs -> idx_fwd cs ->
  (~ (mask_fits m (nrows C) (ncols C) /\ idx_size_le rs (nrows C) /\ idx_size_le cs (ncols C)) ->
   assign_const_m cz' truthy zc a m outp C val rs cs = Throw DimensionException) /\
  (mask_fits m (nrows C) (ncols C) /\ idx_size_le rs (nrows C) /\ idx_size_le cs (ncols C) ->
   ~ (idx_in rs (nrows C) /\ idx_in cs (ncols C)) ->
   assign_const_m cz' truthy zc a m outp C val rs cs = Throw IndexOutOfBoundsException).
Proof.
  intros Fr Fc. unfold assign_const_m. split.
  - intro H. apply check_mask_bind. intro Fm. apply check_within_bind; auto.
    intro. apply check_within_bind; auto. tauto.
  - intros (Fm & Sr & Sc) I. destruct (check_mask_ok m _ _ Fm) as [-> ->]. cbn [bind].
    rewrite !check_within_ok by auto. cbn [bind].
    destruct (idx_in_dec rs (nrows C)).
    + rewrite check_content_ok by auto. cbn [bind]. rewrite check_content_throw by tauto. reflexivity.
    + rewrite check_content_throw by auto. reflexivity.
Qed.

(** ** AllIndices with a longer source *)

Lemma store_ub {S T} (cast : S -> T) (c : row S) i : forall (w : bvec T),
  length (vvals w) <= i -> rget c i <> None ->
  mfor c (fun '(i, v) w' => vec_store w' i (cast v) (vnvals w' + 1)%Z) w = UB.
Proof.
  induction c as [|[k v] c IH]; intros w L H; simpl in H; [congruence|].
  cbn [mfor]. unfold vec_store at 1. unfold vset.
  destruct (Nat.ltb_spec k (length (vvals w))); [|reflexivity]. cbn [bind].
  destruct (k <? length (vbits w)); [|reflexivity]. cbn [bind].
  apply IH; simpl.
  - rewrite upd_length. auto.
  - destruct (Nat.eqb_spec k i); [lia|auto].
Qed.

Lemma assign_v_all_ub {TU TW TZ} (cz' : TW -> TZ) (zc : TZ -> TW) (a : accum TW TU TZ) outp
    (w : bvec TW) (u : bvec TU) i :
  wfv0 w -> wfv0 u -> vsize w <= i -> vget u i <> None ->
  assign_v cz' truthy zc a (@NoMask (bvec TM)) outp w u AllIdx = UB.
Proof.
  intros Ww Wu Hi Hu.
  assert (Lu : i < vsize u).
  { destruct (le_lt_dec (vsize u) i); auto. exfalso. apply Hu. apply vget_oob; auto. }
  unfold assign_v, assign_v_backend. cbn [check_mask_size bind check_nindices check_index_array_content].
  cbv zeta. destruct (getContents_ok u Wu) as (uc & E & W & G). rewrite E. cbn [bind].
  rewrite (vectorExpand_eq uc 0 (vsize u)) by auto.
  set (l := idx_list (setupIndices AllIdx (vsize u))).
  assert (Nl : NoDup l) by (apply idx_list_nodup; simpl; auto).
  assert (Bl : Forall (fun k => k < vsize u) l) by (apply idx_in_Forall; simpl; auto).
  pose proof (pairs_mapping_wf (rget uc) l (vsize u) Nl Bl) as Wt.
  assert (Gt : rget (expand uc (compute_outin_mapping l)) i <> None).
  { unfold expand. rewrite pairs_get by auto.
    rewrite (lpos_nodup l i i); [simpl; rewrite G; auto|auto|].
    unfold l. simpl. rewrite Nat.sub_0_r, nth_error_seq. ltb; auto. }
  unfold ewise_or_stencil_opt_accum_1D.
  destruct (getContents_ok w Ww) as (c & Ec & Wc & Gc). rewrite Ec. cbn [bind].
  assert (Wc' : wfrow 0 (vsize u) c) by (eapply wfrow_weaken; [exact Wc|lia|lia]).
  assert (Z : exists z, match a with
      | NoAcc tz => Ok (ewise_or_stencil cz' tz (setupIndices AllIdx (vsize u)) c
                          (expand uc (compute_outin_mapping l)))
      | Acc f cz tz => Ok (ewise_or f cz tz c (expand uc (compute_outin_mapping l)))
      end = Ok z /\ rget z i <> None).
  { destruct a as [tz|f cz tz]; eexists; (split; [reflexivity|]).
    - destruct (stencil_spec cz' tz (setupIndices AllIdx (vsize u)) c _ 0 (vsize u) Wc' Wt) as [_ G1].
      unfold expand in *. rewrite G1. unfold comb_stencil.
      destruct (rget (pairs_row (rget uc) _) i); congruence.
    - destruct (ewise_or_spec f cz tz c _ 0 (vsize u) Wc' Wt) as [_ G1].
      unfold expand in *. rewrite G1. unfold comb_or.
      destruct (rget (pairs_row (rget uc) _) i); [|congruence]. destruct (rget c i); congruence. }
  destruct Z as (z & Ez & Gz). rewrite Ez. cbn [bind write_with_opt_mask_1D].
  unfold setContents. apply (store_ub zc z i); auto.
  unfold vec_clear. simpl. destruct Ww as (L1 & _). lia.
Qed.
End Errors.

(** ** Ranges *)

Lemma range_list b e : b <= e ->
  length (idx_list (IdxRange b e)) = e - b /\
  forall k, k < e - b -> nth_error (idx_list (IdxRange b e)) k = Some (b + k).
Proof.
  intro H. simpl. destruct (Nat.leb_spec b e); [|lia]. split; [apply seq_length|].
  intros k Hk. rewrite nth_error_seq. ltb; auto.
Qed.

Lemma range_fits n : idx_size (IdxRange 0 n) n /\ idx_size_le (IdxRange 0 n) n /\
  idx_in (IdxRange 0 n) n /\ idx_fwd (IdxRange 0 n).
Proof. simpl. lia. Qed.

(** Backward ranges. *)
Definition passes (r : res unit) : Prop := r = Ok tt \/ exists e, r = Throw e.

Lemma bind_fails {A} (r : res unit) (k : unit -> res A) :
  passes r -> fails (k tt) -> fails (bind r k).
Proof. intros [->|[e ->]] H; simpl; auto. eexists; reflexivity. Qed.

Lemma passes_throw_if b e : passes (throw_if b e).
Proof. unfold passes, throw_if. destruct b; eauto. Qed.
Lemma passes_nindices n s : passes (check_nindices n s).
Proof. destruct s; simpl; [left; auto| |]; apply passes_throw_if. Qed.
Lemma passes_within n s : passes (check_nindices_within s n).
Proof. destruct s; simpl; [left; auto| |]; apply passes_throw_if. Qed.
Lemma passes_content n s : passes (check_index_array_content s n).
Proof.
  assert (H : forall l, passes (mfor l (fun ix _ => throw_if (n <=? ix) IndexOutOfBoundsException) tt)).
  { induction l as [|x l IH]; simpl; [left; auto|].
    destruct (n <=? x); simpl; [right; eexists; reflexivity|auto]. }
  destruct s; simpl; [left; auto| |]; apply H.
Qed.
Lemma passes_mask_size {TM} n (m : mask (bvec TM)) : passes (check_mask_size n m).
Proof. destruct m; simpl; [left; auto| | | |]; apply passes_throw_if. Qed.
Lemma passes_mask_rows {TM} n (m : mask (lil TM)) : passes (check_mask_rows n m).
Proof. destruct m; simpl; [left; auto| | | |]; apply passes_throw_if. Qed.
Lemma passes_mask_cols {TM} n (m : mask (lil TM)) : passes (check_mask_cols n m).
Proof. destruct m; simpl; [left; auto| | | |]; apply passes_throw_if. Qed.

Lemma backward_content s n : backward s -> (Z.of_nat n < 2 ^ 64)%Z ->
  check_index_array_content s n = Throw IndexOutOfBoundsException.
Proof. destruct s; simpl; try tauto. intros [H1 H2] H. apply check_content_wrap; auto. Qed.

Ltac pass := apply bind_fails; [first [apply passes_mask_size | apply passes_mask_rows
  | apply passes_mask_cols | apply passes_nindices | apply passes_within | apply passes_throw_if
  | apply passes_content]|].
Ltac back := rewrite backward_content by auto; eexists; reflexivity.

Section Backward.
Context {TM : Type} (truthy : TM -> bool).

Lemma extract_backward {TA TC TZ} (zc : TZ -> TC) (a : accum TC TA TZ) outp :
  (forall (m : mask (bvec TM)) (w : bvec TC) (u : bvec TA) s, backward s ->
     (Z.of_nat (vsize u) < 2 ^ 64)%Z -> fails (extract_v truthy zc a m outp w u s)) /\
  (forall (m : mask (lil TM)) (C : lil TC) (A : mview TA) rs cs, backward rs \/ backward cs ->
     (Z.of_nat (vrows A) < 2 ^ 64 /\ Z.of_nat (vcols A) < 2 ^ 64)%Z ->
     fails (extract_m truthy zc a m outp C A rs cs)) /\
  (forall (m : mask (bvec TM)) (w : bvec TC) (A : mview TA) rs j, backward rs ->
     (Z.of_nat (vrows A) < 2 ^ 64)%Z -> fails (extract_col truthy zc a m outp w A rs j)).
Proof.
  split; [|split]; intros.
  - unfold extract_v. do 2 pass. back.
  - unfold extract_m. do 4 pass. destruct H as [H|H].
    + rewrite backward_content by tauto. eexists; reflexivity.
    + pass. rewrite backward_content by tauto. eexists; reflexivity.
  - unfold extract_col, check_index_within. do 3 pass. back.
Qed.

Lemma assign_backward {TA TC TZ} (dflt : TC) (cz' : TC -> TZ) (zc : TZ -> TC) (a : accum TC TA TZ)
    outp :
  (forall (m : mask (bvec TM)) (w : bvec TC) (u : bvec TA) s, backward s ->
     (Z.of_nat (vsize w) < 2 ^ 64)%Z -> fails (assign_v cz' truthy zc a m outp w u s)) /\
  (forall (m : mask (lil TM)) (C : lil TC) (A : mview TA) rs cs, backward rs \/ backward cs ->
     (Z.of_nat (nrows C) < 2 ^ 64 /\ Z.of_nat (ncols C) < 2 ^ 64)%Z ->
     fails (assign_m cz' truthy zc a m outp C A rs cs)) /\
  (forall (m : mask (bvec TM)) (C : lil TC) (u : bvec TA) rs j, backward rs ->
     (Z.of_nat (nrows C) < 2 ^ 64)%Z -> fails (assign_col dflt cz' truthy zc a m outp C u rs j)) /\
  (forall (m : mask (bvec TM)) (C : lil TC) (u : bvec TA) i cs, backward cs ->
     (Z.of_nat (ncols C) < 2 ^ 64)%Z -> fails (assign_row dflt cz' truthy zc a m outp C u i cs)) /\
  (forall (m : mask (bvec TM)) (w : bvec TC) val s, backward s ->
     (Z.of_nat (vsize w) < 2 ^ 64)%Z -> fails (assign_const_v cz' truthy zc a m outp w val s)) /\
  (forall (m : mask (lil TM)) (C : lil TC) val rs cs, backward rs \/ backward cs ->
     (Z.of_nat (nrows C) < 2 ^ 64 /\ Z.of_nat (ncols C) < 2 ^ 64)%Z ->
     fails (assign_const_m cz' truthy zc a m outp C val rs cs)).
Proof.
  split; [|split; [|split; [|split; [|split]]]]; intros.
  - unfold assign_v, assign_v_backend. do 2 pass. back.
  - unfold assign_m. do 4 pass. destruct H as [H|H].
    + rewrite backward_content by tauto. eexists; reflexivity.
    + pass. rewrite backward_content by tauto. eexists; reflexivity.
  - unfold assign_col, check_index_within. do 3 pass. back.
  - unfold assign_row, check_index_within. do 3 pass. back.
  - unfold assign_const_v. do 2 pass. back.
  - unfold assign_const_m. do 4 pass. destruct H as [H|H].
    + rewrite backward_content by tauto. eexists; reflexivity.
    + pass. rewrite backward_content by tauto. eexists; reflexivity.
Qed.
End Backward.

(** AllIndices and the full range. *)
Lemma range_checks n :
  check_nindices n (IdxRange 0 n) = Ok tt /\ check_nindices_within (IdxRange 0 n) n = Ok tt /\
  check_index_array_content (IdxRange 0 n) n = Ok tt.
Proof.
  destruct (range_fits n) as (A & B & C & D).
  split; [apply check_nindices_ok; auto|split; [apply check_within_ok; auto|]].
  apply check_content_ok; auto.
Qed.

Section All.
Context {TM : Type} (truthy : TM -> bool).
Notation full := (IdxRange 0).

Ltac allr := repeat match goal with
  | |- context [check_nindices ?n (full ?n)] => rewrite (proj1 (range_checks n))
  | |- context [check_nindices_within (full ?n) ?n] => rewrite (proj1 (proj2 (range_checks n)))
  | |- context [check_index_array_content (full ?n) ?n] => rewrite (proj2 (proj2 (range_checks n)))
  end; cbn [bind check_nindices check_nindices_within check_index_array_content setupIndices];
  rewrite ?Nat.min_id; try reflexivity.

Lemma extract_all {TA TC TZ} (zc : TZ -> TC) (a : accum TC TA TZ) outp :
  (forall (m : mask (bvec TM)) (w : bvec TC) (u : bvec TA), vsize u = vsize w ->
     extract_v truthy zc a m outp w u AllIdx = extract_v truthy zc a m outp w u (full (vsize w))) /\
  (forall (m : mask (lil TM)) (C : lil TC) (A : mview TA) cs, vrows A = nrows C ->
     extract_m truthy zc a m outp C A AllIdx cs = extract_m truthy zc a m outp C A (full (nrows C)) cs) /\
  (forall (m : mask (lil TM)) (C : lil TC) (A : mview TA) rs, vcols A = ncols C ->
     extract_m truthy zc a m outp C A rs AllIdx = extract_m truthy zc a m outp C A rs (full (ncols C))) /\
  (forall (m : mask (bvec TM)) (w : bvec TC) (A : mview TA) j, vrows A = vsize w ->
     extract_col truthy zc a m outp w A AllIdx j = extract_col truthy zc a m outp w A (full (vsize w)) j).
Proof.
  split; [|split; [|split]]; intros; [unfold extract_v|unfold extract_m|unfold extract_m|unfold extract_col];
    rewrite H; allr.
Qed.

Lemma assign_all {TA TC TZ} (dflt : TC) (cz' : TC -> TZ) (zc : TZ -> TC) (a : accum TC TA TZ) outp :
  (forall (m : mask (bvec TM)) (w : bvec TC) (u : bvec TA), vsize u = vsize w ->
     assign_v cz' truthy zc a m outp w u AllIdx = assign_v cz' truthy zc a m outp w u (full (vsize w))) /\
  (forall (m : mask (lil TM)) (C : lil TC) (A : mview TA) cs, vrows A = nrows C ->
     assign_m cz' truthy zc a m outp C A AllIdx cs = assign_m cz' truthy zc a m outp C A (full (nrows C)) cs) /\
  (forall (m : mask (lil TM)) (C : lil TC) (A : mview TA) rs, vcols A = ncols C ->
     assign_m cz' truthy zc a m outp C A rs AllIdx = assign_m cz' truthy zc a m outp C A rs (full (ncols C))) /\
  (forall (m : mask (bvec TM)) (C : lil TC) (u : bvec TA) j, wfm C -> nrows C <> 0 -> vsize u = nrows C ->
     assign_col dflt cz' truthy zc a m outp C u AllIdx j =
     assign_col dflt cz' truthy zc a m outp C u (full (nrows C)) j) /\
  (forall (m : mask (bvec TM)) (C : lil TC) (u : bvec TA) i, wfm C -> ncols C <> 0 -> vsize u = ncols C ->
     assign_row dflt cz' truthy zc a m outp C u i AllIdx =
     assign_row dflt cz' truthy zc a m outp C u i (full (ncols C))) /\
  (forall (m : mask (bvec TM)) (w : bvec TC) val,
     assign_const_v cz' truthy zc a m outp w val AllIdx =
     assign_const_v cz' truthy zc a m outp w val (full (vsize w))) /\
  (forall (m : mask (lil TM)) (C : lil TC) val cs,
     assign_const_m cz' truthy zc a m outp C val AllIdx cs =
     assign_const_m cz' truthy zc a m outp C val (full (nrows C)) cs) /\
  (forall (m : mask (lil TM)) (C : lil TC) val rs,
     assign_const_m cz' truthy zc a m outp C val rs AllIdx =
     assign_const_m cz' truthy zc a m outp C val rs (full (ncols C))).
Proof.
  split; [|split; [|split; [|split; [|split; [|split; [|split]]]]]]; intros.
  - unfold assign_v, assign_v_backend. rewrite H. allr.
  - unfold assign_m. rewrite H. allr.
  - unfold assign_m. rewrite H. allr.
  - unfold assign_col. rewrite H1. allr.
    destruct (check_mask_size (nrows C) m); cbn [bind]; auto.
    destruct (check_index_within j (ncols C)); cbn [bind]; auto.
    destruct (getCol_ok C j (proj1 H)) as (c & Ec & Wc & Gc). rewrite Ec. cbn [bind].
    destruct (vec_of_row_ok dflt (nrows C) c H0 Wc) as (cv & Ev & Wv & Sv & Gv).
    rewrite Ev. cbn [bind]. unfold assign_v_backend. rewrite Sv, H1. allr.
  - unfold assign_row. rewrite H1. allr.
    destruct (check_mask_size (ncols C) m); cbn [bind]; auto.
    unfold check_index_within. destruct (Nat.leb_spec (nrows C) i); cbn [throw_if bind]; auto.
    rewrite getrow_ok by (rewrite wfm_len; auto). cbn [bind].
    destruct (vec_of_row_ok dflt (ncols C) _ H0 (wfm_row C i H)) as (cv & Ev & Wv & Sv & Gv).
    rewrite Ev. cbn [bind]. unfold assign_v_backend. rewrite Sv, H1. allr.
  - unfold assign_const_v. allr.
  - unfold assign_const_m. allr.
  - unfold assign_const_m. allr.
Qed.
End All.

(** ** extract and assign as inverses *)

Lemma pos_sel s n o k : pos s n o = Some k -> sel s k = Some o /\ k < n.
Proof.
  intro H. apply find_some in H. destruct H as [H1 H2]. apply in_seq in H1.
  destruct (sel s k); [|discriminate]. apply Nat.eqb_eq in H2. subst. split; auto. lia.
Qed.

Lemma sel_pos s n o k : idx_size s n -> idx_nodup s -> k < n -> sel s k = Some o -> pos s n o = Some k.
Proof.
  intros S N Hk H. rewrite pos_lpos by auto. apply lpos_nodup.
  - apply idx_list_nodup; auto. eapply idx_size_fwd; eauto.
  - rewrite sel_list by (eapply idx_size_fwd; eauto). destruct s; auto. ltb; auto.
Qed.

Lemma sel_total s n m k : idx_size s n -> idx_in s m -> all_fits s n m -> k < n ->
  exists o, sel s k = Some o /\ o < m.
Proof.
  intros S I A Hk. destruct s as [|l|b e]; simpl in *.
  - exists k. split; auto. lia.
  - destruct (nth_error l k) as [o|] eqn:E.
    + exists o. split; auto. rewrite Forall_forall in I. apply I. eapply nth_error_In; eauto.
    + apply nth_error_None in E. lia.
  - ltb. exists (b + k). split; auto. lia.
Qed.

Section Inverse.
Context {TM T : Type} (truthy : TM -> bool).
Notation id := (fun x : T => x).
Notation noacc := (NoAcc (TC := T) id).

Lemma extract_assign_v outp outp' (w u d w' : bvec T) s :
  wfv0 w -> wfv0 u -> wfv0 d -> vsize d = vsize u ->
  vassign_conforms (@NoMask (bvec TM)) w u s -> idx_nodup s -> all_fits s (vsize u) (vsize w) ->
  assign_v id truthy id noacc NoMask outp w u s = Ok w' ->
  exists d', extract_v truthy id noacc (@NoMask (bvec TM)) outp' d w' s = Ok d' /\ same d' u.
Proof.
  intros Ww Wu Wd Sd Cf N A E.
  destruct (assign_v_ok truthy id id noacc NoMask outp w u s Ww Wu I Cf N A)
    as (w1 & E1 & W1 & S1 & G1).
  rewrite E in E1. inversion E1; subst w1. clear E1. destruct Cf as (_ & S & In).
  destruct (extract_v_ok truthy id noacc (@NoMask (bvec TM)) outp' d w' s Wd (proj1 W1) I)
    as (d' & E2 & W2 & S2 & G2).
  { split; [exact I|]. rewrite Sd, S1. auto. }
  exists d'. split; [auto|]. split; [congruence|]. intro k.
  destruct (le_lt_dec (vsize u) k) as [H|H].
  { rewrite !vget_oob; auto; try apply W2. rewrite S2, Sd. auto. }
  rewrite G2 by lia. simpl. rewrite ?option_map_id'. unfold sextract.
  destruct (sel_total s _ _ k S In A H) as (o & Eo & Ho). rewrite Eo. simpl.
  rewrite G1 by lia. simpl. rewrite ?option_map_id'. unfold in_idx, sassign.
  rewrite (sel_pos s _ o k S N H Eo). simpl. rewrite ?option_map_id'. auto.
Qed.

Lemma assign_extract_v outp outp' (w d d' : bvec T) s :
  wfv0 w -> wfv0 d ->
  vextract_conforms (@NoMask (bvec TM)) d w s -> idx_nodup s -> all_fits s (vsize d) (vsize w) ->
  extract_v truthy id noacc (@NoMask (bvec TM)) outp d w s = Ok d' ->
  exists w', assign_v id truthy id noacc (@NoMask (bvec TM)) outp' w d' s = Ok w' /\ same w' w.
Proof.
  intros Ww Wd Cf N A E.
  destruct (extract_v_ok truthy id noacc (@NoMask (bvec TM)) outp d w s Wd Ww I Cf)
    as (d1 & E1 & W1 & S1 & G1).
  rewrite E in E1. inversion E1; subst d1. clear E1. destruct Cf as (_ & S & In).
  destruct (assign_v_ok truthy id id noacc (@NoMask (bvec TM)) outp' w d' s Ww (proj1 W1) I)
    as (w' & E2 & W2 & S2 & G2); auto.
  { split; [exact I|]. rewrite S1. auto. } { rewrite S1. auto. }
  exists w'. split; [auto|]. split; [congruence|]. intro o.
  destruct (le_lt_dec (vsize w) o) as [H|H].
  { rewrite !vget_oob; auto; try apply W2. rewrite S2. auto. }
  rewrite G2 by lia. simpl. rewrite ?option_map_id'. unfold in_idx, sassign.
  destruct (pos s (vsize d') o) as [k|] eqn:Ek; simpl; rewrite ?option_map_id'; auto.
  apply pos_sel in Ek. destruct Ek as [Ek Hk]. rewrite G1 by lia. simpl.
  rewrite ?option_map_id'. unfold sextract. rewrite Ek. reflexivity.
Qed.

Lemma extract_assign_m outp outp' (C A D C' : lil T) rs cs :
  wfm C -> wfm A -> wfm D -> nrows D = nrows A -> ncols D = ncols A ->
  assign_conforms (@NoMask (lil TM)) C (Mat A) rs cs -> idx_nodup rs -> idx_nodup cs ->
  all_fits rs (nrows A) (nrows C) -> all_fits cs (ncols A) (ncols C) ->
  assign_m id truthy id noacc NoMask outp C (Mat A) rs cs = Ok C' ->
  extract_m truthy id noacc (@NoMask (lil TM)) outp' D (Mat C') rs cs = Ok A.
Proof.
  intros WC WA WD RD KD Cf Nr Nc Ar Ac E.
  destruct (assign_m_ok truthy id id noacc NoMask outp C (Mat A) rs cs WC WA I Cf Nr Nc Ar Ac)
    as (C1 & E1 & W1 & R1 & K1 & G1).
  rewrite E in E1. inversion E1; subst C1. clear E1. destruct Cf as (_ & Sr & Sc & Ir & Ic).
  cbn [vrows vcols sview] in *.
  destruct (extract_m_ok truthy id noacc (@NoMask (lil TM)) outp' D (Mat C') rs cs WD W1 I)
    as (D' & E2 & W2 & R2 & K2 & G2).
  { split; [exact I|]. cbn [vrows vcols]. rewrite RD, KD, R1, K1. auto. }
  rewrite E2. f_equal. apply lil_ext; auto; try congruence.
  intros i j. destruct (le_lt_dec (nrows A) i) as [Hi|Hi].
  { rewrite !mget_oob; auto; left; auto. rewrite R2, RD. auto. }
  destruct (le_lt_dec (ncols A) j) as [Hj|Hj].
  { rewrite !mget_oob; auto; right; auto. rewrite K2, KD. auto. }
  rewrite G2 by lia. simpl. rewrite ?option_map_id'. unfold smextract.
  destruct (sel_total rs _ _ i Sr Ir Ar Hi) as (i' & Ei & Hi'). rewrite Ei.
  destruct (sel_total cs _ _ j Sc Ic Ac Hj) as (j' & Ej & Hj'). rewrite Ej. simpl.
  rewrite G1 by lia. simpl. rewrite ?option_map_id'. unfold in_idx, smassign.
  rewrite (sel_pos rs _ i' i Sr Nr Hi Ei), (sel_pos cs _ j' j Sc Nc Hj Ej). simpl.
  rewrite ?option_map_id'. auto.
Qed.

Lemma assign_extract_m outp outp' (C D D' : lil T) rs cs :
  wfm C -> wfm D ->
  extract_conforms (@NoMask (lil TM)) D (Mat C) rs cs -> idx_nodup rs -> idx_nodup cs ->
  all_fits rs (nrows D) (nrows C) -> all_fits cs (ncols D) (ncols C) ->
  extract_m truthy id noacc (@NoMask (lil TM)) outp D (Mat C) rs cs = Ok D' ->
  assign_m id truthy id noacc (@NoMask (lil TM)) outp' C (Mat D') rs cs = Ok C.
Proof.
  intros WC WD Cf Nr Nc Ar Ac E.
  destruct (extract_m_ok truthy id noacc (@NoMask (lil TM)) outp D (Mat C) rs cs WD WC I Cf)
    as (D1 & E1 & W1 & R1 & K1 & G1).
  rewrite E in E1. inversion E1; subst D1. clear E1. destruct Cf as (_ & Sr & Sc & Ir & Ic).
  cbn [vrows vcols sview] in *.
  destruct (assign_m_ok truthy id id noacc (@NoMask (lil TM)) outp' C (Mat D') rs cs WC W1 I)
    as (C' & E2 & W2 & R2 & K2 & G2); cbn [vrows vcols sview] in *; auto.
  { split; [exact I|]. cbn [vrows vcols]. rewrite R1, K1. auto. }
  { rewrite R1. auto. } { rewrite K1. auto. }
  rewrite E2. f_equal. apply lil_ext; auto; try congruence.
  intros i j. destruct (le_lt_dec (nrows C) i) as [Hi|Hi].
  { rewrite !mget_oob; auto; left; auto. rewrite R2. auto. }
  destruct (le_lt_dec (ncols C) j) as [Hj|Hj].
  { rewrite !mget_oob; auto; right; auto. rewrite K2. auto. }
  rewrite G2 by lia. simpl. rewrite ?option_map_id'. unfold in_idx, smassign.
  destruct (pos rs (nrows D') i) as [i'|] eqn:Ei; simpl; [|rewrite ?option_map_id'; auto].
  destruct (pos cs (ncols D') j) as [j'|] eqn:Ej; simpl; rewrite ?option_map_id'; auto.
  apply pos_sel in Ei, Ej. destruct Ei as [Ei Hi'], Ej as [Ej Hj'].
  rewrite G1 by lia. simpl. rewrite ?option_map_id'. unfold smextract. rewrite Ei, Ej. reflexivity.
Qed.
End Inverse.
