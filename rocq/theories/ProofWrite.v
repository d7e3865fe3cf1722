(** The write rule: accumulation and masked write-back. *)
From Coq Require Import Lia.
From Verif Require Import Base ModelLil ModelVec ModelHelpers Spec SpecOps
  ProofBase ProofRow ProofLil ProofVec.

Lemma wfrows_cols {T} nr nc (d : list (row T)) i : wfrows nr nc d -> wfrow 0 nc (nth i d []).
Proof. apply wfrows_nth. Qed.

(** Rows without a count. *)
Definition dget {T} (d : list (row T)) : smat T := fun i j => rget (nth i d []) j.

Lemma mget_dget {T} (M : lil T) i j : mget M i j = dget (data M) i j.
Proof. reflexivity. Qed.

Lemma sparse_copy_ok {S T} (cast : S -> T) (dst : lil T) (src : lil S) :
  length (data dst) = nrows dst ->
  wfrows (nrows dst) (ncols dst) (data src) ->
  exists D, sparse_copy cast dst src = Ok D /\ wfm D /\ nrows D = nrows dst /\ ncols D = ncols dst /\
    forall i j, i < nrows dst -> mget D i j = option_map cast (mget src i j).
Proof.
  intros L W. pose proof W as [Ls Fs]. unfold sparse_copy. rewrite lil_clear_eq by auto.
  destruct (rows_loop_full (fun i D =>
       r <- getrow src i ;;
       match r with
       | [] => Ok D
       | _ => setRow (fun x => x) D i (cast_row cast r)
       end) (fun i => cast_row cast (nth i (data src) [])) (lil_new (nrows dst) (ncols dst)))
    as (D & E & WD & RD & CD & GD).
  - apply lil_new_wf.
  - simpl. intros i M Hi HR HC HL HN. rewrite getrow_ok by lia. cbn [bind].
    rewrite nth_repeat' in HN.
    destruct (nth i (data src) []) as [|p r] eqn:En.
    + f_equal. symmetry. assert (Q : nth i (data M) [] = []) by (rewrite HN; ltb; auto).
      change (cast_row cast []) with (@nil (nat * T)). rewrite <- Q. apply setrow_pure_self.
    + rewrite setRow_ok by lia. rewrite cast_id. auto.
  - simpl. intros i Hi. apply wfrow_cast. eapply wfrows_nth; eauto.
  - simpl in *. exists D. split; [auto|]. split; [auto|]. split; [auto|]. split; [auto|].
    intros i j Hi. rewrite GD by auto. rewrite rget_cast. reflexivity.
Qed.

Lemma ewise_or_opt_accum_ok {TC TT TZ} (a : accum TC TT TZ) (C : lil TC) (T : lil TT) nr nc :
  wfrows nr nc (data C) -> wfrows nr nc (data T) ->
  exists Z, ewise_or_opt_accum a (lil_new nr nc) C T = Ok Z /\ wfm Z /\
    nrows Z = nr /\ ncols Z = nc /\
    forall i j, i < nr -> mget Z i j = spec_accum a (mget C i j) (mget T i j).
Proof.
  intros WC WT. destruct a as [tz|f cz tz]; simpl.
  - destruct (sparse_copy_ok tz (lil_new nr nc) T) as (D & E & W & R & Cc & G).
    + apply repeat_length.
    + exact WT.
    + exists D. auto.
  - pose proof WC as [LC FC]. pose proof WT as [LT FT].
    destruct (rows_loop_full (fun i Z' =>
           c <- getrow C i ;;
           t <- getrow T i ;;
           setRow (fun x => x) Z' i (ewise_or f cz tz c t))
       (fun i => ewise_or f cz tz (nth i (data C) []) (nth i (data T) [])) (lil_new nr nc))
      as (D & E & WD & RD & CD & GD).
    + apply lil_new_wf.
    + simpl. intros i M Hi HR HC HL HN. rewrite !getrow_ok by lia. cbn [bind].
      rewrite setRow_ok by lia. rewrite cast_id. auto.
    + simpl. intros i Hi. eapply (ewise_or_spec f cz tz _ _ 0 nc); eapply wfrows_nth; eauto.
    + exists D. split; [auto|]. split; [auto|]. split; [auto|]. split; [auto|].
      intros i j Hi. rewrite GD by auto.
      destruct (ewise_or_spec f cz tz (nth i (data C) []) (nth i (data T) []) 0 nc) as [_ G];
        try (eapply wfrows_nth; eauto). rewrite G. reflexivity.
Qed.

Lemma rmask_cast {TM} (truthy : TM -> bool) r j :
  rmask (cast_row truthy r) j = otrue truthy (rget r j).
Proof. unfold rmask. rewrite rget_cast. destruct (rget r j); reflexivity. Qed.

Lemma rmask_struct {TM} (r : row TM) j :
  rmask (cast_row (fun _ => true) r) j = is_some (rget r j).
Proof. unfold rmask. rewrite rget_cast. destruct (rget r j); reflexivity. Qed.

Lemma mask_row_ok {TM} (truthy : TM -> bool) (m : mask (lil TM)) nr nc i :
  m <> NoMask -> wfmask m -> mask_fits m nr nc -> i < nr ->
  exists mr, mask_row truthy m i = Ok mr /\ wfrow 0 nc mr /\
    forall j, j < nc -> rmask mr j = mask_allows truthy m i j.
Proof.
  intros N W F Hi.
  destruct m as [|M|M|M|M]; [congruence| | | |]; simpl in *;
    destruct F as [Fr Fc]; pose proof (wfm_len M W) as L;
    pose proof (wfm_row M i W) as Wr; rewrite getrow_ok by lia; cbn [bind];
    eexists; (split; [reflexivity|]); rewrite Fc in *.
  - split; [apply wfrow_cast; auto|]. intros j Hj. apply rmask_cast.
  - destruct (complement_loop_spec (cast_row truthy (nth i (data M) [])) nc 0) as [W1 G1].
    { apply wfrow_cast; auto. }
    split; [exact W1|]. intros j Hj. rewrite G1, rmask_cast. ltb. reflexivity.
  - split; [apply wfrow_cast; auto|]. intros j Hj. apply rmask_struct.
  - destruct (complement_loop_spec (cast_row (fun _ => true) (nth i (data M) [])) nc 0) as [W1 G1].
    { apply wfrow_cast; auto. }
    split; [exact W1|]. intros j Hj. rewrite G1, rmask_struct. ltb. reflexivity.
Qed.

Lemma write_with_opt_mask_ok {TC TZ TM} (truthy : TM -> bool) (zc : TZ -> TC)
    (C : lil TC) (Z : lil TZ) (m : mask (lil TM)) outp :
  wfm C -> wfrows (nrows C) (ncols C) (data Z) -> wfmask m -> mask_fits m (nrows C) (ncols C) ->
  exists C', write_with_opt_mask truthy zc C Z m outp = Ok C' /\ wfm C' /\
    nrows C' = nrows C /\ ncols C' = ncols C /\
    forall i j, i < nrows C -> j < ncols C ->
      mget C' i j = spec_write zc (mask_allows truthy m i j) outp (mget C i j) (mget Z i j).
Proof.
  intros WC WZ Wm Fm. pose proof (wfm_len C WC) as LC. pose proof WZ as [LZ FZ].
  assert (Q : m = NoMask \/ m <> NoMask) by (destruct m; auto; right; discriminate).
  destruct Q as [->|N].
  - destruct (sparse_copy_ok zc C Z) as (D & E & W & R & Cc & G); auto.
    exists D. simpl. split; [auto|]. split; [auto|]. split; [auto|]. split; [auto|].
    intros i j Hi Hj. rewrite G by auto. reflexivity.
  - set (mr := fun i => match mask_row truthy m i with Ok r => r | _ => [] end).
    destruct (rows_loop_full (fun i C' =>
           c <- getrow C' i ;;
           z <- getrow Z i ;;
           mr <- mask_row truthy m i ;;
           setRow (fun x => x) C' i (apply_with_mask zc outp c z mr))
       (fun i => apply_with_mask zc outp (nth i (data C) []) (nth i (data Z) []) (mr i)) C)
      as (D & E & WD & RD & CD & GD).
    + auto.
    + intros i M Hi HR HC HL HN.
      destruct (mask_row_ok truthy m _ _ i N Wm Fm Hi) as (r & Er & _).
      rewrite !getrow_ok by lia. cbn [bind]. unfold mr. rewrite Er. cbn [bind].
      rewrite setRow_ok by lia. rewrite cast_id, HN. auto.
    + intros i Hi. destruct (mask_row_ok truthy m _ _ i N Wm Fm Hi) as (r & Er & Wr & Gr).
      unfold mr. rewrite Er.
      eapply (apply_with_mask_spec zc outp r _ _ 0 0 (ncols C)); auto; try lia.
      * intros _. apply wfm_row; auto.
      * eapply wfrows_nth; eauto.
    + exists D. split; [|split; [auto|split; [auto|split; [auto|]]]].
      { destruct m; auto. congruence. }
      intros i j Hi Hj. rewrite GD by auto.
      destruct (mask_row_ok truthy m _ _ i N Wm Fm Hi) as (r & Er & Wr & Gr).
      unfold mr. rewrite Er.
      destruct (apply_with_mask_spec zc outp r (nth i (data C) []) (nth i (data Z) []) 0 0 (ncols C))
        as [_ G]; auto; try lia.
      * intros _. apply wfm_row; auto.
      * eapply wfrows_nth; eauto.
      * rewrite G by lia. rewrite Gr by auto. unfold spec_write. reflexivity.
Qed.

Theorem accum_write_ok {TC TT TZ TM} (truthy : TM -> bool) (zc : TZ -> TC)
    (a : accum TC TT TZ) (m : mask (lil TM)) outp (C : lil TC) (T : lil TT) (S : smat TT) :
  wfm C -> wfrows (nrows C) (ncols C) (data T) -> wfmask m -> mask_fits m (nrows C) (ncols C) ->
  (forall i j, i < nrows C -> j < ncols C -> mget T i j = S i j) ->
  written truthy zc a m outp C S (accum_write truthy zc a m outp C T).
Proof.
  intros WC WT Wm Fm HS. unfold accum_write.
  destruct (ewise_or_opt_accum_ok a C T (nrows C) (ncols C) (proj1 WC) WT) as (Z & EZ & WZ & RZ & CZ & GZ).
  rewrite EZ. cbn [bind].
  destruct (write_with_opt_mask_ok truthy zc C Z m outp WC) as (C' & E & W & R & Cc & G); auto.
  { rewrite <- RZ, <- CZ. apply WZ. }
  exists C'. split; [auto|]. split; [auto|]. split; [auto|]. split; [auto|].
  intros i j Hi Hj. rewrite G, GZ, HS by auto. reflexivity.
Qed.

(** ** Vectors *)
Lemma mask_contents_ok {TM} (truthy : TM -> bool) (m : mask (bvec TM)) n :
  m <> NoMask -> wfvmask m -> vmask_fits m n ->
  exists mr, mask_contents truthy m = Ok mr /\ wfrow 0 n mr /\
    forall j, j < n -> rmask mr j = vmask_allows truthy m j.
Proof.
  intros N W F.
  destruct m as [|M|M|M|M]; [congruence| | | |]; simpl in *;
    destruct (getContents_ok M W) as (c & E & Wc & Gc); rewrite E; cbn [bind];
    eexists; (split; [reflexivity|]); rewrite F in *.
  - split; [apply wfrow_cast; auto|]. intros j Hj. rewrite rmask_cast, Gc. auto.
  - destruct (complement_loop_spec (cast_row truthy c) n 0) as [W1 G1].
    { apply wfrow_cast; auto. }
    split; [exact W1|]. intros j Hj. rewrite G1, rmask_cast, Gc. ltb. reflexivity.
  - split; [apply wfrow_cast; auto|]. intros j Hj. rewrite rmask_struct, Gc. auto.
  - destruct (complement_loop_spec (cast_row (fun _ => true) c) n 0) as [W1 G1].
    { apply wfrow_cast; auto. }
    split; [exact W1|]. intros j Hj. rewrite G1, rmask_struct, Gc. ltb. reflexivity.
Qed.

Lemma write_with_opt_mask_1D_ok {TW TZ TM} (truthy : TM -> bool) (zc : TZ -> TW)
    (w : bvec TW) (z : row TZ) (m : mask (bvec TM)) outp :
  wfv0 w -> wfrow 0 (vsize w) z -> wfvmask m -> vmask_fits m (vsize w) ->
  exists w', write_with_opt_mask_1D truthy zc w z m outp = Ok w' /\ wfv w' /\
    vsize w' = vsize w /\
    forall i, i < vsize w ->
      vget w' i = spec_write zc (vmask_allows truthy m i) outp (vget w i) (rget z i).
Proof.
  intros W Wz Wm Fm.
  assert (Q : m = NoMask \/ m <> NoMask) by (destruct m; auto; right; discriminate).
  destruct Q as [->|N].
  - simpl. destruct (setContents_ok zc w z W Wz) as (w' & E & W' & S' & G).
    exists w'. split; [auto|]. split; [auto|]. split; [auto|]. intros; apply G.
  - destruct (mask_contents_ok truthy m (vsize w) N Wm Fm) as (mr & Em & Wmr & Gmr).
    destruct (getContents_ok w W) as (c & Ec & Wc & Gc).
    destruct (apply_with_mask_spec zc outp mr c z 0 0 (vsize w)) as [W1 G1]; auto; try lia.
    destruct (setContents_ok (fun x => x) w _ W W1) as (w' & E & W' & S' & G).
    exists w'. split.
    { destruct m; [congruence| | | |]; unfold write_with_opt_mask_1D; rewrite Ec; cbn [bind];
        rewrite Em; cbn [bind]; exact E. }
    split; [auto|]. split; [auto|]. intros i Hi. rewrite G, G1 by lia.
    rewrite Gmr, Gc by auto. unfold spec_write.
    destruct (vmask_allows truthy m i); [destruct (option_map zc (rget z i)); auto|].
    destruct outp; [destruct (vget w i)|]; auto.
Qed.

Lemma ewise_or_opt_accum_1D_ok {TW TT TZ} (a : accum TW TT TZ) (w : bvec TW) (t : row TT) :
  wfv0 w -> wfrow 0 (vsize w) t ->
  exists z, ewise_or_opt_accum_1D a w t = Ok z /\ wfrow 0 (vsize w) z /\
    forall i, rget z i = spec_accum a (vget w i) (rget t i).
Proof.
  intros W Wt. destruct a as [tz|f cz tz]; simpl.
  - eexists; split; [reflexivity|]. split; [apply wfrow_cast; auto|]. intro i. apply rget_cast.
  - destruct (getContents_ok w W) as (c & Ec & Wc & Gc). rewrite Ec. cbn [bind].
    eexists; split; [reflexivity|].
    destruct (ewise_or_spec f cz tz c t 0 (vsize w) Wc Wt) as [W1 G1]. split; auto.
    intro i. rewrite G1, Gc. reflexivity.
Qed.

Theorem accum_write_1D_ok {TW TT TZ TM} (truthy : TM -> bool) (zc : TZ -> TW)
    (a : accum TW TT TZ) (m : mask (bvec TM)) outp (w : bvec TW) (t : row TT) (s : svec TT) :
  wfv0 w -> wfrow 0 (vsize w) t -> wfvmask m -> vmask_fits m (vsize w) ->
  (forall i, i < vsize w -> rget t i = s i) ->
  vwritten truthy zc a m outp w s (accum_write_1D truthy zc a m outp w t).
Proof.
  intros W Wt Wm Fm Hs. unfold accum_write_1D.
  destruct (ewise_or_opt_accum_1D_ok a w t W Wt) as (z & Ez & Wz & Gz). rewrite Ez. cbn [bind].
  destruct (write_with_opt_mask_1D_ok truthy zc w z m outp W Wz Wm Fm) as (w' & E & W' & S' & G).
  exists w'. split; [auto|]. split; [auto|]. split; [auto|]. intros i Hi.
  rewrite G, Gz, Hs by auto. reflexivity.
Qed.
