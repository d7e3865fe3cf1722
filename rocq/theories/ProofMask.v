(** The write rule case by case, and complementary masks. *)
From Coq Require Import Lia.
From Verif Require Import Base ModelLil ModelVec ModelHelpers ModelViews Spec SpecOps.
From Verif Require Import ProofBase ProofRow ProofLil ProofVec ProofWrite.

Lemma accum_write_rule {TC TT TZ TM} (truthy : TM -> bool) (zc : TZ -> TC) (a : accum TC TT TZ)
    (m : mask (lil TM)) (outp : outmode) (C : lil TC) (T : lil TT) :
    wfm C -> wfrows (nrows C) (ncols C) (data T) ->
    wfmask m -> mask_fits m (nrows C) (ncols C) ->
    exists C', accum_write truthy zc a m outp C T = Ok C' /\ wfm C' /\
      nrows C' = nrows C /\ ncols C' = ncols C /\
      forall i j, i < nrows C -> j < ncols C ->
        mget C' i j =
          if mask_allows truthy m i j then
            match a with
            | NoAcc tz => match mget T i j with Some t => Some (zc (tz t)) | None => None end
            | Acc f cz tz =>
                match mget C i j, mget T i j with
                | Some c, Some t => Some (zc (f c t))
                | Some c, None => Some (zc (cz c))
                | None, Some t => Some (zc (tz t))
                | None, None => None
                end
            end
          else match outp with MERGE => mget C i j | REPLACE => None end.
Proof.
  intros WC WT Wm Fm.
  destruct (accum_write_ok truthy zc a m outp C T (mget T) WC WT Wm Fm) as (C' & E & W & R & K & G);
    auto.
  exists C'. split; [auto|]. split; [auto|]. split; [auto|]. split; [auto|].
  intros i j Hi Hj. rewrite G by auto. unfold spec_write, spec_accum, ounion.
  destruct (mask_allows truthy m i j); auto.
  destruct a, (mget C i j), (mget T i j); reflexivity.
Qed.

Lemma accum_write_1D_rule {TW TT TZ TM} (truthy : TM -> bool) (zc : TZ -> TW) (a : accum TW TT TZ)
    (m : mask (bvec TM)) (outp : outmode) (w : bvec TW) (t : row TT) :
    wfv0 w -> wfrow 0 (vsize w) t -> wfvmask m -> vmask_fits m (vsize w) ->
    exists w', accum_write_1D truthy zc a m outp w t = Ok w' /\ wfv w' /\ vsize w' = vsize w /\
      forall i, i < vsize w ->
        vget w' i =
          if vmask_allows truthy m i then
            match a with
            | NoAcc tz => match rget t i with Some x => Some (zc (tz x)) | None => None end
            | Acc f cz tz =>
                match vget w i, rget t i with
                | Some c, Some x => Some (zc (f c x))
                | Some c, None => Some (zc (cz c))
                | None, Some x => Some (zc (tz x))
                | None, None => None
                end
            end
          else match outp with MERGE => vget w i | REPLACE => None end.
Proof.
  intros Ww Wt Wm Fm.
  destruct (accum_write_1D_ok truthy zc a m outp w t (rget t) Ww Wt Wm Fm) as (w' & E & W & R & G);
    auto.
  exists w'. split; [auto|]. split; [auto|]. split; [auto|].
  intros i Hi. rewrite G by auto. unfold spec_write, spec_accum, ounion.
  destruct (vmask_allows truthy m i); auto.
  destruct a, (vget w i), (rget t i); reflexivity.
Qed.

Lemma mask_views_split {TC TT TZ TM} (truthy : TM -> bool) (zc : TZ -> TC) (a : accum TC TT TZ)
    (C : lil TC) (T : lil TT) (M : lil TM) (structural : bool) :
    wfm C -> wfrows (nrows C) (ncols C) (data T) ->
    wfm M -> nrows M = nrows C -> ncols M = ncols C ->
    let allowed i j := match mget M i j with
                       | Some v => if structural then true else truthy v
                       | None => false
                       end in
    exists Call Cm Cc,
      accum_write truthy zc a (@NoMask (lil TM)) MERGE C T = Ok Call /\
      accum_write truthy zc a (if structural then MStruct M else MVal M) MERGE C T = Ok Cm /\
      accum_write truthy zc a (if structural then MSComp M else MComp M) MERGE C T = Ok Cc /\
      forall i j, i < nrows C -> j < ncols C ->
        mget Cm i j = (if allowed i j then mget Call i j else mget C i j) /\
        mget Cc i j = (if allowed i j then mget C i j else mget Call i j).
Proof.
  intros WC WT WM R K allowed.
  destruct (accum_write_ok truthy zc a (@NoMask (lil TM)) MERGE C T (mget T) WC WT I I)
    as (Call & E1 & _ & _ & _ & G1); auto.
  destruct (accum_write_ok truthy zc a (if structural then MStruct M else MVal M) MERGE C T (mget T)
    WC WT) as (Cm & E2 & _ & _ & _ & G2); auto.
  1, 2: destruct structural; simpl; auto.
  destruct (accum_write_ok truthy zc a (if structural then MSComp M else MComp M) MERGE C T (mget T)
    WC WT) as (Cc & E3 & _ & _ & _ & G3); auto.
  1, 2: destruct structural; simpl; auto.
  exists Call, Cm, Cc. split; [auto|]. split; [auto|]. split; [auto|].
  intros i j Hi Hj. rewrite G1, G2, G3 by auto. unfold spec_write, allowed.
  destruct structural; simpl; destruct (mget M i j) as [v|]; simpl; auto;
    destruct (truthy v); auto.
Qed.

Lemma vmask_views_split {TW TT TZ TM} (truthy : TM -> bool) (zc : TZ -> TW) (a : accum TW TT TZ)
    (w : bvec TW) (t : row TT) (M : bvec TM) (structural : bool) :
    wfv0 w -> wfrow 0 (vsize w) t -> wfv0 M -> vsize M = vsize w ->
    let allowed i := match vget M i with
                     | Some v => if structural then true else truthy v
                     | None => false
                     end in
    exists wall wm wc,
      accum_write_1D truthy zc a (@NoMask (bvec TM)) MERGE w t = Ok wall /\
      accum_write_1D truthy zc a (if structural then MStruct M else MVal M) MERGE w t = Ok wm /\
      accum_write_1D truthy zc a (if structural then MSComp M else MComp M) MERGE w t = Ok wc /\
      forall i, i < vsize w ->
        vget wm i = (if allowed i then vget wall i else vget w i) /\
        vget wc i = (if allowed i then vget w i else vget wall i).
Proof.
  intros Ww Wt WM R allowed.
  destruct (accum_write_1D_ok truthy zc a (@NoMask (bvec TM)) MERGE w t (rget t) Ww Wt I I)
    as (wall & E1 & _ & _ & G1); auto.
  destruct (accum_write_1D_ok truthy zc a (if structural then MStruct M else MVal M) MERGE w t (rget t)
    Ww Wt) as (wm & E2 & _ & _ & G2); auto.
  1, 2: destruct structural; simpl; auto.
  destruct (accum_write_1D_ok truthy zc a (if structural then MSComp M else MComp M) MERGE w t (rget t)
    Ww Wt) as (wc & E3 & _ & _ & G3); auto.
  1, 2: destruct structural; simpl; auto.
  exists wall, wm, wc. split; [auto|]. split; [auto|]. split; [auto|].
  intros i Hi. rewrite G1, G2, G3 by auto. unfold spec_write, allowed.
  destruct structural; simpl; destruct (vget M i) as [v|]; simpl; auto;
    destruct (truthy v); auto.
Qed.
