(** Properties of the level searches over the scalar types of the caller's containers: C133, C134. *)
From Coq Require Import Lia ZArith.
From Verif Require Import Base ModelLil ModelVec ModelHelpers ModelViews ModelAlgoBase ModelAlgebra ModelFloat ModelBfs ModelLevels
  Spec SpecOps SpecGraph SpecInts SpecLevels ProofLil ProofGraph ProofBfs ProofLevels ProofLevelTypes.

(** ** C133.  Every reached vertex gets the conversion of its level (one more than its distance) to the
    scalar type of the levels, if none of the levels converts to zero (for floating point types: if all
    are at most 2^24 or 2^53).  [lt] and [wt] are the scalar types of the levels and of the wavefront,
    which hold ones; [tb] is the conversion of the graph's values to [bool], never false. *)
Theorem C133_bfs_level :
  forall (T : Type) (tb : T -> bool) (lt : ltype) (G : lil T) (N n source : nat) (levels : bvec (sty (scalar_of lt))),
    wfm G -> nrows G = N -> ncols G = N -> (Z.of_nat N < 2 ^ 64)%Z ->
    (forall u v g, mget G u v = Some g -> tb g = true) ->
    wfv levels -> vsize levels = N -> (forall v, vget levels v = None) ->
    source < N -> N < n ->
    (forall v d, at_distance (edge G) (eq source) d v -> level_fits lt (Z.of_nat (S d))) ->
    exists r, lbfs_level tb (scalar_of lt) n G source levels = Ok (Some r) /\ wfv r /\ vsize r = N /\
      forall v x, v < N ->
        (vget r v = Some x <->
         exists d, x = s_of (scalar_of lt) (Z.of_nat (S d)) /\ at_distance (edge G) (eq source) d v).
Proof.
  intros T tb lt G N n source levels WG RG CG HN HG Wl Sl El Hs Hn HL.
  apply lbfs_level_ok; auto. intros d v Ha. apply (fits_keeps W64); auto; [|eapply HL; eauto].
  assert (d < N).
  { apply (at_distance_lt N (edge G) (eq source) (edge_bound G N WG RG CG)) with (v := v); auto. intros; subst; auto. }
  cbn [bits]. lia.
Qed.
Print Assumptions C133_bfs_level.

Theorem C133_bfs_level_masked :
  forall (T : Type) (tb : T -> bool) (lt wt : ltype) (G : lil T) (N n : nat)
      (roots : bvec (sty (scalar_of wt))) (levels : bvec (sty (scalar_of lt))),
    wfm G -> nrows G = N -> ncols G = N -> (Z.of_nat N < 2 ^ 32)%Z ->
    (forall u v g, mget G u v = Some g -> tb g = true) ->
    wfv levels -> vsize levels = N -> (forall v, vget levels v = None) ->
    wfv roots -> vsize roots = N -> (forall v x, vget roots v = Some x -> x = s_of (scalar_of wt) 1) -> N < n ->
    (forall v d, at_distance (edge G) (fun u => vget roots u <> None) d v -> level_fits lt (Z.of_nat (S d))) ->
    let right r := wfv r /\ vsize r = N /\
      forall v x, v < N ->
        (vget r v = Some x <->
         exists d, x = s_of (scalar_of lt) (Z.of_nat (S d)) /\ at_distance (edge G) (fun u => vget roots u <> None) d v) in
    (exists r, lbfs_level_masked tb (scalar_of lt) (scalar_of wt) n G roots levels = Ok (Some r) /\ right r) /\
    (exists r, lbfs_level_masked_v2 tb (scalar_of lt) (scalar_of wt) n G roots levels = Ok (Some r) /\ right r).
Proof.
  intros T tb lt wt G N n roots levels WG RG CG HN HG Wl Sl El Wr Sr H1 Hn HL.
  assert (K : forall d v, at_distance (edge G) (fun u => vget roots u <> None) d v ->
    keeps_level u32 (scalar_of lt) (Z.of_nat (S d))).
  { intros d v Ha. apply (fits_keeps W32); auto; [|eapply HL; eauto].
    assert (d < N).
    { eapply at_distance_lt with (v := v); eauto using edge_bound.
      intros u Hu. eapply roots_bound; eauto. }
    cbn [bits]. lia. }
  split; [apply lmasked_ok|apply lmasked2_ok]; auto using one_of.
Qed.
Print Assumptions C133_bfs_level_masked.

(** One search per row. *)
Theorem C133_batch_bfs_level :
  forall (T : Type) (tb : T -> bool) (lt wt : ltype) (G : lil T) (N n : nat)
      (roots : lil (sty (scalar_of wt))) (levels : lil (sty (scalar_of lt))),
    wfm G -> nrows G = N -> ncols G = N -> (Z.of_nat N < 2 ^ 32)%Z ->
    (forall u v g, mget G u v = Some g -> tb g = true) ->
    wfm roots -> ncols roots = N -> (forall r v x, mget roots r v = Some x -> x = s_of (scalar_of wt) 1) ->
    wfm levels -> nrows levels = nrows roots -> ncols levels = N ->
    (forall r v, mget levels r v = None) -> N < n ->
    (forall r v d, r < nrows roots -> at_distance (edge G) (fun u => mget roots r u <> None) d v ->
       level_fits lt (Z.of_nat (S d))) ->
    let right l := wfm l /\ nrows l = nrows roots /\ ncols l = N /\
      forall r v x, r < nrows roots -> v < N ->
        (mget l r v = Some x <->
         exists d, x = s_of (scalar_of lt) (Z.of_nat (S d)) /\ at_distance (edge G) (fun u => mget roots r u <> None) d v) in
    (exists l, lbatch_bfs_level_masked tb (scalar_of lt) (scalar_of wt) n G roots levels = Ok (Some l) /\ right l) /\
    (exists l, lbfs_level_m tb (scalar_of lt) (scalar_of wt) n G roots levels = Ok (Some l) /\ right l).
Proof.
  intros T tb lt wt G N n roots levels WG RG CG HN HG Wr Cr H1 Wl Rl Cl El Hn HL.
  assert (K : forall r d v, r < nrows roots -> at_distance (edge G) (fun u => mget roots r u <> None) d v ->
    keeps_level u32 (scalar_of lt) (Z.of_nat (S d))).
  { intros r d v Hr Ha. apply (fits_keeps W32); auto; [|eapply HL; eauto].
    assert (d < N).
    { eapply at_distance_lt with (v := v); eauto using edge_bound.
      intros u Hu. apply Nat.nle_gt; intro. apply Hu. apply mget_oob; auto. lia. }
    cbn [bits]. lia. }
  split; [apply lbatch_ok|apply llevel_m_ok]; auto using one_of.
Qed.
Print Assumptions C133_batch_bfs_level.

(** In an integer type the conversion of a level that is in range is the level itself, so [N] vertices
    are no problem for a type that can hold [N]; [bool] levels say which vertices are reached. *)
Theorem C133_in_range :
  forall (t : ctype) (z : Z), (1 <= z)%Z ->
    (integer_type t -> (z <= tmax t)%Z -> s_of (scalar_of (LInt t)) z = z /\ level_fits (LInt t) z) /\
    (s_of (scalar_of (LInt CBool)) z = 1%Z /\ level_fits (LInt CBool) z).
Proof.
  intros t z Hz. split.
  - intros Ht Hm. destruct (int_holds t z Ht) as [E _]; [lia|]. cbn [scalar_of int_scalar s_of level_fits].
    rewrite E. split; [reflexivity|lia].
  - cbn [scalar_of int_scalar s_of level_fits convert]. destruct (Z.eqb_spec z 0); [lia|]. split; [reflexivity|discriminate].
Qed.
Print Assumptions C133_in_range.

(** A path there and back over [n] vertices. *)
Definition lp_row (n i : nat) : row Z :=
  (if i =? 0 then [] else [(i - 1, 1%Z)]) ++ (if i =? n - 1 then [] else [(i + 1, 1%Z)]).
Definition lp (n : nat) : lil Z := mkLil n n (2 * (Z.of_nat n - 1)) (map (lp_row n) (seq 0 n)).
Definition lp_none {A} (x : A) (n : nat) : bvec A := mkVec n 0%Z (repeat x n) (repeat false n).
(** The first vertex as root. *)
Definition lp_root {A} (x : A) (n : nat) : bvec A := mkVec n 1%Z (repeat x n) (true :: repeat false (n - 1)).
Definition lp_root_m {A} (x : A) (n : nat) : lil A := mkLil 1 n 1%Z [[(0, x)]].
Definition lp_vals {A} (r : res (option (bvec A))) : option (list (option A)) :=
  match r with Ok (Some w) => Some (map (vget w) (seq 0 (vsize w))) | _ => None end.
Definition lp_row0 {A} (r : res (option (lil A))) : option (list (option A)) :=
  match r with Ok (Some M) => Some (map (mget M 0) (seq 0 (ncols M))) | _ => None end.
Definition lp_at {A} (v : nat) (r : res (option (bvec A))) : option A :=
  match r with Ok (Some w) => vget w v | _ => None end.
Definition lp_at_m {A} (v : nat) (r : res (option (lil A))) : option A :=
  match r with Ok (Some M) => mget M 0 v | _ => None end.
Definition u8 : ctype := CInt false W8.

Lemma lp_wf : wfm (lp 5) /\ wfm (lp 257) /\ wfv (lp_none 0%Z 257) /\ wfv (lp_root 1%Z 257) /\ wfm (lp_root_m 1%Z 257).
Proof.
  assert (E : forall n, length (data (lp n)) = n ->
    forallb (rowb 0 n) (data (lp n)) = true -> nvals (lp n) = Z.of_nat (mcount n n (mget (lp n))) -> wfm (lp n)).
  { intros n E1 E2 E3. split; [split; [exact E1|]|exact E3]. apply rowb_rows. exact E2. }
  split; [apply E; vm_compute; reflexivity|]. split; [apply E; vm_compute; reflexivity|].
  split; [split; [split|]; vm_compute; reflexivity|]. split; [split; [split|]; vm_compute; reflexivity|].
  split; [split; [reflexivity|]|vm_compute; reflexivity]. apply (rowb_rows 257). vm_compute. reflexivity.
Qed.
Lemma lp_ones : forall n u v g, mget (lp n) u v = Some g -> ztrue g = true.
Proof.
  intros n u v g E. unfold mget, lp in E. cbn [data] in E.
  destruct (nth_in_or_default u (map (lp_row n) (seq 0 n)) []) as [Er|Er]; [|rewrite Er in E; discriminate].
  apply in_map_iff in Er. destruct Er as (i & Ei & _). rewrite <- Ei in E.
  unfold lp_row in E. destruct (i =? 0), (i =? n - 1); cbn [app rget fst snd] in E;
    repeat match type of E with (if ?b then _ else _) = _ => destruct b end; congruence || (injection E as <-; reflexivity).
Qed.

(** Levels of five types on a path of five vertices; there is a vertex of level 5. *)
Example C133_example :
  lp_vals (lbfs_level ztrue (scalar_of (LInt u8)) 6 (lp 5) 0 (lp_none 0%Z 5)) =
    Some [Some 1; Some 2; Some 3; Some 4; Some 5]%Z /\
  lp_vals (lbfs_level_masked ztrue (scalar_of (LInt CBool)) (scalar_of (LInt (CInt true W16))) 6 (lp 5)
    (lp_root 1%Z 5) (lp_none 0%Z 5)) = Some [Some 1; Some 1; Some 1; Some 1; Some 1]%Z /\
  lp_vals (lbfs_level_masked_v2 ztrue (scalar_of (LFloat CFloat)) (scalar_of (LInt CBool)) 6 (lp 5)
    (lp_root 1%Z 5) (lp_none f0 5)) = Some (map (fun z => Some (of_int CFloat z)) [1; 2; 3; 4; 5]%Z) /\
  lp_row0 (lbatch_bfs_level_masked ztrue (scalar_of (LInt (CInt true W8))) (scalar_of (LFloat CDouble)) 6 (lp 5)
    (lp_root_m (f1 CDouble) 5) (lil_new 1 5)) = Some [Some 1; Some 2; Some 3; Some 4; Some 5]%Z /\
  lp_row0 (lbfs_level_m ztrue (scalar_of (LFloat CDouble)) (scalar_of (LInt u8)) 6 (lp 5)
    (lp_root_m 1%Z 5) (lil_new 1 5)) = Some (map (fun z => Some (of_int CDouble z)) [1; 2; 3; 4; 5]%Z) /\
  wfm (lp 5) /\ forallb (fun v => match lp_at v (bfs_level ztrue 6 (lp 5) 0 (lp_none 0 5)) with
                                 | Some z => negb (convert u8 (Z.of_nat z) =? 0)%Z | None => true end) (seq 0 5) = true.
Proof. split; [|split; [|split; [|split; [|split; [|split; [exact (proj1 lp_wf)|]]]]]]; vm_compute; reflexivity. Qed.

(** ** C134.  Every reached vertex gets the conversion of its level, whatever the type of the levels:
    refuted.  A level that converts to zero looks like no level.  On the path there and back over 257
    vertices, with levels of type [uint8_t], the vertex at distance 255 is visited a second time: its level
    256, stored as 0, becomes 2, in all five searches. *)
Theorem C134_narrow_levels_refuted :
  exists (G : lil Z) (N n v d : nat) (levels roots : bvec Z) (levels_m roots_m : lil Z),
    wfm G /\ nrows G = N /\ ncols G = N /\ (forall u v g, mget G u v = Some g -> ztrue g = true) /\
    wfv levels /\ vsize levels = N /\ (forall v, vget levels v = None) /\
    wfv roots /\ vsize roots = N /\ (forall v x, vget roots v = Some x <-> v = 0 /\ x = 1%Z) /\
    wfm levels_m /\ nrows levels_m = 1 /\ ncols levels_m = N /\ (forall r v, mget levels_m r v = None) /\
    wfm roots_m /\ nrows roots_m = 1 /\ ncols roots_m = N /\ (forall r v x, mget roots_m r v = Some x <-> r = 0 /\ v = 0 /\ x = 1%Z) /\
    N < n /\ v < N /\ at_distance (edge G) (eq 0) d v /\
    let wrong o := exists x, o = Some x /\ x <> convert u8 (Z.of_nat (S d)) in
    wrong (lp_at v (lbfs_level ztrue (scalar_of (LInt u8)) n G 0 levels)) /\
    wrong (lp_at v (lbfs_level_masked ztrue (scalar_of (LInt u8)) (scalar_of (LInt CBool)) n G roots levels)) /\
    wrong (lp_at v (lbfs_level_masked_v2 ztrue (scalar_of (LInt u8)) (scalar_of (LInt CBool)) n G roots levels)) /\
    wrong (lp_at_m v (lbatch_bfs_level_masked ztrue (scalar_of (LInt u8)) (scalar_of (LInt CBool)) n G roots_m levels_m)) /\
    wrong (lp_at_m v (lbfs_level_m ztrue (scalar_of (LInt u8)) (scalar_of (LInt CBool)) n G roots_m levels_m)).
Proof.
  exists (lp 257), 257, 300, 255, 255, (lp_none 0%Z 257), (lp_root 1%Z 257), (lil_new 1 257), (lp_root_m 1%Z 257).
  destruct lp_wf as (_ & W1 & W2 & W3 & W4).
  split; [exact W1|]. split; [reflexivity|]. split; [reflexivity|]. split; [apply lp_ones|].
  split; [exact W2|]. split; [reflexivity|]. split; [apply no_bits|].
  split; [exact W3|]. split; [reflexivity|]. split; [apply first_bit|].
  split; [split; [split; [reflexivity|repeat constructor]|vm_compute; reflexivity]|]. split; [reflexivity|]. split; [reflexivity|].
  split; [intros [|[|r]] v; reflexivity|].
  split; [exact W4|]. split; [reflexivity|]. split; [reflexivity|]. split; [apply first_root|].
  split; [lia|]. split; [lia|]. split.
  { destruct (bfs_level_ok ztrue (lp 257) 257) with (n := 300) (source := 0) (levels := lp_none 0 257)
      as (r & E & _ & _ & Hr); try reflexivity; try lia.
    - exact W1.
    - apply lp_ones.
    - split; [split|]; vm_compute; reflexivity.
    - intro v. exact (no_bits 0 257 v).
    - assert (E2 : lp_at 255 (Ok (Some r)) = Some 256) by (rewrite <- E; vm_compute; reflexivity).
      apply Hr in E2; [|lia]. destruct E2 as (d & Ed & Ha). injection Ed as Ed. rewrite <- Ed in Ha. exact Ha. }
  cbv zeta. split; [|split; [|split; [|split]]]; exists 2%Z; (split; [vm_compute; reflexivity|discriminate]).
Qed.
Print Assumptions C134_narrow_levels_refuted.
