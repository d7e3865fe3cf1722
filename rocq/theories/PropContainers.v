(** Properties of the containers: C01-C10, C49, C52. *)
From Coq Require Import Lia Permutation Sorted.
From Verif Require Import Base ModelLil ModelVec Spec ModelCalls SpecCalls
  ProofLil ProofVec ProofCalls ProofContainers.

(** A history used by the examples below: two matrices, good and throwing calls. *)
Definition ex_mhist : list (mcall Z) :=
  [MNew 2 3; MSet 0 1 2 5%Z; MSet 0 9 0 1%Z; MSetMerge 0 1 2 3%Z Z.add; MSet 0 0 1 7%Z;
   MBuild 0 Z.add [0; 0; 1] [1; 0; 2] [1%Z; 2%Z; 4%Z]; MRemove 0 0 0; MCopy 0;
   MResize 1 2 2; MNvals 0; MExtract 0 1 2; MEq 0 1; MExtract 0 0 0; MTuples 1; MNvals 1].

(** ** C01 *)
Theorem C01_matrix_nvals_exact :
  forall (T : Type) (eqb : T -> T -> bool) (cs : list (mcall T)) (k : nat) (M : lil T),
    nth_error (fst (run (mstep eqb) [] cs)) k = Some M ->
    nvals M = Z.of_nat (mcount (nrows M) (ncols M) (mhas M)) /\
    forall i j v, In (i, j, v) (lil_extractTuples M) -> i < nrows M /\ j < ncols M.
Proof.
  exact (fun T eqb cs k M H =>
    conj (wfm_count_has M (reach_wfm eqb cs k M H))
         (fun i j v => wfm_no_outside M i j v (reach_wfm eqb cs k M H))).
Qed.
Print Assumptions C01_matrix_nvals_exact.

Example C01_example :
  option_map nvals (nth_error (fst (run (mstep Z.eqb) [] ex_mhist)) 0) = Some 2%Z /\
  option_map nvals (nth_error (fst (run (mstep Z.eqb) [] ex_mhist)) 1) = Some 1%Z.
Proof. split; reflexivity. Qed.

(** ** C02: every outcome (value, exception) of every call of every history is the one
    of the partial-map specification [sstep]. *)
Theorem C02_matrix_refines_map :
  forall (T : Type) (eqb : T -> T -> bool) (cs : list (mcall T)),
    (forall c, In c cs -> is_meq c = true -> forall a b, eqb a b = true <-> a = b) ->
    snd (run (mstep eqb) [] cs) = snd (run (sstep eqb) [] cs).
Proof. exact (fun T eqb cs H => proj2 (mrun_same eqb cs H)). Qed.
Print Assumptions C02_matrix_refines_map.

Example C02_example :
  (forall c, In c ex_mhist -> is_meq c = true -> forall a b, Z.eqb a b = true <-> a = b) /\
  skipn 9 (snd (run (sstep Z.eqb) [] ex_mhist)) =
    [Ok (ANum 2); Ok (AVal 12%Z); Ok (ABool false); Throw NoValueException;
     Ok (ATuples [(0, 1, 8%Z)]); Ok (ANum 1)].
Proof. split; [intros; apply Z.eqb_eq|reflexivity]. Qed.

(** ** C03 *)
Definition ex_vhist : list (vcall Z) :=
  [VNew 4; VSet 0 2 5%Z; VSet 0 4 1%Z; VBuild 0 Z.add [3; 1; 3] [1%Z; 2%Z; 4%Z];
   VFill 3 9%Z; VResize 1 5; VRemove 1 0; VHas 1 0; VExtract 1 2; VExtract 1 4;
   VResize 0 0; VTuples 0; VAssign 0 1].

Theorem C03_vector_refines_map :
  forall (T : Type) (dflt : T) (eqb : T -> T -> bool) (cs : list (vcall T)),
    Forall velem_call cs ->
    snd (run (vstep dflt eqb) [] cs) = snd (run (svstep eqb) [] cs).
Proof.
  exact (fun T dflt eqb cs H => proj2 (vrun_same dflt eqb false cs H
    (fun c Hc E => match c as c' return velem_call c' -> is_veq c' = true -> _ with
                   | VEq _ _ => fun F => match F with end
                   | _ => fun _ E => match Bool.diff_false_true E with end
                   end (proj1 (Forall_forall _ _) H c Hc) E))).
Qed.
Print Assumptions C03_vector_refines_map.

Example C03_example :
  Forall velem_call ex_vhist /\
  skipn 7 (snd (run (svstep Z.eqb) [] ex_vhist)) =
    [Ok (ABool false); Ok (AVal 9%Z); Throw NoValueException; Throw InvalidValueException;
     Ok (ATuples [(0, 1, 2%Z); (0, 3, 5%Z)]); Throw DimensionException].
Proof. split; [repeat constructor|reflexivity]. Qed.

(** ** C04 *)
Theorem C04_vector_nvals_exact_partial :
  forall (T : Type) (dflt : T) (eqb : T -> T -> bool) (cs : list (vcall T)) (k : nat) (w : bvec T),
    Forall vclean_call cs ->
    nth_error (fst (run (vstep dflt eqb) [] cs)) k = Some w ->
    vnvals w = Z.of_nat (vcount (vsize w) (vhas w)).
Proof. exact (fun T dflt eqb cs k w P H => wfv_count_has w (reach_wfv dflt eqb cs k w P H)). Qed.
Print Assumptions C04_vector_nvals_exact_partial.

Example C04_example :
  let cs := [VDenseZero [0%Z; 3%Z; 0%Z; 4%Z] 0%Z; VSet 0 0 1%Z; VSet 0 0 2%Z; VRemove 0 1;
             VResize 0 2; VResize 0 6; VBuild 0 Z.add [5; 2] [7%Z; 8%Z]; VSet 0 9 0%Z] in
  Forall vclean_call cs /\
  option_map vnvals (nth_error (fst (run (vstep 0%Z Z.eqb) [] cs)) 0) = Some 2%Z.
Proof. split; [repeat constructor; simpl; lia|reflexivity]. Qed.

(** The full statement fails: after [build] with a duplicate index, and after the fill
    constructor, the count is wrong. *)
Theorem C04_vector_nvals_exact_refuted :
  (exists (cs : list (vcall Z)) (k : nat) (w : bvec Z),
     (forall c, In c cs -> match c with VFill _ _ => False | _ => True end) /\
     nth_error (fst (run (vstep 0%Z Z.eqb) [] cs)) k = Some w /\
     vnvals w <> Z.of_nat (vcount (vsize w) (vhas w))) /\
  (exists (cs : list (vcall Z)) (k : nat) (w : bvec Z),
     (forall c, In c cs -> match c with VBuild _ _ _ _ => False | _ => True end) /\
     nth_error (fst (run (vstep 0%Z Z.eqb) [] cs)) k = Some w /\
     vnvals w <> Z.of_nat (vcount (vsize w) (vhas w))).
Proof.
  split.
  - exists [VNew 3; VBuild 0 Z.add [1; 1] [2%Z; 3%Z]], 0, (mkVec 3 2 [0%Z; 5%Z; 0%Z] [false; true; false]).
    split; [intros c [<-|[<-|[]]]; exact I|]. split; [reflexivity|]. vm_compute. discriminate.
  - exists [VFill 3 7%Z], 0, (mkVec 3 0 [7%Z; 7%Z; 7%Z] [true; true; true]).
    split; [intros c [<-|[]]; exact I|]. split; [reflexivity|]. vm_compute. discriminate.
Qed.
Print Assumptions C04_vector_nvals_exact_refuted.

(** ** C05 *)
Theorem C05_matrix_eq_extensional :
  forall (T : Type) (eqb : T -> T -> bool) (cs : list (mcall T)) (a b : nat) (A B : lil T),
    (forall x y, eqb x y = true <-> x = y) ->
    nth_error (fst (run (mstep eqb) [] cs)) a = Some A ->
    nth_error (fst (run (mstep eqb) [] cs)) b = Some B ->
    (lil_eqb eqb A B = true <->
     nrows A = nrows B /\ ncols A = ncols B /\
     forall i j, i < nrows A -> j < ncols A -> lil_extractElement A i j = lil_extractElement B i j).
Proof.
  exact (fun T eqb cs a b A B He HA HB =>
    lil_eqb_extensional eqb A B He (reach_wfm eqb cs a A HA) (reach_wfm eqb cs b B HB)).
Qed.
Print Assumptions C05_matrix_eq_extensional.

Example C05_example :
  let cs := [MNew 2 2; MNew 2 2; MSet 0 0 1 5%Z; MSet 0 1 1 6%Z; MSet 1 1 1 6%Z; MSet 1 1 0 1%Z;
             MSet 1 0 1 5%Z; MEq 0 1; MRemove 1 1 0; MEq 0 1] in
  nth 7 (snd (run (mstep Z.eqb) [] cs)) UB = Ok (ABool false) /\
  nth 9 (snd (run (mstep Z.eqb) [] cs)) UB = Ok (ABool true).
Proof. split; reflexivity. Qed.

(** ** C06 *)
Theorem C06_vector_eq_extensional_partial :
  forall (T : Type) (dflt : T) (eqb : T -> T -> bool) (cs : list (vcall T)) (a b : nat) (u v : bvec T),
    (forall x y, eqb x y = true <-> x = y) ->
    Forall vclean_call cs ->
    nth_error (fst (run (vstep dflt eqb) [] cs)) a = Some u ->
    nth_error (fst (run (vstep dflt eqb) [] cs)) b = Some v ->
    exists r, vec_eqb eqb u v = Ok r /\
    (r = true <-> vsize u = vsize v /\
       forall i, i < vsize u -> vec_extractElement u i = vec_extractElement v i).
Proof.
  exact (fun T dflt eqb cs a b u v He P Hu Hv =>
    vec_eqb_extensional eqb u v He (reach_wfv dflt eqb cs a u P Hu) (reach_wfv dflt eqb cs b v P Hv)).
Qed.
Print Assumptions C06_vector_eq_extensional_partial.

(** Values left behind in unstored slots do not matter. *)
Example C06_example :
  let cs := [VNew 2; VNew 2; VSet 0 0 5%Z; VSet 1 0 5%Z; VSet 1 1 9%Z; VEq 0 1; VRemove 1 1; VEq 0 1] in
  Forall vclean_call cs /\
  nth 5 (snd (run (vstep 0%Z Z.eqb) [] cs)) UB = Ok (ABool false) /\
  nth 7 (snd (run (vstep 0%Z Z.eqb) [] cs)) UB = Ok (ABool true).
Proof. split; [repeat constructor|split; reflexivity]. Qed.

(** The full statement fails: vectors with the same stored elements compare unequal. *)
Theorem C06_vector_eq_extensional_refuted :
  exists (cs : list (vcall Z)) (u v : bvec Z),
    nth_error (fst (run (vstep 0%Z Z.eqb) [] cs)) 0 = Some u /\
    nth_error (fst (run (vstep 0%Z Z.eqb) [] cs)) 1 = Some v /\
    vsize u = vsize v /\
    (forall i, i < vsize u -> vec_extractElement u i = vec_extractElement v i) /\
    vec_eqb Z.eqb u v = Ok false.
Proof.
  exists [VNew 2; VNew 2; VBuild 0 Z.add [1; 1] [2%Z; 3%Z]; VBuild 1 Z.add [1] [5%Z]],
    (mkVec 2 2 [0%Z; 5%Z] [false; true]), (mkVec 2 1 [0%Z; 5%Z] [false; true]).
  repeat split.
Qed.
Print Assumptions C06_vector_eq_extensional_refuted.

(** ** C07 *)
Theorem C07_matrix_tuples_roundtrip :
  forall (T : Type) (M : lil T), wfm M ->
    StronglySorted pos_lt (lil_extractTuples M) /\
    Z.of_nat (length (lil_extractTuples M)) = nvals M /\
    (forall i j v, In (i, j, v) (lil_extractTuples M) <-> mget M i j = Some v) /\
    forall dup ts, Permutation ts (lil_extractTuples M) ->
      lil_build dup (lil_new (nrows M) (ncols M)) ts = (M, Ok tt).
Proof.
  exact (fun T M W => conj (tuples_sorted M W) (conj (tuples_length M W)
    (conj (fun i j v => tuples_In M i j v W) (fun dup ts P => build_roundtrip dup M ts W P)))).
Qed.
Print Assumptions C07_matrix_tuples_roundtrip.

Theorem C07_vector_tuples_roundtrip :
  forall (T : Type) (dflt : T) (dup : T -> T -> T) (w : bvec T), wfv w ->
    exists c, vec_extractTuples w = Ok c /\
      StronglySorted idx_lt c /\ Z.of_nat (length c) = vnvals w /\
      (forall i v, In (i, v) c <-> vget w i = Some v) /\
      forall (w0 : bvec T) (ts : list (nat * T)), Permutation ts c -> vsize w0 = vsize w ->
        exists w', vec_build dflt dup w0 ts = Ok w' /\ wfv w' /\ vsize w' = vsize w /\
          vnvals w' = vnvals w /\ forall i, vget w' i = vget w i.
Proof.
  intros T dflt dup w W. destruct (getContents_ok w (proj1 W)) as (c & E & _). exists c.
  change (vec_extractTuples w = Ok c) in E.
  destruct (vec_roundtrip dflt dup w w c c W E (Permutation_refl c) eq_refl) as (A & B & C & _).
  split; [exact E|]. split; [exact A|]. split; [exact B|]. split; [exact C|].
  intros w0 ts P S0. apply (vec_roundtrip dflt dup w w0 c ts W E P S0).
Qed.
Print Assumptions C07_vector_tuples_roundtrip.

Example C07_example :
  let M := mkLil 2 3 3 [[(0, 4%Z); (2, 5%Z)]; [(1, 6%Z)]] in
  let w := mkVec 3 2 [1%Z; 2%Z; 3%Z] [true; false; true] in
  wfm M /\ lil_extractTuples M = [(0, 0, 4%Z); (0, 2, 5%Z); (1, 1, 6%Z)] /\
  Permutation [(1, 1, 6%Z); (0, 0, 4%Z); (0, 2, 5%Z)] (lil_extractTuples M) /\
  wfv w /\ vec_extractTuples w = Ok [(0, 1%Z); (2, 3%Z)].
Proof.
  split; [split; [split; [reflexivity|repeat constructor]|reflexivity]|].
  split; [reflexivity|]. split; [apply Permutation_cons_append|].
  split; [split; [split; reflexivity|reflexivity]|reflexivity].
Qed.

(** ** C08 *)
Theorem C08_matrix_build_dup_fold :
  forall (T : Type) (dup : T -> T -> T) (nr nc : nat) (ts : list (nat * nat * T)),
    Forall (fun '(i, j, _) => i < nr /\ j < nc) ts ->
    exists M', lil_build dup (lil_new nr nc) ts = (M', Ok tt) /\ wfm M' /\
      nrows M' = nr /\ ncols M' = nc /\
      forall i j, mget M' i j =
        match map snd (filter (fun '(i', j', _) => (i' =? i) && (j' =? j)) ts) with
        | [] => None
        | v1 :: vs => Some (fold_left dup vs v1)
        end.
Proof. exact (fun T => build_fold). Qed.
Print Assumptions C08_matrix_build_dup_fold.

Theorem C08_vector_build_dup_fold :
  forall (T : Type) (dflt : T) (dup : T -> T -> T) (w : bvec T) (ts : list (nat * T)),
    Forall (fun t => fst t < vsize w) ts ->
    exists w', vec_build dflt dup w ts = Ok w' /\ wfv0 w' /\ vsize w' = vsize w /\
      forall i, vget w' i =
        match map snd (filter (fun t => fst t =? i) ts) with
        | [] => None
        | v1 :: vs => Some (fold_left dup vs v1)
        end.
Proof. exact (fun T => vec_build_fold). Qed.
Print Assumptions C08_vector_build_dup_fold.

Example C08_example :
  let ts := [(1, 0, 10%Z); (0, 1, 3%Z); (1, 0, 4%Z); (1, 0, 1%Z)] in
  Forall (fun '(i, j, _) => i < 2 /\ j < 2) ts /\
  mget (fst (lil_build Z.sub (lil_new 2 2) ts)) 1 0 = Some 5%Z /\
  mget (fst (lil_build Z.sub (lil_new 2 2) ts)) 0 1 = Some 3%Z.
Proof. split; [repeat constructor; lia|split; reflexivity]. Qed.

(** ** C09 *)
Theorem C09_matrix_resize :
  forall (T : Type) (M : lil T) (nr nc : nat), wfm M ->
    wfm (lil_resize M nr nc) /\ nrows (lil_resize M nr nc) = nr /\
    ncols (lil_resize M nr nc) = nc /\
    (forall i j, mget (lil_resize M nr nc) i j =
      if (i <? nr) && (j <? nc) then mget M i j else None) /\
    (nrows M <= nr -> ncols M <= nc ->
     lil_resize (lil_resize M nr nc) (nrows M) (ncols M) = M).
Proof.
  exact (fun T M nr nc W => match resize_ok M nr nc W with
    | conj a (conj b (conj c d)) => conj a (conj b (conj c (conj d (resize_back M nr nc W)))) end).
Qed.
Print Assumptions C09_matrix_resize.

Theorem C09_vector_resize :
  forall (T : Type) (dflt : T) (w : bvec T) (n : nat), wfv w ->
    wfv (vec_resize dflt w n) /\ vsize (vec_resize dflt w n) = n /\
    (forall i, vget (vec_resize dflt w n) i = if i <? n then vget w i else None) /\
    (vsize w <= n ->
     let w' := vec_resize dflt (vec_resize dflt w n) (vsize w) in
     vsize w' = vsize w /\ vnvals w' = vnvals w /\ forall i, vget w' i = vget w i).
Proof.
  exact (fun T dflt w n W => match vec_resize_ok dflt w n (proj1 W) with
    | conj a (conj b (conj c d)) => conj (d W) (conj b (conj c (vresize_back dflt w n W))) end).
Qed.
Print Assumptions C09_vector_resize.

Example C09_example :
  let M := mkLil 2 3 3 [[(0, 4%Z); (2, 5%Z)]; [(1, 6%Z)]] in
  let w := mkVec 3 2 [1%Z; 2%Z; 3%Z] [true; false; true] in
  wfm M /\ lil_resize M 3 2 = mkLil 3 2 2 [[(0, 4%Z)]; [(1, 6%Z)]; []] /\
  wfv w /\ vnvals (vec_resize 0%Z w 2) = 1%Z.
Proof.
  split; [split; [split; [reflexivity|repeat constructor]|reflexivity]|].
  split; [reflexivity|]. split; [split; [split; reflexivity|reflexivity]|reflexivity].
Qed.

(** ** C10 *)
Theorem C10_vector_build_atomic_partial :
  forall (T : Type) (dflt : T) (eqb : T -> T -> bool) (st : list (bvec T)) (k : nat) (w : bvec T)
         (dup : T -> T -> T) (is : list nat) (vs : list T) (i : nat),
    nth_error st k = Some w -> length is = length vs -> In i is -> vsize w <= i ->
    vstep dflt eqb st (VBuild k dup is vs) = (st, Throw IndexOutOfBoundsException).
Proof. exact (fun T => vec_build_atomic). Qed.
Print Assumptions C10_vector_build_atomic_partial.

Example C10_example :
  let w := mkVec 3 1 [0%Z; 5%Z; 0%Z] [false; true; false] in
  nth_error [w] 0 = Some w /\ length [0; 3] = length [1%Z; 2%Z] /\ In 3 [0; 3] /\ vsize w <= 3.
Proof. split; [reflexivity|]. split; [reflexivity|]. split; simpl; auto. Qed.

(** The matrix half fails: the tuples before the bad one stay. *)
Theorem C10_matrix_build_atomic_refuted :
  exists (M M' : lil Z) (ts : list (nat * nat * Z)),
    wfm M /\ lil_build Z.add M ts = (M', Throw IndexOutOfBoundsException) /\ M' <> M.
Proof.
  exists (lil_new 2 2), (mkLil 2 2 1 [[(1, 5%Z)]; []]), [(0, 1, 5%Z); (2, 0, 1%Z)].
  split; [apply lil_new_wf|]. split; [reflexivity|]. discriminate.
Qed.
Print Assumptions C10_matrix_build_atomic_refuted.

(** ** C49 *)
Theorem C49_matrix_dense :
  forall (T : Type) (keep : T -> bool) (v0 : list T) (vs : list (list T)),
    (Forall (fun r => length r = length v0) vs ->
     exists M, lil_dense keep (v0 :: vs) = Ok M /\ wfm M /\
       nrows M = S (length vs) /\ ncols M = length v0 /\
       forall i j, mget M i j =
         match nth_error (nth i (v0 :: vs) []) j with
         | Some v => if keep v then Some v else None
         | None => None
         end) /\
    (~ Forall (fun r => length r = length v0) vs ->
     lil_dense keep (v0 :: vs) = Throw DimensionException).
Proof. exact (fun T => dense_split). Qed.
Print Assumptions C49_matrix_dense.

Theorem C49_vector_dense :
  forall (T : Type) (dflt : T) (keep : T -> bool) (vs : list T), vs <> [] ->
    (exists w, vec_dense vs = Ok w /\ wfv w /\ vsize w = length vs /\
       forall i, vget w i = nth_error vs i) /\
    (exists w, vec_dense_zero dflt keep vs = Ok w /\ wfv w /\ vsize w = length vs /\
       forall i, vget w i = match nth_error vs i with
                            | Some v => if keep v then Some v else None
                            | None => None
                            end).
Proof. exact (fun T dflt keep vs H => conj (vec_dense_ok vs H) (vec_dense_zero_ok dflt keep vs H)). Qed.
Print Assumptions C49_vector_dense.

Example C49_example :
  lil_dense (fun v => negb (Z.eqb v 0)) [[0%Z; 3%Z]; [4%Z; 0%Z]] =
    Ok (mkLil 2 2 2 [[(1, 3%Z)]; [(0, 4%Z)]]) /\
  Forall (fun r => length r = length [0%Z; 3%Z]) [[4%Z; 0%Z]] /\
  ~ Forall (fun r => length r = length [0%Z; 3%Z]) [[4%Z]].
Proof.
  split; [reflexivity|]. split; [repeat constructor|].
  intro H. inversion H. discriminate.
Qed.

(** ** C52 *)
Theorem C52_swap_partial :
  forall (T : Type) (M R : lil T), wfm M -> wfm R -> nrows M = nrows R -> ncols M = ncols R ->
    exists R', lil_swap M R = Ok (R, R') /\
      nrows R' = nrows M /\ ncols R' = ncols M /\ (forall i j, mget R' i j = mget M i j) /\
      (nvals M = nvals R -> R' = M).
Proof. exact (fun T => swap_partial). Qed.
Print Assumptions C52_swap_partial.

(** The count of the right-hand side is not exchanged. *)
Theorem C52_swap_refuted :
  exists (M R R' : lil Z), wfm M /\ wfm R /\ nrows M = nrows R /\ ncols M = ncols R /\
    lil_swap M R = Ok (R, R') /\ R' <> M /\
    nvals R' <> Z.of_nat (mcount (nrows R') (ncols R') (mget R')).
Proof.
  exists (mkLil 1 2 1 [[(0, 5%Z)]]), (lil_new 1 2), (mkLil 1 2 0 [[(0, 5%Z)]]).
  split; [split; [split; [reflexivity|repeat constructor]|reflexivity]|].
  split; [apply lil_new_wf|]. repeat split; vm_compute; discriminate.
Qed.
Print Assumptions C52_swap_refuted.

Example C52_example :
  let M := mkLil 1 2 1 [[(0, 5%Z)]] in let R := mkLil 1 2 1 [[(1, 6%Z)]] in
  wfm M /\ wfm R /\ lil_swap M R = Ok (R, M).
Proof.
  split; [split; [split; [reflexivity|repeat constructor]|reflexivity]|].
  split; [split; [split; [reflexivity|repeat constructor]|reflexivity]|reflexivity].
Qed.
