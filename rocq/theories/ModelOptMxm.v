(** Model of the matrix-matrix product of the optimized_sequential platform.
    /repo/src/graphblas/platforms/optimized_sequential/sparse_mxm.hpp, sparse_mxm_AB.hpp,
    sparse_mxm_ABT.hpp, sparse_mxm_ATB.hpp, sparse_mxm_ATBT.hpp and the helpers at the end of
    sparse_helpers.hpp.  All other files of that platform are those of the sequential one. *)
From Verif Require Import Base ModelLil ModelVec ModelHelpers ModelViews.

(** An operand object.  The code works in place on the output and tests whether an operand
    is the same object: [Other X] is a different object with contents [X]; [TheOutput v] is
    the output object itself ([v] is the identity: both then have the same scalar type). *)
Inductive obj (TC TX : Type) : Type :=
| Other (X : lil TX)
| TheOutput (v : TC -> TX).
Arguments Other {TC TX} X.
Arguments TheOutput {TC TX} v.

(** The test that the addresses of the output and of the operand are equal. *)
Definition is_output {TC TX : Type} (o : obj TC TX) : bool :=
  match o with Other _ => false | TheOutput _ => true end.

(** The operand's contents while the output holds [C]. *)
Definition now {TC TX : Type} (C : lil TC) (o : obj TC TX) : lil TX :=
  match o with
  | Other X => X
  | TheOutput v => mkLil (nrows C) (ncols C) (nvals C) (map (cast_row v) (data C))
  end.

(** The same operand seen from a kernel whose output is a new temporary. *)
Definition fixed {TC TX TO : Type} (C : lil TC) (o : obj TC TX) : obj TO TX := Other (now C o).

(** ** Row helpers with a mask row: [sf] is [structure_flag], [cf] is [complement_flag]. *)
Section Rows.
Context {TM : Type} (truthy : TM -> bool) (sf cf : bool).

(** The result of [advance_and_check_mask_iterator], sparse_helpers.hpp:1316-1332, for an
    iterator that [advance_and_check_tuple_iterator] has moved to [m]. *)
Definition mask_at (m : row TM) (j : nat) : bool :=
  match m with
  | [] => false
  | (k, v) :: _ => (k =? j) && (sf || truthy v)
  end.

(** [masked_axpy], sparse_helpers.hpp:1416-1475, the loop; [c] and [m] are the suffixes the
    two iterators point to. *)
Fixpoint masked_axpy_loop {TA TB TT : Type} (add : TT -> TT -> TT) (mult : TA -> TB -> TT)
    (a : TA) (c : row TT) (m : row TM) (b : row TB) : row TT :=
  match b with
  | [] => c
  | (j, bj) :: b' =>
      let m' := drop_below m j in
      if Bool.eqb (mask_at m' j) cf then masked_axpy_loop add mult a c m' b' else
      let t := mult a bj in
      take_below c j
      ++ match drop_below c j with
         | (k, y) :: c' =>
             if k =? j then (k, add y t) :: masked_axpy_loop add mult a c' m' b'
             else (j, t) :: masked_axpy_loop add mult a ((k, y) :: c') m' b'
         | [] => (j, t) :: masked_axpy_loop add mult a [] m' b'
         end
  end.

Definition masked_axpy {TA TB TT : Type} (add : TT -> TT -> TT) (mult : TA -> TB -> TT)
    (a : TA) (c : row TT) (m : row TM) (b : row TB) : row TT :=
  if empty m && cf then axpy add mult a c b else masked_axpy_loop add mult a c m b.

(** [masked_accum], sparse_helpers.hpp:1482-1552. *)
Fixpoint masked_accum {TC TT TZ : Type} (f : TC -> TT -> TZ) (cz : TC -> TZ) (tz : TT -> TZ)
    (t : row TT) : row TM -> row TC -> row TZ :=
  fix aux (m : row TM) (c : row TC) : row TZ :=
    match t, c with
    | (ti, tv) :: t', (ci, cv) :: c' =>
        if ti <? ci then (ti, tz tv) :: masked_accum f cz tz t' m c
        else if ci <? ti then
          let m' := drop_below m ci in
          if Bool.eqb (mask_at m' ci) cf then aux m' c' else (ci, cz cv) :: aux m' c'
        else (ti, f cv tv) :: masked_accum f cz tz t' m c'
    | (ti, tv) :: t', [] => (ti, tz tv) :: masked_accum f cz tz t' m []
    | [], (ci, cv) :: c' =>
        let m' := drop_below m ci in
        if Bool.eqb (mask_at m' ci) cf then aux m' c' else (ci, cz cv) :: aux m' c'
    | [], [] => []
    end.

(** [masked_merge], sparse_helpers.hpp:1562-1616: the inner loop 1585-1595, with the
    elements copied, the mask iterator and the iterator of [ci] afterwards; ... *)
Fixpoint merge_below {TC : Type} (nz : nat) (m : row TM) (ci : row TC)
  : row TC * row TM * row TC :=
  match ci with
  | [] => ([], m, [])
  | (k, v) :: ci' =>
      if k <? nz then
        let m' := drop_below m k in
        let '(o, m2, r) := merge_below nz m' ci' in
        (if Bool.eqb (mask_at m' k) cf then (k, v) :: o else o, m2, r)
      else ([], m, ci)
  end.

(** ... the loop over [z], 1582-1597; ... *)
Fixpoint merge_loop {TC TZ : Type} (zc : TZ -> TC) (z : row TZ) (m : row TM) (ci : row TC)
  : row TC * row TM * row TC :=
  match z with
  | [] => ([], m, ci)
  | (nz, x) :: z' =>
      let '(o, m1, c1) := merge_below nz m ci in
      let '(o2, m2, c2) := merge_loop zc z' m1 c1 in
      (o ++ (nz, zc x) :: o2, m2, c2)
  end.

(** ... the last loop, 1605-1614; ... *)
Fixpoint merge_rest {TC : Type} (m : row TM) (ci : row TC) : row TC :=
  match ci with
  | [] => []
  | (k, v) :: ci' =>
      let m' := drop_below m k in
      if Bool.eqb (mask_at m' k) cf then (k, v) :: merge_rest m' ci' else merge_rest m' ci'
  end.

(** ... and the whole function; 1600-1603 skips the indices up to the last one of [z]. *)
Definition masked_merge {TC TZ : Type} (zc : TZ -> TC) (m : row TM) (ci : row TC) (z : row TZ)
  : row TC :=
  let '(o, m', c') := merge_loop zc z m ci in
  o ++ merge_rest m' (match rev z with
                      | [] => c'
                      | (nz, _) :: _ => drop_below c' (S nz)
                      end).

(** The mask loop at sparse_mxm_ATBT.hpp:256-267 and its copies (357-367, 455-466, 555-565,
    the last two with the negated test, i.e. [cf = true]). *)
Fixpoint mask_row_loop {TT TO : Type} (g : TT -> TO) (m : row TM) (t : row TT) : row TO :=
  match t with
  | [] => []
  | (j, v) :: t' =>
      let m' := drop_below m j in
      if Bool.eqb (mask_at m' j) cf then mask_row_loop g m' t' else (j, g v) :: mask_row_loop g m' t'
  end.
End Rows.

Section Opt.
Context {TA TB TT TC TM TZ : Type}.
(** [mult] is called with an element of [A] and one of [B]; [multA] is the same operator
    called with two values of [A]'s type, and [cb] the conversion from [B]'s to [A]'s type:
    both are used by A' * B' only.  [tc]: conversion of a result to the output's type;
    [ct]: conversion of an output value to the type the accumulator expects. *)
Context (add : TT -> TT -> TT) (mult : TA -> TB -> TT) (multA : TA -> TA -> TT) (cb : TB -> TA).
Context (truthy : TM -> bool) (tc : TT -> TC) (ct : TC -> TT) (zc : TZ -> TC).

(** ** A * B *)

(** One row of the product, sparse_mxm_AB.hpp:72-82 (and 109-119). *)
Definition AB_row (B : lil TB) (ra : row TA) : res (row TT) :=
  mfor ra
    (fun p t =>
       rb <- getrow B (fst p) ;;
       if empty rb then Ok t else Ok (axpy add mult (snd p) t rb))
    [].

(** The same under a mask row, 153-165 (213-225, 283-295, 343-355). *)
Definition AB_masked_row (sf cf : bool) (B : lil TB) (rm : row TM) (ra : row TA) : res (row TT) :=
  mfor ra
    (fun p t =>
       rb <- getrow B (fst p) ;;
       if empty rb then Ok t else Ok (masked_axpy truthy sf cf add mult (snd p) t rm rb))
    [].

(** [AB_NoMask_NoAccum_kernel], 61-87; [to] converts to the scalar type of its output. *)
Definition AB_NoMask_NoAccum_kernel {TO : Type} (to : TT -> TO) (C : lil TO)
    (A : obj TO TA) (B : obj TO TB) : res (lil TO) :=
  mfor (seq 0 (nrows (now C A)))
    (fun i C =>
       ra <- getrow (now C A) i ;;
       t <- AB_row (now C B) ra ;;
       setRow to C i t)
    C.

(** [AB_NoMask_Accum_kernel], 96-127. *)
Definition AB_NoMask_Accum_kernel (f : TC -> TT -> TZ) (C : lil TC) (A : obj TC TA) (B : obj TC TB)
  : res (lil TC) :=
  mfor (seq 0 (nrows (now C A)))
    (fun i C =>
       ra <- getrow (now C A) i ;;
       t <- AB_row (now C B) ra ;;
       if empty t then Ok C else mergeRow tc (fun c x => zc (f c x)) C i t)
    C.

(** [AB_Mask_NoAccum_kernel], 135-186. *)
Definition AB_Mask_NoAccum_kernel {TO : Type} (to : TT -> TO) (sf : bool) (outp : outmode)
    (C : lil TO) (M : obj TO TM) (A : obj TO TA) (B : obj TO TB) : res (lil TO) :=
  mfor (seq 0 (nrows (now C A)))
    (fun i C =>
       rm <- getrow (now C M) i ;;
       t <- (if empty rm then Ok []
             else ra <- getrow (now C A) i ;; AB_masked_row sf false (now C B) rm ra) ;;
       match outp with
       | REPLACE => setRow to C i t
       | MERGE => c <- getrow C i ;;
                  setRow (fun x => x) C i (masked_merge truthy sf false to rm c t)
       end)
    C.

(** The last part of the accumulating kernels: [masked_accum] and then [setRow] of its
    result, or of its [masked_merge] with the old row (AB 228-250). *)
Definition accum_row (f : TC -> TT -> TZ) (cz : TC -> TZ) (tz : TT -> TZ) (sf cf : bool)
    (replace : bool) (C : lil TC) (i : nat) (rm : row TM) (t : row TT) : res (lil TC) :=
  c <- getrow C i ;;
  let z := masked_accum truthy sf cf f cz tz t rm c in
  if replace then setRow zc C i z
  else setRow (fun x => x) C i (masked_merge truthy sf cf zc rm c z).

Definition is_replace (outp : outmode) : bool :=
  match outp with REPLACE => true | MERGE => false end.

(** [AB_Mask_Accum_kernel], 195-252. *)
Definition AB_Mask_Accum_kernel (f : TC -> TT -> TZ) (cz : TC -> TZ) (tz : TT -> TZ) (sf : bool)
    (outp : outmode) (C : lil TC) (M : obj TC TM) (A : obj TC TA) (B : obj TC TB)
  : res (lil TC) :=
  mfor (seq 0 (nrows (now C A)))
    (fun i C =>
       rm <- getrow (now C M) i ;;
       t <- (if empty rm then Ok []
             else ra <- getrow (now C A) i ;; AB_masked_row sf false (now C B) rm ra) ;;
       accum_row f cz tz sf false (is_replace outp) C i rm t)
    C.

(** [AB_CompMask_NoAccum_kernel], 263-313. *)
Definition AB_CompMask_NoAccum_kernel {TO : Type} (to : TT -> TO) (sf : bool) (outp : outmode)
    (C : lil TO) (M : obj TO TM) (A : obj TO TA) (B : obj TO TB) : res (lil TO) :=
  mfor (seq 0 (nrows (now C A)))
    (fun i C =>
       ra <- getrow (now C A) i ;;
       rm <- getrow (now C M) i ;;
       t <- AB_masked_row sf true (now C B) rm ra ;;
       if is_replace outp || empty rm then setRow to C i t
       else c <- getrow C i ;;
            setRow (fun x => x) C i (masked_merge truthy sf true to rm c t))
    C.

(** [AB_CompMask_Accum_kernel], 322-380. *)
Definition AB_CompMask_Accum_kernel (f : TC -> TT -> TZ) (cz : TC -> TZ) (tz : TT -> TZ)
    (sf : bool) (outp : outmode) (C : lil TC) (M : obj TC TM) (A : obj TC TA) (B : obj TC TB)
  : res (lil TC) :=
  mfor (seq 0 (nrows (now C A)))
    (fun i C =>
       ra <- getrow (now C A) i ;;
       rm <- getrow (now C M) i ;;
       t <- AB_masked_row sf true (now C B) rm ra ;;
       accum_row f cz tz sf true (is_replace outp || empty rm) C i rm t)
    C.

(** [C.swap(Ctmp)] or the merge loop, the end of the branches for [&C == &B] without
    accumulator (AB 508-523, 655-672; ABT the same). *)
Definition finish_tmp (sf cf : bool) (outp : outmode) (C : lil TC) (M : obj TC TM) (Ctmp : lil TC)
  : res (lil TC) :=
  match outp with
  | REPLACE => res_map fst (lil_swap C Ctmp)
  | MERGE =>
      mfor (seq 0 (nrows C))
        (fun i C =>
           rm <- getrow (now C M) i ;;
           c <- getrow C i ;;
           t <- getrow Ctmp i ;;
           setRow (fun x => x) C i (masked_merge truthy sf cf (fun x => x) rm c t))
        C
  end.

(** The loops [masked_accum] and [setRow]/[masked_merge] over all rows of a computed
    product (AB 580-604, 730-754; ATB 326-349). *)
Definition finish_accum (f : TC -> TT -> TZ) (cz : TC -> TZ) (tz : TT -> TZ) (sf cf : bool)
    (replace : row TM -> bool) (C : lil TC) (M : obj TC TM) (T : lil TT) : res (lil TC) :=
  mfor (seq 0 (nrows C))
    (fun i C =>
       rm <- getrow (now C M) i ;;
       t <- getrow T i ;;
       accum_row f cz tz sf cf (replace rm) C i rm t)
    C.

(** [C.mergeRow(i, Ctmp[i], accum)] over all rows (AB 447-452; ABT 489-493): the temporary
    has the output's scalar type. *)
Definition merge_tmp (f : TC -> TT -> TZ) (C Ctmp : lil TC) : res (lil TC) :=
  mfor (seq 0 (nrows C))
    (fun i C => t <- getrow Ctmp i ;; mergeRow (fun x => x) (fun c x => zc (f c (ct x))) C i t)
    C.

(** [sparse_mxm_NoMask_NoAccum_AB], 391-420. *)
Definition mxm_NoMask_NoAccum_AB (C : lil TC) (A : obj TC TA) (B : obj TC TB) : res (lil TC) :=
  if negb (has_vals (nvals (now C A))) || negb (has_vals (nvals (now C B)))
  then Ok (lil_clear C)
  else if is_output B then
    Ctmp <- AB_NoMask_NoAccum_kernel tc (lil_new (nrows C) (ncols C)) (fixed C A) (fixed C B) ;;
    res_map fst (lil_swap C Ctmp)
  else AB_NoMask_NoAccum_kernel tc C A B.

(** [sparse_mxm_NoMask_Accum_AB], 428-460. *)
Definition mxm_NoMask_Accum_AB (f : TC -> TT -> TZ) (C : lil TC) (A : obj TC TA) (B : obj TC TB)
  : res (lil TC) :=
  if negb (has_vals (nvals (now C A))) || negb (has_vals (nvals (now C B)))
  then Ok C
  else if is_output B then
    Ctmp <- AB_NoMask_NoAccum_kernel tc (lil_new (nrows C) (ncols C)) (fixed C A) (fixed C B) ;;
    merge_tmp f C Ctmp
  else AB_NoMask_Accum_kernel f C A B.

(** The short circuits of the masked products without accumulator (AB 481-491, ABT 526-536,
    ATB 243-253, ATBT 209-219): the result, or [None] to go on. *)
Definition short_Mask_NoAccum (outp : outmode) (C : lil TC) (M : lil TM) (A : lil TA) (B : lil TB)
  : option (lil TC) :=
  match outp with
  | REPLACE =>
      if negb (has_vals (nvals A)) || negb (has_vals (nvals B)) || negb (has_vals (nvals M))
      then Some (lil_clear C) else None
  | MERGE => if negb (has_vals (nvals M)) then Some C else None
  end.

(** With an accumulator (AB 553-561, ABT 598-606, ATB 306-314, ATBT 306-314). *)
Definition short_Mask_Accum (outp : outmode) (C : lil TC) (M : lil TM) : option (lil TC) :=
  if negb (has_vals (nvals M)) then
    Some (match outp with REPLACE => lil_clear C | MERGE => C end)
  else None.

(** Complemented mask (AB 634-638, ABT 681-686, ATB 371-375, ATBT 410-414). *)
Definition short_Comp_NoAccum (outp : outmode) (C : lil TC) (A : lil TA) (B : lil TB)
  : option (lil TC) :=
  match outp with
  | REPLACE =>
      if negb (has_vals (nvals A)) || negb (has_vals (nvals B)) then Some (lil_clear C) else None
  | MERGE => None
  end.

(** With an accumulator (AB 701-706, ATB 425-429, ATBT 503-508; none in ABT). *)
Definition short_Comp_Accum (outp : outmode) (C : lil TC) (M : lil TM) (A : lil TA) (B : lil TB)
  : option (lil TC) :=
  match outp with
  | REPLACE =>
      if negb (has_vals (nvals M)) && (negb (has_vals (nvals A)) || negb (has_vals (nvals B)))
      then Some C else None
  | MERGE => None
  end.

Definition or_else (o : option (lil TC)) (r : res (lil TC)) : res (lil TC) :=
  match o with Some C => Ok C | None => r end.

(** [sparse_mxm_Mask_NoAccum_AB], 468-531. *)
Definition mxm_Mask_NoAccum_AB (sf : bool) (outp : outmode) (C : lil TC) (M : obj TC TM)
    (A : obj TC TA) (B : obj TC TB) : res (lil TC) :=
  or_else (short_Mask_NoAccum outp C (now C M) (now C A) (now C B))
    (if is_output B then
       Ctmp <- AB_Mask_NoAccum_kernel tc sf REPLACE (lil_new (nrows C) (ncols C))
                 (fixed C M) (fixed C A) (fixed C B) ;;
       finish_tmp sf false outp C M Ctmp
     else AB_Mask_NoAccum_kernel tc sf outp C M A B).

(** [sparse_mxm_Mask_Accum_AB], 539-614. *)
Definition mxm_Mask_Accum_AB (f : TC -> TT -> TZ) (cz : TC -> TZ) (tz : TT -> TZ) (sf : bool)
    (outp : outmode) (C : lil TC) (M : obj TC TM) (A : obj TC TA) (B : obj TC TB) : res (lil TC) :=
  or_else (short_Mask_Accum outp C (now C M))
    (if is_output B then
       T <- AB_Mask_NoAccum_kernel (fun x => x) sf REPLACE (lil_new (nrows C) (ncols C))
              (fixed C M) (fixed C A) (fixed C B) ;;
       finish_accum f cz tz sf false (fun _ => is_replace outp) C M T
     else AB_Mask_Accum_kernel f cz tz sf outp C M A B).

(** [sparse_mxm_CompMask_NoAccum_AB], 621-680. *)
Definition mxm_CompMask_NoAccum_AB (sf : bool) (outp : outmode) (C : lil TC) (M : obj TC TM)
    (A : obj TC TA) (B : obj TC TB) : res (lil TC) :=
  or_else (short_Comp_NoAccum outp C (now C A) (now C B))
    (if is_output B then
       Ctmp <- AB_CompMask_NoAccum_kernel tc sf REPLACE (lil_new (nrows C) (ncols C))
                 (fixed C M) (fixed C A) (fixed C B) ;;
       finish_tmp sf true outp C M Ctmp
     else AB_CompMask_NoAccum_kernel tc sf outp C M A B).

(** [sparse_mxm_CompMask_Accum_AB], 687-763. *)
Definition mxm_CompMask_Accum_AB (f : TC -> TT -> TZ) (cz : TC -> TZ) (tz : TT -> TZ) (sf : bool)
    (outp : outmode) (C : lil TC) (M : obj TC TM) (A : obj TC TA) (B : obj TC TB) : res (lil TC) :=
  or_else (short_Comp_Accum outp C (now C M) (now C A) (now C B))
    (if is_output B then
       T <- AB_CompMask_NoAccum_kernel (fun x => x) sf REPLACE (lil_new (nrows C) (ncols C))
              (fixed C M) (fixed C A) (fixed C B) ;;
       finish_accum f cz tz sf true (fun _ => is_replace outp) C M T
     else AB_CompMask_Accum_kernel f cz tz sf outp C M A B).

(** ** A * B' *)

(** One row, sparse_mxm_ABT.hpp:76-89 (and 118-131). *)
Definition ABT_row (B : lil TB) (ra : row TA) : res (row TT) :=
  mfor (seq 0 (nrows B))
    (fun j t =>
       rb <- getrow B j ;;
       if empty rb then Ok t else
       match dot add mult ra rb with
       | Some x => Ok (t ++ [(j, x)])
       | None => Ok t
       end)
    [].

(** The same under a mask row, 169-184 (237-253, 307-322, 374-390); the mask iterator is
    moved only when [B[j]] is not empty. *)
Definition ABT_masked_row (sf cf : bool) (B : lil TB) (rm : row TM) (ra : row TA) : res (row TT) :=
  res_map snd
    (mfor (seq 0 (nrows B))
      (fun j '(m, t) =>
         rb <- getrow B j ;;
         if empty rb then Ok (m, t) else
         let m' := drop_below m j in
         if Bool.eqb (mask_at truthy sf m' j) cf then Ok (m', t) else
         match dot add mult ra rb with
         | Some x => Ok (m', t ++ [(j, x)])
         | None => Ok (m', t)
         end)
      (rm, [])).

(** [ABT_NoMask_NoAccum_kernel], 61-92.  An empty row of [A] skips [setRow]. *)
Definition ABT_NoMask_NoAccum_kernel {TO : Type} (to : TT -> TO) (C : lil TO)
    (A : obj TO TA) (B : obj TO TB) : res (lil TO) :=
  mfor (seq 0 (nrows (now C A)))
    (fun i C =>
       ra <- getrow (now C A) i ;;
       if empty ra then Ok C else
       t <- ABT_row (now C B) ra ;;
       setRow to C i t)
    C.

(** [ABT_NoMask_Accum_kernel], 101-139. *)
Definition ABT_NoMask_Accum_kernel (f : TC -> TT -> TZ) (C : lil TC) (A : obj TC TA) (B : obj TC TB)
  : res (lil TC) :=
  mfor (seq 0 (nrows (now C A)))
    (fun i C =>
       ra <- getrow (now C A) i ;;
       if empty ra then Ok C else
       t <- ABT_row (now C B) ra ;;
       if empty t then Ok C else mergeRow tc (fun c x => zc (f c x)) C i t)
    C.

(** [ABT_Mask_NoAccum_kernel], 148-201. *)
Definition ABT_Mask_NoAccum_kernel {TO : Type} (to : TT -> TO) (sf : bool) (outp : outmode)
    (C : lil TO) (M : obj TO TM) (A : obj TO TA) (B : obj TO TB) : res (lil TO) :=
  mfor (seq 0 (nrows (now C A)))
    (fun i C =>
       ra <- getrow (now C A) i ;;
       rm <- getrow (now C M) i ;;
       t <- (if empty ra || empty rm then Ok []
             else ABT_masked_row sf false (now C B) rm ra) ;;
       match outp with
       | REPLACE => setRow to C i t
       | MERGE => c <- getrow C i ;;
                  setRow (fun x => x) C i (masked_merge truthy sf false to rm c t)
       end)
    C.

(** [ABT_Mask_Accum_kernel], 211-277. *)
Definition ABT_Mask_Accum_kernel (f : TC -> TT -> TZ) (cz : TC -> TZ) (tz : TT -> TZ) (sf : bool)
    (outp : outmode) (C : lil TC) (M : obj TC TM) (A : obj TC TA) (B : obj TC TB)
  : res (lil TC) :=
  mfor (seq 0 (nrows (now C A)))
    (fun i C =>
       ra <- getrow (now C A) i ;;
       rm <- getrow (now C M) i ;;
       t <- (if empty ra || empty rm then Ok []
             else ABT_masked_row sf false (now C B) rm ra) ;;
       accum_row f cz tz sf false (is_replace outp) C i rm t)
    C.

(** [ABT_CompMask_NoAccum_kernel], 286-340. *)
Definition ABT_CompMask_NoAccum_kernel {TO : Type} (to : TT -> TO) (sf : bool) (outp : outmode)
    (C : lil TO) (M : obj TO TM) (A : obj TO TA) (B : obj TO TB) : res (lil TO) :=
  mfor (seq 0 (nrows (now C A)))
    (fun i C =>
       ra <- getrow (now C A) i ;;
       rm <- getrow (now C M) i ;;
       t <- (if empty ra then Ok [] else ABT_masked_row sf true (now C B) rm ra) ;;
       match outp with
       | REPLACE => setRow to C i t
       | MERGE => c <- getrow C i ;;
                  setRow (fun x => x) C i (masked_merge truthy sf true to rm c t)
       end)
    C.

(** [ABT_CompMask_Accum_kernel], 350-418. *)
Definition ABT_CompMask_Accum_kernel (f : TC -> TT -> TZ) (cz : TC -> TZ) (tz : TT -> TZ)
    (sf : bool) (outp : outmode) (C : lil TC) (M : obj TC TM) (A : obj TC TA) (B : obj TC TB)
  : res (lil TC) :=
  mfor (seq 0 (nrows (now C A)))
    (fun i C =>
       ra <- getrow (now C A) i ;;
       rm <- getrow (now C M) i ;;
       t <- (if empty ra then Ok [] else ABT_masked_row sf true (now C B) rm ra) ;;
       accum_row f cz tz sf true (is_replace outp) C i rm t)
    C.

(** [sparse_mxm_NoMask_NoAccum_ABT], 429-461. *)
Definition mxm_NoMask_NoAccum_ABT (C : lil TC) (A : obj TC TA) (B : obj TC TB) : res (lil TC) :=
  if negb (has_vals (nvals (now C A))) || negb (has_vals (nvals (now C B)))
  then Ok (lil_clear C)
  else if is_output B then
    Ctmp <- ABT_NoMask_NoAccum_kernel tc (lil_new (nrows C) (ncols C)) (fixed C A) (fixed C B) ;;
    res_map fst (lil_swap C Ctmp)
  else ABT_NoMask_NoAccum_kernel tc C A B.

(** [sparse_mxm_NoMask_Accum_ABT], 469-501. *)
Definition mxm_NoMask_Accum_ABT (f : TC -> TT -> TZ) (C : lil TC) (A : obj TC TA) (B : obj TC TB)
  : res (lil TC) :=
  if negb (has_vals (nvals (now C A))) || negb (has_vals (nvals (now C B)))
  then Ok C
  else if is_output B then
    Ctmp <- ABT_NoMask_NoAccum_kernel tc (lil_new (nrows C) (ncols C)) (fixed C A) (fixed C B) ;;
    merge_tmp f C Ctmp
  else ABT_NoMask_Accum_kernel f C A B.

(** [sparse_mxm_Mask_NoAccum_ABT], 509-574. *)
Definition mxm_Mask_NoAccum_ABT (sf : bool) (outp : outmode) (C : lil TC) (M : obj TC TM)
    (A : obj TC TA) (B : obj TC TB) : res (lil TC) :=
  or_else (short_Mask_NoAccum outp C (now C M) (now C A) (now C B))
    (if is_output B then
       Ctmp <- ABT_Mask_NoAccum_kernel tc sf REPLACE (lil_new (nrows C) (ncols C))
                 (fixed C M) (fixed C A) (fixed C B) ;;
       finish_tmp sf false outp C M Ctmp
     else ABT_Mask_NoAccum_kernel tc sf outp C M A B).

(** [sparse_mxm_Mask_Accum_ABT], 582-659. *)
Definition mxm_Mask_Accum_ABT (f : TC -> TT -> TZ) (cz : TC -> TZ) (tz : TT -> TZ) (sf : bool)
    (outp : outmode) (C : lil TC) (M : obj TC TM) (A : obj TC TA) (B : obj TC TB) : res (lil TC) :=
  or_else (short_Mask_Accum outp C (now C M))
    (if is_output B then
       T <- ABT_Mask_NoAccum_kernel (fun x => x) sf REPLACE (lil_new (nrows C) (ncols C))
              (fixed C M) (fixed C A) (fixed C B) ;;
       finish_accum f cz tz sf false (fun _ => is_replace outp) C M T
     else ABT_Mask_Accum_kernel f cz tz sf outp C M A B).

(** [sparse_mxm_CompMask_NoAccum_ABT], 666-728. *)
Definition mxm_CompMask_NoAccum_ABT (sf : bool) (outp : outmode) (C : lil TC) (M : obj TC TM)
    (A : obj TC TA) (B : obj TC TB) : res (lil TC) :=
  or_else (short_Comp_NoAccum outp C (now C A) (now C B))
    (if is_output B then
       Ctmp <- ABT_CompMask_NoAccum_kernel tc sf REPLACE (lil_new (nrows C) (ncols C))
                 (fixed C M) (fixed C A) (fixed C B) ;;
       finish_tmp sf true outp C M Ctmp
     else ABT_CompMask_NoAccum_kernel tc sf outp C M A B).

(** [sparse_mxm_CompMask_Accum_ABT], 735-802. *)
Definition mxm_CompMask_Accum_ABT (f : TC -> TT -> TZ) (cz : TC -> TZ) (tz : TT -> TZ) (sf : bool)
    (outp : outmode) (C : lil TC) (M : obj TC TM) (A : obj TC TA) (B : obj TC TB) : res (lil TC) :=
  if is_output B then
    T <- ABT_CompMask_NoAccum_kernel (fun x => x) sf REPLACE (lil_new (nrows C) (ncols C))
           (fixed C M) (fixed C A) (fixed C B) ;;
    finish_accum f cz tz sf true (fun _ => is_replace outp) C M T
  else ABT_CompMask_Accum_kernel f cz tz sf outp C M A B.

(** ** A' * B *)

(** The three kernels, sparse_mxm_ATB.hpp:61-81, 89-115, 123-146: they fill the rows of a
    new matrix [T]; [step i a t rb] is the update of row [i] by [a * rb]. *)
Definition ATB_kernel (step : nat -> TA -> row TT -> row TB -> res (row TT))
    (T : lil TT) (A : lil TA) (B : lil TB) : res (lil TT) :=
  mfor (seq 0 (nrows A))
    (fun k T =>
       ra <- getrow A k ;;
       if empty ra then Ok T else
       rb <- getrow B k ;;
       if empty rb then Ok T else
       mfor ra
         (fun p T' =>
            t <- getrow T' (fst p) ;;
            t' <- step (fst p) (snd p) t rb ;;
            putrow T' (fst p) t')
         T)
    T.
Definition ATB_NoMask_kernel : lil TT -> lil TA -> lil TB -> res (lil TT) :=
  ATB_kernel (fun _ a t rb => Ok (axpy add mult a t rb)).
Definition ATB_Mask_kernel (sf : bool) (T : lil TT) (M : lil TM) : lil TA -> lil TB -> res (lil TT) :=
  ATB_kernel (fun i a t rb =>
                rm <- getrow M i ;;
                Ok (if empty rm then t else masked_axpy truthy sf false add mult a t rm rb)) T.
Definition ATB_CompMask_kernel (sf : bool) (T : lil TT) (M : lil TM)
  : lil TA -> lil TB -> res (lil TT) :=
  ATB_kernel (fun i a t rb =>
                rm <- getrow M i ;; Ok (masked_axpy truthy sf true add mult a t rm rb)) T.

(** [for i: C.setRow(i, T[i])] (ATB 179-183). *)
Definition set_rows {TX : Type} (to : TX -> TC) (C : lil TC) (T : lil TX) : res (lil TC) :=
  mfor (seq 0 (nrows C)) (fun i C => t <- getrow T i ;; setRow to C i t) C.

(** [for i: C.mergeRow(i, T[i], accum)] (ATB 216-221; the emptiness test there is also the
    first one of [mergeRow]). *)
Definition merge_T (f : TC -> TT -> TZ) (C : lil TC) (T : lil TT) : res (lil TC) :=
  mfor (seq 0 (nrows C))
    (fun i C => t <- getrow T i ;; mergeRow tc (fun c x => zc (f c x)) C i t)
    C.

(** Rows of [T] merged into or replacing those of [C] (ATB 263-283, 385-401). *)
Definition finish_T (sf cf : bool) (replace : row TM -> bool) (C : lil TC) (M : obj TC TM)
    (T : lil TT) : res (lil TC) :=
  mfor (seq 0 (nrows C))
    (fun i C =>
       rm <- getrow (now C M) i ;;
       t <- getrow T i ;;
       if replace rm then setRow tc C i t
       else c <- getrow C i ;;
            setRow (fun x => x) C i (masked_merge truthy sf cf tc rm c t))
    C.

(** [sparse_mxm_NoMask_NoAccum_ATB], 157-184. *)
Definition mxm_NoMask_NoAccum_ATB (C : lil TC) (A : obj TC TA) (B : obj TC TB) : res (lil TC) :=
  if negb (has_vals (nvals (now C A))) || negb (has_vals (nvals (now C B)))
  then Ok (lil_clear C)
  else
    T <- ATB_NoMask_kernel (lil_new (nrows C) (ncols C)) (now C A) (now C B) ;;
    set_rows tc C T.

(** [sparse_mxm_NoMask_Accum_ATB], 192-221. *)
Definition mxm_NoMask_Accum_ATB (f : TC -> TT -> TZ) (C : lil TC) (A : obj TC TA) (B : obj TC TB)
  : res (lil TC) :=
  if negb (has_vals (nvals (now C A))) || negb (has_vals (nvals (now C B)))
  then Ok C
  else
    T <- ATB_NoMask_kernel (lil_new (nrows C) (ncols C)) (now C A) (now C B) ;;
    merge_T f C T.

(** [sparse_mxm_Mask_NoAccum_ATB], 229-283. *)
Definition mxm_Mask_NoAccum_ATB (sf : bool) (outp : outmode) (C : lil TC) (M : obj TC TM)
    (A : obj TC TA) (B : obj TC TB) : res (lil TC) :=
  or_else (short_Mask_NoAccum outp C (now C M) (now C A) (now C B))
    (T <- ATB_Mask_kernel sf (lil_new (nrows C) (ncols C)) (now C M) (now C A) (now C B) ;;
     finish_T sf false (fun _ => is_replace outp) C M T).

(** [sparse_mxm_Mask_Accum_ATB], 291-350. *)
Definition mxm_Mask_Accum_ATB (f : TC -> TT -> TZ) (cz : TC -> TZ) (tz : TT -> TZ) (sf : bool)
    (outp : outmode) (C : lil TC) (M : obj TC TM) (A : obj TC TA) (B : obj TC TB) : res (lil TC) :=
  or_else (short_Mask_Accum outp C (now C M))
    (T <- ATB_Mask_kernel sf (lil_new (nrows C) (ncols C)) (now C M) (now C A) (now C B) ;;
     finish_accum f cz tz sf false (fun _ => is_replace outp) C M T).

(** [sparse_mxm_CompMask_NoAccum_ATB], 358-403. *)
Definition mxm_CompMask_NoAccum_ATB (sf : bool) (outp : outmode) (C : lil TC) (M : obj TC TM)
    (A : obj TC TA) (B : obj TC TB) : res (lil TC) :=
  or_else (short_Comp_NoAccum outp C (now C A) (now C B))
    (T <- ATB_CompMask_kernel sf (lil_new (nrows C) (ncols C)) (now C M) (now C A) (now C B) ;;
     finish_T sf true (fun rm => is_replace outp || empty rm) C M T).

(** [sparse_mxm_CompMask_Accum_ATB], 411-466. *)
Definition mxm_CompMask_Accum_ATB (f : TC -> TT -> TZ) (cz : TC -> TZ) (tz : TT -> TZ) (sf : bool)
    (outp : outmode) (C : lil TC) (M : obj TC TM) (A : obj TC TA) (B : obj TC TB) : res (lil TC) :=
  or_else (short_Comp_Accum outp C (now C M) (now C A) (now C B))
    (T <- ATB_CompMask_kernel sf (lil_new (nrows C) (ncols C)) (now C M) (now C A) (now C B) ;;
     finish_accum f cz tz sf true (fun rm => is_replace outp || empty rm) C M T).

(** ** A' * B' *)

(** One column of the product, sparse_mxm_ATBT.hpp:71-81: the multiplication is called with
    the element of [B], converted to [A]'s scalar type, first. *)
Definition ATBT_row (A : lil TA) (rb : row TB) : res (row TT) :=
  mfor rb
    (fun p t =>
       ra <- getrow A (fst p) ;;
       if empty ra then Ok t else Ok (axpy add multA (cb (snd p)) t ra))
    [].

(** The loop that fills the rows of the product from its columns, 68-90 (and 227-251,
    328-352, 422-446, 523-547). *)
Definition ATBT_fill {TO : Type} (to : TT -> TO) (T : lil TO) (A : lil TA) (B : lil TB)
  : res (lil TO) :=
  mfor (seq 0 (nrows B))
    (fun i T => rb <- getrow B i ;; t <- ATBT_row A rb ;; pushcol to i t T)
    T.

(** [ATBT_NoMask_NoAccum_kernel], 57-92; its operands are never the output. *)
Definition ATBT_NoMask_NoAccum_kernel {TO : Type} (to : TT -> TO) (C : lil TO)
    (A : lil TA) (B : lil TB) : res (lil TO) :=
  C' <- ATBT_fill to (lil_clear C) A B ;; Ok (lil_recompute C').

(** [sparse_mxm_NoMask_NoAccum_ATBT], 103-138. *)
Definition mxm_NoMask_NoAccum_ATBT (C : lil TC) (A : obj TC TA) (B : obj TC TB) : res (lil TC) :=
  if negb (has_vals (nvals (now C A))) || negb (has_vals (nvals (now C B)))
  then Ok (lil_clear C)
  else
    C' <- (if is_output A || is_output B then
             Ctmp <- ATBT_NoMask_NoAccum_kernel tc (lil_new (nrows C) (ncols C)) (now C A) (now C B) ;;
             set_rows (fun x => x) C Ctmp
           else ATBT_NoMask_NoAccum_kernel tc C (now C A) (now C B)) ;;
    Ok (lil_recompute C').

(** [sparse_mxm_NoMask_Accum_ATBT], 146-188; both branches do the same. *)
Definition mxm_NoMask_Accum_ATBT (f : TC -> TT -> TZ) (C : lil TC) (A : obj TC TA) (B : obj TC TB)
  : res (lil TC) :=
  if negb (has_vals (nvals (now C A))) || negb (has_vals (nvals (now C B)))
  then Ok C
  else
    T <- ATBT_NoMask_NoAccum_kernel (fun x => x) (lil_new (nrows C) (ncols C)) (now C A) (now C B) ;;
    merge_T f C T.

(** The second loop of the masked products without accumulator, 253-282 and 448-480. *)
Definition finish_ATBT (sf cf : bool) (outp : outmode) (C : lil TC) (M : obj TC TM) (T : lil TT)
  : res (lil TC) :=
  mfor (seq 0 (nrows C))
    (fun i C =>
       rm <- getrow (now C M) i ;;
       t <- getrow T i ;;
       let z := mask_row_loop truthy sf cf tc rm t in
       match outp with
       | REPLACE => setRow (fun x => x) C i z
       | MERGE => c <- getrow C i ;;
                  setRow (fun x => x) C i (masked_merge truthy sf cf (fun x => x) rm c z)
       end)
    C.

(** With an accumulator, 354-389 and 551-588. *)
Definition finish_accum_ATBT (f : TC -> TT -> TZ) (cz : TC -> TZ) (tz : TT -> TZ) (sf cf : bool)
    (outp : outmode) (C : lil TC) (M : obj TC TM) (T : lil TT) : res (lil TC) :=
  mfor (seq 0 (nrows C))
    (fun i C =>
       rm <- getrow (now C M) i ;;
       t <- getrow T i ;;
       accum_row f cz tz sf cf (is_replace outp) C i rm
         (mask_row_loop truthy sf cf (fun x => x) rm t))
    C.

(** [sparse_mxm_Mask_NoAccum_ATBT], 196-283. *)
Definition mxm_Mask_NoAccum_ATBT (sf : bool) (outp : outmode) (C : lil TC) (M : obj TC TM)
    (A : obj TC TA) (B : obj TC TB) : res (lil TC) :=
  or_else (short_Mask_NoAccum outp C (now C M) (now C A) (now C B))
    (T <- ATBT_fill (fun x => x) (lil_new (nrows C) (ncols C)) (now C A) (now C B) ;;
     finish_ATBT sf false outp C M T).

(** [sparse_mxm_Mask_Accum_ATBT], 291-390. *)
Definition mxm_Mask_Accum_ATBT (f : TC -> TT -> TZ) (cz : TC -> TZ) (tz : TT -> TZ) (sf : bool)
    (outp : outmode) (C : lil TC) (M : obj TC TM) (A : obj TC TA) (B : obj TC TB) : res (lil TC) :=
  or_else (short_Mask_Accum outp C (now C M))
    (T <- ATBT_fill (fun x => x) (lil_new (nrows C) (ncols C)) (now C A) (now C B) ;;
     finish_accum_ATBT f cz tz sf false outp C M T).

(** [sparse_mxm_CompMask_NoAccum_ATBT], 397-481. *)
Definition mxm_CompMask_NoAccum_ATBT (sf : bool) (outp : outmode) (C : lil TC) (M : obj TC TM)
    (A : obj TC TA) (B : obj TC TB) : res (lil TC) :=
  or_else (short_Comp_NoAccum outp C (now C A) (now C B))
    (T <- ATBT_fill (fun x => x) (lil_new (nrows C) (ncols C)) (now C A) (now C B) ;;
     finish_ATBT sf true outp C M T).

(** [sparse_mxm_CompMask_Accum_ATBT], 489-590. *)
Definition mxm_CompMask_Accum_ATBT (f : TC -> TT -> TZ) (cz : TC -> TZ) (tz : TT -> TZ) (sf : bool)
    (outp : outmode) (C : lil TC) (M : obj TC TM) (A : obj TC TA) (B : obj TC TB) : res (lil TC) :=
  or_else (short_Comp_Accum outp C (now C M) (now C A) (now C B))
    (T <- ATBT_fill (fun x => x) (lil_new (nrows C) (ncols C)) (now C A) (now C B) ;;
     finish_accum_ATBT f cz tz sf true outp C M T).

(** ** Dispatch, sparse_mxm.hpp:63-653. *)

(** A matrix operand or its [transpose] view. *)
Inductive oview (TX : Type) : Type :=
| OMat (X : obj TC TX)
| OTrn (X : obj TC TX).
Arguments OMat {TX} X.
Arguments OTrn {TX} X.

Definition opt_NoMask_NoAccum (C : lil TC) (A : oview TA) (B : oview TB) : res (lil TC) :=
  match A, B with
  | OMat A, OMat B => mxm_NoMask_NoAccum_AB C A B
  | OMat A, OTrn B => mxm_NoMask_NoAccum_ABT C A B
  | OTrn A, OMat B => mxm_NoMask_NoAccum_ATB C A B
  | OTrn A, OTrn B => mxm_NoMask_NoAccum_ATBT C A B
  end.
Definition opt_NoMask_Accum (f : TC -> TT -> TZ) (C : lil TC) (A : oview TA) (B : oview TB)
  : res (lil TC) :=
  match A, B with
  | OMat A, OMat B => mxm_NoMask_Accum_AB f C A B
  | OMat A, OTrn B => mxm_NoMask_Accum_ABT f C A B
  | OTrn A, OMat B => mxm_NoMask_Accum_ATB f C A B
  | OTrn A, OTrn B => mxm_NoMask_Accum_ATBT f C A B
  end.
Definition opt_Mask_NoAccum (sf : bool) (outp : outmode) (C : lil TC) (M : obj TC TM)
    (A : oview TA) (B : oview TB) : res (lil TC) :=
  match A, B with
  | OMat A, OMat B => mxm_Mask_NoAccum_AB sf outp C M A B
  | OMat A, OTrn B => mxm_Mask_NoAccum_ABT sf outp C M A B
  | OTrn A, OMat B => mxm_Mask_NoAccum_ATB sf outp C M A B
  | OTrn A, OTrn B => mxm_Mask_NoAccum_ATBT sf outp C M A B
  end.
Definition opt_Mask_Accum (f : TC -> TT -> TZ) (cz : TC -> TZ) (tz : TT -> TZ) (sf : bool)
    (outp : outmode) (C : lil TC) (M : obj TC TM) (A : oview TA) (B : oview TB) : res (lil TC) :=
  match A, B with
  | OMat A, OMat B => mxm_Mask_Accum_AB f cz tz sf outp C M A B
  | OMat A, OTrn B => mxm_Mask_Accum_ABT f cz tz sf outp C M A B
  | OTrn A, OMat B => mxm_Mask_Accum_ATB f cz tz sf outp C M A B
  | OTrn A, OTrn B => mxm_Mask_Accum_ATBT f cz tz sf outp C M A B
  end.
Definition opt_CompMask_NoAccum (sf : bool) (outp : outmode) (C : lil TC) (M : obj TC TM)
    (A : oview TA) (B : oview TB) : res (lil TC) :=
  match A, B with
  | OMat A, OMat B => mxm_CompMask_NoAccum_AB sf outp C M A B
  | OMat A, OTrn B => mxm_CompMask_NoAccum_ABT sf outp C M A B
  | OTrn A, OMat B => mxm_CompMask_NoAccum_ATB sf outp C M A B
  | OTrn A, OTrn B => mxm_CompMask_NoAccum_ATBT sf outp C M A B
  end.
Definition opt_CompMask_Accum (f : TC -> TT -> TZ) (cz : TC -> TZ) (tz : TT -> TZ) (sf : bool)
    (outp : outmode) (C : lil TC) (M : obj TC TM) (A : oview TA) (B : oview TB) : res (lil TC) :=
  match A, B with
  | OMat A, OMat B => mxm_CompMask_Accum_AB f cz tz sf outp C M A B
  | OMat A, OTrn B => mxm_CompMask_Accum_ABT f cz tz sf outp C M A B
  | OTrn A, OMat B => mxm_CompMask_Accum_ATB f cz tz sf outp C M A B
  | OTrn A, OTrn B => mxm_CompMask_Accum_ATBT f cz tz sf outp C M A B
  end.

Definition opt_dispatch (a : accum TC TT TZ) (m : mask (obj TC TM)) (outp : outmode)
    (C : lil TC) (A : oview TA) (B : oview TB) : res (lil TC) :=
  match m, a with
  | NoMask, NoAcc _ => opt_NoMask_NoAccum C A B
  | NoMask, Acc f _ _ => opt_NoMask_Accum f C A B
  | MVal M, NoAcc _ => opt_Mask_NoAccum false outp C M A B
  | MVal M, Acc f cz tz => opt_Mask_Accum f cz tz false outp C M A B
  | MStruct M, NoAcc _ => opt_Mask_NoAccum true outp C M A B
  | MStruct M, Acc f cz tz => opt_Mask_Accum f cz tz true outp C M A B
  | MComp M, NoAcc _ => opt_CompMask_NoAccum false outp C M A B
  | MComp M, Acc f cz tz => opt_CompMask_Accum f cz tz false outp C M A B
  | MSComp M, NoAcc _ => opt_CompMask_NoAccum true outp C M A B
  | MSComp M, Acc f cz tz => opt_CompMask_Accum f cz tz true outp C M A B
  end.

(** The operands as values, before the operation. *)
Definition vnow {TX : Type} (C : lil TC) (A : oview TX) : mview TX :=
  match A with OMat X => Mat (now C X) | OTrn X => Trn (now C X) end.
Definition mask_now (C : lil TC) (m : mask (obj TC TM)) : mask (lil TM) :=
  match m with
  | NoMask => NoMask
  | MVal M => MVal (now C M)
  | MComp M => MComp (now C M)
  | MStruct M => MStruct (now C M)
  | MSComp M => MSComp (now C M)
  end.

(** The frontend is the one of the sequential platform, operations.hpp:70-102. *)
Definition opt_mxm (a : accum TC TT TZ) (m : mask (obj TC TM)) (outp : outmode)
    (C : lil TC) (A : oview TA) (B : oview TB) : res (lil TC) :=
  _ <- check_mask_rows (nrows C) (mask_now C m) ;;
  _ <- check_mask_cols (ncols C) (mask_now C m) ;;
  _ <- check_eq (nrows C) (vrows (vnow C A)) ;;
  _ <- check_eq (ncols C) (vcols (vnow C B)) ;;
  _ <- check_eq (vcols (vnow C A)) (vrows (vnow C B)) ;;
  opt_dispatch a m outp C A B.
End Opt.
Arguments OMat {TC TX} X.
Arguments OTrn {TC TX} X.
