(** Histories of calls on matrices and vectors through the public classes
    /repo/src/graphblas/Matrix.hpp and /repo/src/graphblas/Vector.hpp.
    A program owns several containers, named by their position in a store. *)
From Verif Require Import Base ModelLil ModelVec.

(** What a call returns when it does not throw. *)
Inductive answer (T : Type) : Type :=
| ADone
| ABool (b : bool)
| AVal (v : T)
| ANum (n : Z)
| ATuples (l : list (nat * nat * T)).
Arguments ADone {T}.
Arguments ABool {T} b.
Arguments AVal {T} v.
Arguments ANum {T} n.
Arguments ATuples {T} l.

(** Replace container [k] of the store, or leave the store alone on an exception. *)
Definition put {X T : Type} (st : list X) (k : nat) (r : res X) : list X * res (answer T) :=
  match r with
  | Ok x => (upd st k x, Ok ADone)
  | Throw e => (st, Throw e)
  | UB => (st, UB)
  end.
Definition push {X T : Type} (st : list X) (r : res X) : list X * res (answer T) :=
  match r with
  | Ok x => (st ++ [x], Ok ADone)
  | Throw e => (st, Throw e)
  | UB => (st, UB)
  end.

(** ** Matrix calls *)
Inductive mcall (T : Type) : Type :=
| MNew (nr nc : nat)                                   (* Matrix.hpp:72 *)
| MCopy (src : nat)                                    (* Matrix.hpp:82 *)
| MDense (vs : list (list T))                          (* Matrix.hpp:95 *)
| MDenseZero (vs : list (list T)) (zero : T)           (* Matrix.hpp:110 *)
| MAssign (dst src : nat)                              (* Matrix.hpp:118-127 *)
| MEq (a b : nat)                                      (* Matrix.hpp:131-134 *)
| MBuild (k : nat) (dup : T -> T -> T) (is js : list nat) (vs : list T)
                                                       (* Matrix.hpp:182-197 *)
| MClear (k : nat)                                     (* Matrix.hpp:199 *)
| MNvals (k : nat)                                     (* Matrix.hpp:203 *)
| MResize (k nr nc : nat)                              (* Matrix.hpp:212-218 *)
| MHas (k i j : nat)                                   (* Matrix.hpp:220-223 *)
| MSet (k i j : nat) (v : T)                           (* Matrix.hpp:225-228 *)
| MSetMerge (k i j : nat) (v : T) (merge : T -> T -> T)(* LilSparseMatrix.hpp:351-388 *)
| MRemove (k i j : nat)                                (* Matrix.hpp:230-233 *)
| MExtract (k i j : nat)                               (* Matrix.hpp:236-239 *)
| MTuples (k : nat).                                   (* Matrix.hpp:241-260 *)
Arguments MNew {T} nr nc.
Arguments MCopy {T} src.
Arguments MDense {T} vs.
Arguments MDenseZero {T} vs zero.
Arguments MAssign {T} dst src.
Arguments MEq {T} a b.
Arguments MBuild {T} k dup is js vs.
Arguments MClear {T} k.
Arguments MNvals {T} k.
Arguments MResize {T} k nr nc.
Arguments MHas {T} k i j.
Arguments MSet {T} k i j v.
Arguments MSetMerge {T} k i j v merge.
Arguments MRemove {T} k i j.
Arguments MExtract {T} k i j.
Arguments MTuples {T} k.

Fixpoint zip3 {T : Type} (is js : list nat) (vs : list T) : list (nat * nat * T) :=
  match is, js, vs with
  | i :: is', j :: js', v :: vs' => (i, j, v) :: zip3 is' js' vs'
  | _, _, _ => []
  end.

Section MRun.
Context {T : Type} (eqb : T -> T -> bool).

(** Run [f] on container [k]; a call naming no container does nothing. *)
Definition mon {X : Type} (st : list X) (k : nat) (f : X -> list X * res (answer T))
  : list X * res (answer T) :=
  match nth_error st k with
  | Some M => f M
  | None => (st, Ok ADone)
  end.

Definition mstep (st : list (lil T)) (c : mcall T) : list (lil T) * res (answer T) :=
  match c with
  | MNew nr nc => push st (Ok (lil_new nr nc))
  | MCopy s => mon st s (fun M => push st (Ok M))
  | MDense vs => push st (lil_dense (fun _ => true) vs)
  | MDenseZero vs z => push st (lil_dense (fun v => negb (eqb v z)) vs)
  | MAssign d s => mon st d (fun M => mon st s (fun R => put st d (lil_assign M R)))
  | MEq a b => mon st a (fun A => mon st b (fun B => (st, Ok (ABool (lil_eqb eqb A B)))))
  | MBuild k dup is js vs =>
      mon st k (fun M =>
        if negb (length is =? length js) || negb (length is =? length vs)
        then (st, Throw DimensionException)
        else let '(M', r) := lil_build dup M (zip3 is js vs) in
             (upd st k M', res_map (fun _ => ADone) r))
  | MClear k => mon st k (fun M => put st k (Ok (lil_clear M)))
  | MNvals k => mon st k (fun M => (st, Ok (ANum (nvals M))))
  | MResize k nr nc =>
      mon st k (fun M =>
        if (nr =? 0) || (nc =? 0) then (st, Throw InvalidValueException)
        else put st k (Ok (lil_resize M nr nc)))
  | MHas k i j => mon st k (fun M => (st, res_map ABool (lil_hasElement M i j)))
  | MSet k i j v => mon st k (fun M => put st k (lil_setElement M i j v))
  | MSetMerge k i j v f => mon st k (fun M => put st k (lil_setElement_merge f M i j v))
  | MRemove k i j => mon st k (fun M => put st k (lil_removeElement M i j))
  | MExtract k i j => mon st k (fun M => (st, res_map AVal (lil_extractElement M i j)))
  | MTuples k => mon st k (fun M => (st, Ok (ATuples (lil_extractTuples M))))
  end.
End MRun.

(** ** Vector calls *)
Inductive vcall (T : Type) : Type :=
| VNew (n : nat)                                       (* Vector.hpp:58 *)
| VFill (n : nat) (v : T)                              (* Vector.hpp:68-71 *)
| VDense (vs : list T)                                 (* Vector.hpp:81-84 *)
| VDenseZero (vs : list T) (zero : T)                  (* Vector.hpp:96-99 *)
| VCopy (src : nat)                                    (* implicit copy constructor *)
| VAssign (dst src : nat)                              (* Vector.hpp:111-119 *)
| VAssignDense (dst : nat) (vs : list T)               (* Vector.hpp:129-133 *)
| VEq (a b : nat)                                      (* Vector.hpp:136-139 *)
| VBuild (k : nat) (dup : T -> T -> T) (is : list nat) (vs : list T)
                                                       (* Vector.hpp:182-193 *)
| VClear (k : nat)                                     (* Vector.hpp:195 *)
| VNvals (k : nat)                                     (* Vector.hpp:198 *)
| VResize (k n : nat)                                  (* Vector.hpp:206-212 *)
| VHas (k i : nat)                                     (* Vector.hpp:214-217 *)
| VSet (k i : nat) (v : T)                             (* Vector.hpp:219-222 *)
| VRemove (k i : nat)                                  (* Vector.hpp:224-227 *)
| VExtract (k i : nat)                                 (* Vector.hpp:230-233 *)
| VTuples (k : nat).                                   (* Vector.hpp:235-247 *)
Arguments VNew {T} n.
Arguments VFill {T} n v.
Arguments VDense {T} vs.
Arguments VDenseZero {T} vs zero.
Arguments VCopy {T} src.
Arguments VAssign {T} dst src.
Arguments VAssignDense {T} dst vs.
Arguments VEq {T} a b.
Arguments VBuild {T} k dup is vs.
Arguments VClear {T} k.
Arguments VNvals {T} k.
Arguments VResize {T} k n.
Arguments VHas {T} k i.
Arguments VSet {T} k i v.
Arguments VRemove {T} k i.
Arguments VExtract {T} k i.
Arguments VTuples {T} k.

Section VRun.
Context {T : Type} (dflt : T) (eqb : T -> T -> bool).

(** Tuples of a vector are reported with row index 0. *)
Definition vtuples (r : row T) : list (nat * nat * T) := map (fun '(i, v) => (0, i, v)) r.

Definition vstep (st : list (bvec T)) (c : vcall T) : list (bvec T) * res (answer T) :=
  match c with
  | VNew n => push st (vec_new dflt n)
  | VFill n v => push st (Ok (vec_fill n v))
  | VDense vs => push st (vec_dense vs)
  | VDenseZero vs z => push st (vec_dense_zero dflt (fun v => negb (eqb v z)) vs)
  | VCopy s => mon st s (fun w => push st (Ok w))
  | VAssign d s => mon st d (fun w => mon st s (fun r => put st d (vec_assign w r)))
  | VAssignDense d vs => mon st d (fun w => put st d (vec_assign_dense w vs))
  | VEq a b => mon st a (fun u => mon st b (fun v => (st, res_map ABool (vec_eqb eqb u v))))
  | VBuild k dup is vs =>
      mon st k (fun w =>
        if negb (length is =? length vs) then (st, Throw DimensionException)
        else put st k (vec_build dflt dup w (combine is vs)))
  | VClear k => mon st k (fun w => put st k (Ok (vec_clear w)))
  | VNvals k => mon st k (fun w => (st, Ok (ANum (vnvals w))))
  | VResize k n =>
      mon st k (fun w => if n =? 0 then (st, Throw InvalidValueException)
                         else put st k (Ok (vec_resize dflt w n)))
  | VHas k i => mon st k (fun w => (st, res_map ABool (vec_hasElement w i)))
  | VSet k i v => mon st k (fun w => put st k (vec_setElement w i v))
  | VRemove k i => mon st k (fun w => put st k (vec_removeElement w i))
  | VExtract k i => mon st k (fun w => (st, res_map AVal (vec_extractElement w i)))
  | VTuples k => mon st k (fun w => (st, res_map (fun r => ATuples (vtuples r)) (vec_extractTuples w)))
  end.
End VRun.

(** Run a history from the empty store, collecting every outcome. *)
Fixpoint run {X C A : Type} (step : list X -> C -> list X * res A) (st : list X) (cs : list C)
  : list X * list (res A) :=
  match cs with
  | [] => (st, [])
  | c :: cs' =>
      let '(st', r) := step st c in
      let '(st'', rs) := run step st' cs' in
      (st'', r :: rs)
  end.
