(** What the calls of [ModelCalls] should do, on shapes with partial maps. *)
From Verif Require Import Base ModelLil ModelVec Spec ModelCalls.

Record smatrix (T : Type) : Type := SM { sm_nr : nat; sm_nc : nat; sm_map : smat T }.
Arguments SM {T} sm_nr sm_nc sm_map.
Arguments sm_nr {T} s.
Arguments sm_nc {T} s.
Arguments sm_map {T} s.

Record svector (T : Type) : Type := SV { sv_n : nat; sv_map : svec T }.
Arguments SV {T} sv_n sv_map.
Arguments sv_n {T} s.
Arguments sv_map {T} s.

(** Overwrite one position of a map. *)
Definition supd {T : Type} (A : smat T) (i j : nat) (o : option T) : smat T :=
  fun i' j' => if (i' =? i) && (j' =? j) then o else A i' j'.
Definition svupd {T : Type} (u : svec T) (i : nat) (o : option T) : svec T :=
  fun i' => if i' =? i then o else u i'.

(** All stored elements in row-major order. *)
Definition stuples {T : Type} (S : smatrix T) : list (nat * nat * T) :=
  flat_map (fun i => flat_map (fun j =>
    match sm_map S i j with Some v => [(i, j, v)] | None => [] end) (seq 0 (sm_nc S)))
    (seq 0 (sm_nr S)).
Definition svtuples {T : Type} (S : svector T) : list (nat * nat * T) :=
  flat_map (fun i => match sv_map S i with Some v => [(0, i, v)] | None => [] end)
    (seq 0 (sv_n S)).

Definition inb {T : Type} (S : smatrix T) (i j : nat) : bool :=
  (i <? sm_nr S) && (j <? sm_nc S).

Section Spec.
Context {T : Type} (eqb : T -> T -> bool).

Definition oeqb (x y : option T) : bool :=
  match x, y with
  | Some a, Some b => eqb a b
  | None, None => true
  | _, _ => false
  end.

(** Same shape and same stored elements. *)
Definition seqm (A B : smatrix T) : bool :=
  (sm_nr A =? sm_nr B) && (sm_nc A =? sm_nc B) &&
  forallb (fun '(i, j) => oeqb (sm_map A i j) (sm_map B i j))
    (list_prod (seq 0 (sm_nr A)) (seq 0 (sm_nc A))).
Definition seqv (A B : svector T) : bool :=
  (sv_n A =? sv_n B) && forallb (fun i => oeqb (sv_map A i) (sv_map B i)) (seq 0 (sv_n A)).

Definition sset (S : smatrix T) (i j : nat) (o : option T) : smatrix T :=
  SM (sm_nr S) (sm_nc S) (supd (sm_map S) i j o).

Definition scombine (merge : T -> T -> T) (S : smatrix T) (i j : nat) (v : T) : smatrix T :=
  sset S i j (Some (match sm_map S i j with Some w => merge w v | None => v end)).

(** Insert tuples in order; stop at the first one outside the bounds. *)
Fixpoint sbuild (dup : T -> T -> T) (S : smatrix T) (ts : list (nat * nat * T))
  : smatrix T * res unit :=
  match ts with
  | [] => (S, Ok tt)
  | (i, j, v) :: ts' =>
      if inb S i j then sbuild dup (scombine dup S i j v) ts'
      else (S, Throw IndexOutOfBoundsException)
  end.

(** A dense array as a map; [None] when it has no row, an error when ragged. *)
Definition sdense (keep : T -> bool) (vs : list (list T)) : res (smatrix T) :=
  match vs with
  | [] => UB
  | v0 :: _ =>
      if forallb (fun r => length r =? length v0) vs then
        Ok (SM (length vs) (length v0)
              (fun i j => match nth_error (nth i vs []) j with
                          | Some v => if keep v then Some v else None
                          | None => None
                          end))
      else Throw DimensionException
  end.

Definition sstep (st : list (smatrix T)) (c : mcall T) : list (smatrix T) * res (answer T) :=
  match c with
  | MNew nr nc => push st (Ok (SM nr nc (fun _ _ => None)))
  | MCopy s => mon st s (fun M => push st (Ok M))
  | MDense vs => push st (sdense (fun _ => true) vs)
  | MDenseZero vs z => push st (sdense (fun v => negb (eqb v z)) vs)
  | MAssign d s => mon st d (fun M => mon st s (fun R =>
      put st d (if (sm_nr M =? sm_nr R) && (sm_nc M =? sm_nc R) then Ok R
                else Throw DimensionException)))
  | MEq a b => mon st a (fun A => mon st b (fun B => (st, Ok (ABool (seqm A B)))))
  | MBuild k dup is js vs =>
      mon st k (fun M =>
        if (length is =? length js) && (length is =? length vs) then
          let '(M', r) := sbuild dup M (zip3 is js vs) in
          (upd st k M', res_map (fun _ => ADone) r)
        else (st, Throw DimensionException))
  | MClear k => mon st k (fun M => put st k (Ok (SM (sm_nr M) (sm_nc M) (fun _ _ => None))))
  | MNvals k => mon st k (fun M =>
      (st, Ok (ANum (Z.of_nat (mcount (sm_nr M) (sm_nc M) (sm_map M))))))
  | MResize k nr nc =>
      mon st k (fun M =>
        if (nr =? 0) || (nc =? 0) then (st, Throw InvalidValueException)
        else put st k (Ok (SM nr nc (fun i j =>
               if (i <? nr) && (j <? nc) then sm_map M i j else None))))
  | MHas k i j => mon st k (fun M =>
      (st, if inb M i j then Ok (ABool (is_some (sm_map M i j)))
           else Throw IndexOutOfBoundsException))
  | MSet k i j v => mon st k (fun M =>
      put st k (if inb M i j then Ok (sset M i j (Some v)) else Throw IndexOutOfBoundsException))
  | MSetMerge k i j v f => mon st k (fun M =>
      put st k (if inb M i j then Ok (scombine f M i j v) else Throw IndexOutOfBoundsException))
  | MRemove k i j => mon st k (fun M =>
      put st k (if inb M i j then Ok (sset M i j None) else Throw IndexOutOfBoundsException))
  | MExtract k i j => mon st k (fun M =>
      (st, if inb M i j then match sm_map M i j with
                             | Some v => Ok (AVal v)
                             | None => Throw NoValueException
                             end
           else Throw IndexOutOfBoundsException))
  | MTuples k => mon st k (fun M => (st, Ok (ATuples (stuples M))))
  end.

Definition svset (S : svector T) (i : nat) (o : option T) : svector T :=
  SV (sv_n S) (svupd (sv_map S) i o).

Definition svstep (st : list (svector T)) (c : vcall T) : list (svector T) * res (answer T) :=
  match c with
  | VNew n => push st (if n =? 0 then Throw InvalidValueException else Ok (SV n (fun _ => None)))
  | VFill n v => push st (Ok (SV n (fun i => if i <? n then Some v else None)))
  | VDense vs => push st (match vs with
                          | [] => Throw InvalidValueException
                          | _ => Ok (SV (length vs) (nth_error vs))
                          end)
  | VDenseZero vs z =>
      push st (match vs with
               | [] => Throw InvalidValueException
               | _ => Ok (SV (length vs) (fun i => match nth_error vs i with
                                                   | Some v => if eqb v z then None else Some v
                                                   | None => None
                                                   end))
               end)
  | VCopy s => mon st s (fun w => push st (Ok w))
  | VAssign d s => mon st d (fun w => mon st s (fun r =>
      put st d (if sv_n w =? sv_n r then Ok r else Throw DimensionException)))
  | VAssignDense d vs => mon st d (fun w =>
      put st d (if sv_n w =? length vs then Ok (SV (length vs) (nth_error vs))
                else Throw DimensionException))
  | VEq a b => mon st a (fun u => mon st b (fun v => (st, Ok (ABool (seqv u v)))))
  | VBuild k dup is vs =>
      mon st k (fun w =>
        if length is =? length vs then
          put st k (if forallb (fun i => i <? sv_n w) is
                    then Ok (SV (sv_n w) (fun i =>
                           osum dup (map (fun t => Some (snd t))
                                      (filter (fun t => fst t =? i) (combine is vs)))))
                    else Throw IndexOutOfBoundsException)
        else (st, Throw DimensionException))
  | VClear k => mon st k (fun w => put st k (Ok (SV (sv_n w) (fun _ => None))))
  | VNvals k => mon st k (fun w => (st, Ok (ANum (Z.of_nat (vcount (sv_n w) (sv_map w))))))
  | VResize k n =>
      mon st k (fun w => if n =? 0 then (st, Throw InvalidValueException)
        else put st k (Ok (SV n (fun i => if i <? n then sv_map w i else None))))
  | VHas k i => mon st k (fun w =>
      (st, if i <? sv_n w then Ok (ABool (is_some (sv_map w i)))
           else Throw IndexOutOfBoundsException))
  | VSet k i v => mon st k (fun w =>
      put st k (if i <? sv_n w then Ok (svset w i (Some v)) else Throw IndexOutOfBoundsException))
  | VRemove k i => mon st k (fun w =>
      put st k (if i <? sv_n w then Ok (svset w i None) else Throw IndexOutOfBoundsException))
  | VExtract k i => mon st k (fun w =>
      (st, if i <? sv_n w then match sv_map w i with
                               | Some v => Ok (AVal v)
                               | None => Throw NoValueException
                               end
           else Throw IndexOutOfBoundsException))
  | VTuples k => mon st k (fun w => (st, Ok (ATuples (svtuples w))))
  end.
End Spec.

(** Calls that do not observe the element count. *)
Definition velem_call {T : Type} (c : vcall T) : Prop :=
  match c with VNvals _ | VEq _ _ => False | _ => True end.

(** Calls that do not run into the counting defects: no fill constructor and no
    duplicate index given to [build]. *)
Definition vclean_call {T : Type} (c : vcall T) : Prop :=
  match c with
  | VFill _ _ => False
  | VBuild _ _ is _ => NoDup is
  | _ => True
  end.

(** Calls of [operator==], the only ones that need equality on the element type to be
    exact. *)
Definition is_meq {T : Type} (c : mcall T) : bool :=
  match c with MEq _ _ => true | _ => false end.
Definition is_veq {T : Type} (c : vcall T) : bool :=
  match c with VEq _ _ => true | _ => false end.

(** What [hasElement] reports, as a map. *)
Definition mhas {T : Type} (M : lil T) : smat unit :=
  fun i j => match lil_hasElement M i j with Ok true => Some tt | _ => None end.
Definition vhas {T : Type} (w : bvec T) : svec unit :=
  fun i => match vec_hasElement w i with Ok true => Some tt | _ => None end.

(** Row-major order on tuples; order on vector tuples. *)
Definition pos_lt {T : Type} (a b : nat * nat * T) : Prop :=
  let '(i, j, _) := a in let '(i', j', _) := b in i < i' \/ i = i' /\ j < j'.
Definition idx_lt {T : Type} (a b : nat * T) : Prop := fst a < fst b.
