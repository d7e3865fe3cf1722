(** Related scalars and containers: a relation between two scalar types (for instance "the machine number [x] is the integer
    [z]"), extended to containers, masks and accumulators. *)
From Verif Require Import Base ModelLil ModelVec ModelHelpers ModelViews Spec SpecOps.

(** Functions that take related arguments to related results. *)
Definition rel1 {A A' B B' : Type} (RA : A -> A' -> Prop) (RB : B -> B' -> Prop) (f : A -> B) (f' : A' -> B') : Prop :=
  forall x x', RA x x' -> RB (f x) (f' x').
Definition rel2 {A A' B B' C C' : Type} (RA : A -> A' -> Prop) (RB : B -> B' -> Prop) (RC : C -> C' -> Prop)
    (f : A -> B -> C) (f' : A' -> B' -> C') : Prop :=
  forall x x' y y', RA x x' -> RB y y' -> RC (f x y) (f' x' y').

(** Both present and related, or both absent. *)
Definition orel {A A' : Type} (R : A -> A' -> Prop) (o : option A) (o' : option A') : Prop :=
  match o, o' with
  | Some x, Some x' => R x x'
  | None, None => True
  | _, _ => False
  end.

(** Containers of the same shape with related elements at the same positions. *)
Definition mrel {A A' : Type} (R : A -> A' -> Prop) (M : lil A) (M' : lil A') : Prop :=
  wfm M /\ wfm M' /\ nrows M = nrows M' /\ ncols M = ncols M' /\ forall i j, orel R (mget M i j) (mget M' i j).
Definition vrel {A A' : Type} (R : A -> A' -> Prop) (u : bvec A) (u' : bvec A') : Prop :=
  wfv u /\ wfv u' /\ vsize u = vsize u' /\ forall i, orel R (vget u i) (vget u' i).

(** Operands. *)
Definition viewrel {A A' : Type} (R : A -> A' -> Prop) (V : mview A) (V' : mview A') : Prop :=
  match V, V' with
  | Mat M, Mat M' => mrel R M M'
  | Trn M, Trn M' => mrel R M M'
  | _, _ => False
  end.

(** Masks of the same kind. *)
Definition maskrel {X X' : Type} (R : X -> X' -> Prop) (m : mask X) (m' : mask X') : Prop :=
  match m, m' with
  | NoMask, NoMask => True
  | MVal M, MVal M' | MComp M, MComp M' | MStruct M, MStruct M' | MSComp M, MSComp M' => R M M'
  | _, _ => False
  end.

(** Accumulators. *)
Definition accrel {C C' T T' Z Z' : Type} (RC : C -> C' -> Prop) (RT : T -> T' -> Prop) (RZ : Z -> Z' -> Prop)
    (a : accum C T Z) (a' : accum C' T' Z') : Prop :=
  match a, a' with
  | NoAcc tz, NoAcc tz' => rel1 RT RZ tz tz'
  | Acc f cz tz, Acc f' cz' tz' => rel2 RC RT RZ f f' /\ rel1 RC RZ cz cz' /\ rel1 RT RZ tz tz'
  | _, _ => False
  end.

(** Both calls return, with related containers. *)
Definition mresult {A A' : Type} (R : A -> A' -> Prop) (r : res (lil A)) (r' : res (lil A')) : Prop :=
  exists M M', r = Ok M /\ r' = Ok M' /\ mrel R M M'.
Definition vresult {A A' : Type} (R : A -> A' -> Prop) (r : res (bvec A)) (r' : res (bvec A')) : Prop :=
  exists u u', r = Ok u /\ r' = Ok u' /\ vrel R u u'.
