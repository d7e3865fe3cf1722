(** Rounding errors of sums and sums of products. *)
From Coq Require Import ZArith Floats.SpecFloat.
From Verif Require Import Base ModelLil ModelVec ModelViews ModelFloat Spec SpecOps SpecFloats SpecMstTypes.
Local Open Scope Z_scope.

(** The values present, in order. *)
Definition present {T : Type} (l : list (option T)) : list T :=
  flat_map (fun o => match o with Some x => [x] | None => [] end) l.
Definition opair {S T : Type} (x : option S) (y : option T) : option (S * T) :=
  match x, y with Some a, Some b => Some (a, b) | _, _ => None end.
Definition total (l : list Z) : Z := fold_right Z.add 0 l.
Definition magnitude (l : list Z) : Z := total (map Z.abs l).

(** Finite values are multiples ([multiple]) of the smallest positive number eta = 2^(3 - emax - prec) of the type; 1 and 2^emax are
    the following multiples of eta. *)
Definition ulps (t : ftype) : Z := 2 ^ (emax t + prec t - 3).
Definition overflow_threshold (t : ftype) : Z := 2 ^ (emax t + (emax t + prec t - 3)).
(** u = 1 / U is the largest relative error of one rounding. *)
Definition U (t : ftype) : Z := 2 ^ prec t.

(** [x], unless it has overflowed, differs from the exact sum of [xs] by at most (n - 1) u sum |xs|, where n is the number of
    terms. *)
Definition sum_accurate (t : ftype) (xs : list fval) (x : fval) : Prop :=
  finite x ->
  U t * Z.abs (multiple t x - total (map (multiple t) xs)) <= (Z.of_nat (length xs) - 1) * magnitude (map (multiple t) xs).
(** 2 (1 + n u) sum |xs| <= 2^emax. *)
Definition sum_in_range (t : ftype) (xs : list fval) : Prop :=
  Forall finite xs /\
  2 * (U t + Z.of_nat (length xs)) * magnitude (map (multiple t) xs) <= U t * overflow_threshold t.

(** The exact products, multiples of eta^2. *)
Definition products (t : ftype) (ps : list (fval * fval)) : list Z :=
  map (fun p => multiple t (fst p) * multiple t (snd p)) ps.
(** [x], unless it has overflowed, differs from the exact sum of the products [ps] by at most
    n u (1 + u) sum |ps| + n (1 + n u) eta / 2. *)
Definition dot_accurate (t : ftype) (ps : list (fval * fval)) (x : fval) : Prop :=
  let n := Z.of_nat (length ps) in
  finite x ->
  2 * U t * U t * Z.abs (multiple t x * ulps t - total (products t ps)) <=
    2 * n * (U t + 1) * magnitude (products t ps) + n * U t * (U t + n) * ulps t.
(** 2 (1 + n u) ((1 + u) sum |ps| + n eta / 2) <= 2^emax. *)
Definition dot_in_range (t : ftype) (ps : list (fval * fval)) : Prop :=
  let n := Z.of_nat (length ps) in
  Forall (fun p => finite (fst p) /\ finite (snd p)) ps /\
  (U t + n) * (2 * (U t + 1) * magnitude (products t ps) + n * U t * ulps t) <= U t * U t * ulps t * overflow_threshold t.

(** [x] is an accurate sum of [xs], finite if these are in range. *)
Definition sums (t : ftype) (xs : list fval) (x : fval) : Prop :=
  value t x /\ sum_accurate t xs x /\ (sum_in_range t xs -> finite x).
(** An element that is an accurate sum of [xs], or of products, and absent if there are none. *)
Definition osums (t : ftype) (xs : list fval) (o : option fval) : Prop :=
  match o with Some x => xs <> [] /\ sums t xs x | None => xs = [] end.
Definition odots (t : ftype) (ps : list (fval * fval)) (o : option fval) : Prop :=
  match o with
  | Some x => ps <> [] /\ value t x /\ dot_accurate t ps x /\ (dot_in_range t ps -> finite x)
  | None => ps = []
  end.

(** Stored values of type [t]. *)
Definition mvalues (t : ftype) (A : mview fval) : Prop := forall i j x, sview A i j = Some x -> value t x.
Definition vvalues (t : ftype) (u : bvec fval) : Prop := forall i x, vget u i = Some x -> value t x.
