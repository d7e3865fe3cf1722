(** Spanning trees with machine weights. *)
From Coq Require Import ZArith Floats.SpecFloat.
From Verif Require Import Base ModelFloat.

(** The weights of the edges [es] added up with [plus], in that order, starting from [zero]. *)
Definition added {D : Type} (plus : D -> D -> D) (zero : D) (w : nat -> nat -> option D) (es : list (nat * nat)) : D :=
  fold_left (fun acc e => match w (fst e) (snd e) with Some x => plus acc x | None => acc end) es zero.

(** The value of a finite number of type [t] as a multiple of the smallest positive number of the type, 2^(3 - emax - prec). *)
Definition multiple (t : ftype) (x : fval) : Z :=
  match x with
  | S754_finite s m e => (if s then -1 else 1) * (Zpos m * 2 ^ (e - (3 - emax t - prec t)))
  | _ => 0
  end%Z.
