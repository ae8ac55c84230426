(** Vocabulary for C48: sums, extremes and doubles that are whole numbers. *)
From Coq Require Import SpecFloat.
From Verif Require Import Base.

Fixpoint total (ls : list Z) : Z := match ls with [] => 0 | x :: ls => x + total ls end.
Definition squares (ls : list Z) : Z := total (map (fun x => x * x) ls).
Definition least (ls : list Z) (m : Z) : Prop := In m ls /\ forall x, In x ls -> m <= x.
Definition greatest (ls : list Z) (m : Z) : Prop := In m ls /\ forall x, In x ls -> x <= m.

(** The lengths of the packets of one direction. *)
Definition lengths (dir : bool) (h : list (bool * bytes)) : list Z :=
  map (fun x => len (snd x)) (filter (fun x => Bool.eqb (fst x) dir) h).

(** The double [d] is the whole number [n], without rounding: m * 2^e = n. *)
Definition is_number (d : spec_float) (n : Z) : Prop :=
  match d with
  | S754_zero s => s = false /\ n = 0
  | S754_finite s m e => s = false /\ if 0 <=? e then Z.pos m * 2 ^ e = n else Z.pos m = n * 2 ^ (- e)
  | _ => False
  end.
(** The double [d] is a nearest one to the fraction [a / b] (positive numbers): it has
    53 bits and is off by at most half a unit in the last place. *)
Definition is_quotient (d : spec_float) (a b : Z) : Prop :=
  match d with
  | S754_zero s => s = false /\ a = 0
  | S754_finite s m e => s = false /\ 2 ^ 52 <= Z.pos m < 2 ^ 53 /\
      if 0 <=? e then 2 * Z.abs (Z.pos m * 2 ^ e * b - a) <= 2 ^ e * b
      else 2 * Z.abs (Z.pos m * b - a * 2 ^ (- e)) <= b
  | _ => False
  end.
(** The double [d] is a nearest one to the square root of [v]: with m * 2^e for the
    double, (m - 1/2)^2 <= v / 2^(2e) <= (m + 1/2)^2. *)
Definition is_root (d : spec_float) (v : Z) : Prop :=
  match d with
  | S754_zero s => s = false /\ v = 0
  | S754_finite s m e => s = false /\ 2 ^ 52 <= Z.pos m < 2 ^ 53 /\ e <= 0 /\
      (2 * Z.pos m - 1) * (2 * Z.pos m - 1) <= v * 2 ^ (2 - 2 * e) <= (2 * Z.pos m + 1) * (2 * Z.pos m + 1)
  | _ => False
  end.
