(** How statements speak about a byte stream: only through the bytes still to come and how the
    stream ends, never through its segmentation. *)
From Verif Require Export M_Reader.

(** the bytes still to come, and how they end *)
Definition flat (r : reader) : bytes := concat (segs r).

Definition oflat {A} (x : outcome (A * reader)) : outcome (A * (bytes * ending)) :=
  match x with
  | Ret (a, r) => Ret (a, (flat r, fin r))
  | Panic => Panic | UB => UB | Blocked => Blocked | NoFuel => NoFuel
  end.

(** more iterations than the stream has bytes *)
Definition enough (fuel : nat) (r : reader) : Prop := length (flat r) < fuel.
