(** Waiting for services and connections, independently of the code. *)
From Verif Require Export M_Multi.

(** the history shows service [i] ending *)
Definition has_ended (i : nat) (l : list act) : Prop := exists r, In (Return i r) l.
(** the services whose end was an error or a panic *)
Definition went_wrong (i : nat) (l : list act) : Prop := In (Return i Failed) l \/ In (Return i Panicked) l.
