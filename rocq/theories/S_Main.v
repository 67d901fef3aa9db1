(** Connections, independently of the code. *)
From Verif Require Export M_Main.

(** the connections accepted, in order; every one has a number of its own *)
Fixpoint accepted (l : list event) : list conn :=
  match l with [] => [] | Accept (Some c) :: r => c :: accepted r | _ :: r => accepted r end.
(** the connections whose handshake succeeded, in order *)
Fixpoint established (l : list event) : list conn :=
  match l with [] => [] | Shake c Established :: r => c :: established r | _ :: r => established r end.
(** failures of single connections, or of accept itself *)
Definition failure (ev : event) : bool :=
  match ev with Accept None => true | Shake _ Rejected => true | Shake _ TimedOut => true | _ => false end.
Definition without_failures (l : list event) : list event := filter (fun ev => negb (failure ev)) l.
