(** Waiting for services, independently of the code. *)
From Verif Require Export M_PerCore.

Definition all_ended (p : process) : Prop := Forall (fun t => t = Ended) (threads p).
(** every service's thread has got its lock before main first looks *)
Definition prompt (l : list move) (services : nat) : Prop :=
  forall l1 l2, l = l1 ++ Look :: l2 -> forall i, i < services -> In (Begin i) l1.
