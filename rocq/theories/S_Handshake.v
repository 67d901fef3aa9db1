(** The time a TLS handshake takes, independently of the code: in terms of what happens, in order. *)
From Verif Require Export M_Handshake S_Main.

(** how much time passes *)
Fixpoint passed (l : list timed) : N :=
  match l with [] => 0 | Later d :: r => d + passed r | _ :: r => passed r end%N.
(** what the accept loop does *)
Fixpoint loop_events (l : list timed) : list event :=
  match l with [] => [] | Loop ev :: r => ev :: loop_events r | _ :: r => loop_events r end.
(** the connections accepted, in order; every one has a number of its own *)
Definition taken (l : list timed) : list conn := accepted (loop_events l).
(** the last message of the handshake has not arrived *)
Definition nothing_arrives (c : conn) (l : list timed) : Prop := forall ok, ~ In (Arrives c ok) l.
(** the handshakes that succeeded, in the order in which they ended *)
Definition succeeded (l : list (conn * handshake)) : list conn :=
  map fst (filter (fun p => match snd p with Established => true | _ => false end) l).
(** timers and workers are at most [delay] late: a task that has run and whose time is over by more
    has been woken by its timer and has run after that *)
Definition prompt (timeout delay : N) (l : list timed) : Prop :=
  forall l1 c l2, l = l1 ++ Runs c :: l2 -> (timeout + delay < passed l2)%N ->
  exists a b, l2 = a ++ Fires c :: b /\ In (Runs c) b.
