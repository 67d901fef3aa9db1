(** Model of the time a TLS handshake may take: src/main.rs:127-158, with tokio::time::timeout. *)
From Verif Require Export M_Main.

(** The task of an accepted TLS connection (:130-158) until its handshake ends.  [k_begun]: the time
    at which the task ran first, where the deadline is set (:131).  [k_arrived]: acceptor.accept has
    got the last message it waits for; true if it is acceptable.  [k_fired]: the timer has told the
    task that its deadline has come.  Simplified: the messages of the handshake before the last are
    not told apart, rustls itself is not modelled. *)
Record shaker := Shaker { k_conn : conn; k_begun : option N; k_arrived : option bool; k_fired : bool }.

(** [Later d]: d milliseconds pass.  [Loop ev]: the accept loop goes on (M_Main.v; not [Shake]).
    [Arrives c ok]: the last message of the handshake of c arrives (one that is there before c is
    accepted counts as arriving then; one that comes after the end changes nothing).  [Fires c]: tokio's timer, which
    never fires early, wakes the task of c.  [Runs c]: a worker runs the task of c. *)
Inductive timed := Later (d : N) | Loop (ev : event) | Arrives (c : conn) (ok : bool) | Fires (c : conn) | Runs (c : conn).

Record timed_state := TimedState { now : N; loop : loop_state; shakers : list shaker; ends : list (conn * handshake) }.
Definition timed_start : timed_state := TimedState 0 loop_start [] [].

(** tokio::time::Timeout::poll asks the handshake first and the timer after it (:131-134). *)
Definition run_shaker (t : N) (k : shaker) : shaker + handshake :=
  match k_arrived k with
  | Some ok => inr (if ok then Established else Rejected)                    (* :138-147 *)
  | None => if k_fired k then inr TimedOut                                   (* :150-155 *)
            else inl (Shaker (k_conn k) (Some (match k_begun k with Some b => b | None => t end)) None false)
  end.

Definition find_shaker (c : conn) (l : list shaker) : option shaker := find (fun k => k_conn k =? c) l.
Definition update_shaker (c : conn) (f : shaker -> shaker) (l : list shaker) : list shaker :=
  map (fun k => if k_conn k =? c then f k else k) l.
Definition drop_shaker (c : conn) (l : list shaker) : list shaker := filter (fun k => negb (k_conn k =? c)) l.

(** [timeout]: config.tcp.tls.timeout (:181, 185), in milliseconds *)
Definition timed_step (scfg : bytes) (timeout : N) (st : timed_state) (ev : timed) : option timed_state :=
  match ev with
  | Later d => Some (TimedState (now st + d) (loop st) (shakers st) (ends st))
  | Loop (Shake _ _) => None
  | Loop ev =>
      match loop_step (Some scfg) (loop st) ev with
      | Some l => Some (TimedState (now st) l
                    (shakers st ++ match ev with Accept (Some c) => [Shaker c None None false] | _ => [] end) (ends st))
      | None => None
      end
  | Arrives c ok =>
      if existsb (Nat.eqb c) (map k_conn (shakers st) ++ map fst (ends st))
      then Some (TimedState (now st) (loop st)
                   (update_shaker c (fun k => Shaker c (k_begun k) (match k_arrived k with Some o => Some o | None => Some ok end) (k_fired k))
                      (shakers st)) (ends st))
      else None
  | Fires c =>
      match find_shaker c (shakers st) with
      | Some (Shaker _ (Some b) _ _) =>
          if (b + timeout <=? now st)%N
          then Some (TimedState (now st) (loop st) (update_shaker c (fun k => Shaker c (k_begun k) (k_arrived k) true) (shakers st)) (ends st))
          else None
      | _ => None
      end
  | Runs c =>
      match find_shaker c (shakers st) with
      | Some k =>
          match run_shaker (now st) k with
          | inl k' => Some (TimedState (now st) (loop st) (update_shaker c (fun _ => k') (shakers st)) (ends st))
          | inr h =>
              match loop_step (Some scfg) (loop st) (Shake c h) with
              | Some l => Some (TimedState (now st) l (drop_shaker c (shakers st)) (ends st ++ [(c, h)]))
              | None => None
              end
          end
      | None => None
      end
  end.
Fixpoint timed_run (scfg : bytes) (timeout : N) (st : timed_state) (l : list timed) : option timed_state :=
  match l with
  | [] => Some st
  | ev :: r => match timed_step scfg timeout st ev with Some st' => timed_run scfg timeout st' r | None => None end
  end.
