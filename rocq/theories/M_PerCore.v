(** Model of src/main.rs:227-268: one thread per service, and the lock main waits on. *)
From Verif Require Export M_Base.

(** A service thread: started but not yet holding the read lock (before :233), running its service
    with the read lock (:233-248), ended (its read lock is released, also by a panic, and read
    guards do not poison). *)
Inductive thread := Starting | Holding | Ended.
(** main: in the loop at :230-252 with so many services left, in the loop at :255-265, blocked at
    :267, or returned, with an error (a thread could not be created) or not. *)
Inductive main_phase := Spawning (left : nat) | Looking | Blocking | Returned (ok : bool).
Record process := Process { threads : list thread; main : main_phase }.

(** [Spawn]: main creates the next thread, or fails to.  [Begin], [End]: thread [i] gets its read
    lock, and ends.  [Look]: try_write; when it succeeds the guard is dropped at once and the loop
    goes round.  [Acquire]: write returns.  A thread is never prevented from getting the read lock;
    some implementations prevent it while main is blocked, which makes fewer schedules possible. *)
Inductive move := Spawn (ok : bool) | Begin (i : nat) | End (i : nat) | Look | Acquire.

Definition is_holding (t : thread) : bool := match t with Holding => true | _ => false end.

Definition move_step (p : process) (m : move) : option process :=
  match m with
  | Spawn ok =>
      match main p with
      | Spawning (S k) =>
          if ok then Some (Process (threads p ++ [Starting]) (Spawning k))
          else Some (Process (threads p) (Returned false))
      | _ => None
      end
  | Begin i =>
      match nth_error (threads p) i with
      | Some Starting => Some (Process (update_nth i (fun _ => Holding) (threads p)) (main p))
      | _ => None
      end
  | End i =>
      match nth_error (threads p) i with
      | Some Holding => Some (Process (update_nth i (fun _ => Ended) (threads p)) (main p))
      | _ => None
      end
  | Look =>
      match main p with
      | Spawning 0 | Looking =>
          Some (Process (threads p) (if existsb is_holding (threads p) then Blocking else Looking))
      | _ => None
      end
  | Acquire =>
      match main p with
      | Blocking => if existsb is_holding (threads p) then None else Some (Process (threads p) (Returned true))
      | _ => None
      end
  end.
Fixpoint moves_run (p : process) (l : list move) : option process :=
  match l with
  | [] => Some p
  | m :: r => match move_step p m with Some p' => moves_run p' r | None => None end
  end.
Definition per_core (services : nat) : process := Process [] (Spawning services).
