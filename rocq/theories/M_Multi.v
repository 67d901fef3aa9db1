(** Model of src/main.rs:194-225 (run_multi_threads): one task per service, joined by main; and of
    the connection tasks spawned by the accept loops (src/main.rs:86-89, 128-160). *)
From Verif Require Export M_Base.

(** How a service's task ends: run returned Ok or Err (:211-216), or panicked (:208-210). *)
Inductive ending := Finished | Failed | Panicked.
(** A service's task: running, ended but not yet joined, joined. *)
Inductive task := Running | Ended (r : ending) | Joined (r : ending).
(** A connection's task: serving, or through with its last response. *)
Inductive serving := Busy | Through.

(** [conns]: all connections spawned so far, with the service they belong to.  [reports]: the errors
    logged by main at :209 and :213, by service, in order.  [back]: block_on has returned and the
    runtime has been dropped, which cancels every task that is left (tokio: "Shutting down the
    runtime is done by dropping the value"; tasks are dropped at their next await). *)
Record runtime := Runtime {
  tasks : list task;
  conns : list (nat * serving);
  reports : list nat;
  back : bool
}.

(** [Connect i]: service [i]'s accept loop spawns the task of a new connection.  [Serve c]: the
    [c]-th connection is served to its end.  [Return i r]: service [i]'s task ends.  [Join i]:
    join_next yields service [i]'s task, any of the ended ones.  [Empty]: join_next yields None. *)
Inductive act := Connect (i : nat) | Serve (c : nat) | Return (i : nat) (r : ending) | Join (i : nat) | Empty.

Definition is_joined (t : task) : bool := match t with Joined _ => true | _ => false end.

Definition act_step (rt : runtime) (a : act) : option runtime :=
  if back rt then None else
  match a with
  | Connect i =>
      match nth_error (tasks rt) i with
      | Some Running => Some (Runtime (tasks rt) (conns rt ++ [(i, Busy)]) (reports rt) false)
      | _ => None
      end
  | Serve c =>
      match nth_error (conns rt) c with
      | Some (i, Busy) => Some (Runtime (tasks rt) (update_nth c (fun _ => (i, Through)) (conns rt)) (reports rt) false)
      | _ => None
      end
  | Return i r =>
      match nth_error (tasks rt) i with
      | Some Running => Some (Runtime (update_nth i (fun _ => Ended r) (tasks rt)) (conns rt) (reports rt) false)
      | _ => None
      end
  | Join i =>
      match nth_error (tasks rt) i with
      | Some (Ended r) =>
          Some (Runtime (update_nth i (fun _ => Joined r) (tasks rt)) (conns rt)
                  (match r with Finished => reports rt | _ => reports rt ++ [i] end) false)
      | _ => None
      end
  | Empty =>
      if forallb is_joined (tasks rt) then Some (Runtime (tasks rt) (conns rt) (reports rt) true) else None
  end.
Fixpoint acts_run (rt : runtime) (l : list act) : option runtime :=
  match l with
  | [] => Some rt
  | a :: r => match act_step rt a with Some rt' => acts_run rt' r | None => None end
  end.
(** :204-206: all tasks are spawned before the first join *)
Definition multi_threads (services : nat) : runtime := Runtime (repeat Running services) [] [] false.
