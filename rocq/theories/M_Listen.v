(** Model of src/main.rs:168-192, 194-225 and 270-290: where the services of a running program listen,
    and how the program ends. *)
From Verif Require Export M_System.

(** What lies outside: the socket addresses a text stands for, in the order they are tried (tokio's
    TcpListener::bind: none if the text cannot be understood, as the empty text), whether the system lets
    the program listen on one, and whether a listener on one keeps another from listening on a
    second (the same port on the same address, or on all addresses; never for port 0).  Socket
    addresses are numbers here. *)
Record network := Network {
  n_resolve : bytes -> list N;
  n_allows : N -> bool;
  n_clash : N -> N -> bool
}.
(** TcpListener::bind: the first address that can be bound, given the addresses listened on already *)
Definition bind_first (net : network) (taken : list N) (text : bytes) : option N :=
  find (fun a => n_allows net a && forallb (fun b => negb (n_clash net a b)) taken) (n_resolve net text).

(** The task or thread of a service: not started, listening, or ended: after Ctrl-C, with an error, or
    with a panic.  Its listener is gone once it has ended. *)
Inductive ended_by := CtrlC | AnError | APanic.
Inductive unit_state := Unstarted | Listens (a : N) | IsOver (r : ended_by).
Definition listened (l : list unit_state) : list N :=
  concat (map (fun u => match u with Listens a => [a] | _ => [] end) l).

(** src/main.rs:169-190: [run] with the outcome of bind *)
Definition with_bind (x : tls_env) (ok : bool) : tls_env :=
  TlsEnv (x_open x) (x_certs x) (x_key x) (x_server x) (fun _ => ok).
Definition start_unit (net : network) (x : tls_env) (taken : list N) (s : service_config) : unit_state :=
  match bind_first net taken (t_addr (s_tcp s)) with
  | None => IsOver AnError
  | Some a =>
      match run (with_bind x true) s with
      | Ret (Done _) => Listens a
      | Ret Fail => IsOver AnError
      | _ => IsOver APanic
      end
  end.

(** [StartUnit i]: service [i] starts.  [StopUnit i]: its accept loop ends (src/main.rs:97-99,
    161-163).  [MainEnds]: main's last task or thread has been joined (:206-219); it returns Ok, the
    exit status of the program is 0 (in per-core mode main may never get that far, see C65).
    Simplified: starting is one step. *)
Inductive unit_event := StartUnit (i : nat) | StopUnit (i : nat) | MainEnds.
Record units := Units { u_states : list unit_state; u_exit : option N }.
Definition is_over (u : unit_state) : bool := match u with IsOver _ => true | _ => false end.
Definition unit_step (net : network) (x : tls_env) (services : list service_config) (st : units) (ev : unit_event) : option units :=
  match u_exit st with
  | Some _ => None
  | None =>
      match ev with
      | StartUnit i =>
          match nth_error services i, nth_error (u_states st) i with
          | Some s, Some Unstarted =>
              Some (Units (update_nth i (fun _ => start_unit net x (listened (u_states st)) s) (u_states st)) None)
          | _, _ => None
          end
      | StopUnit i =>
          match nth_error (u_states st) i with
          | Some (Listens _) => Some (Units (update_nth i (fun _ => IsOver CtrlC) (u_states st)) None)
          | _ => None
          end
      | MainEnds => if forallb is_over (u_states st) then Some (Units (u_states st) (Some 0%N)) else None
      end
  end.
Fixpoint units_run (net : network) (x : tls_env) (services : list service_config) (st : units) (l : list unit_event) : option units :=
  match l with
  | [] => Some st
  | ev :: r => match unit_step net x services st ev with Some st' => units_run net x services st' r | None => None end
  end.
Definition units_start (services : list service_config) : units := Units (map (fun _ => Unstarted) services) None.

(** src/main.rs:270-290: the exit status when nothing is started: 1 for an error returned by main,
    101 for a panic (Rust's conventions) *)
Definition early_exit (o : outcome (option (consumer * start))) : option N :=
  match o with
  | Ret None => Some 1%N
  | Ret (Some (_, NoServices)) => Some 0%N
  | Panic => Some 101%N
  | _ => None
  end.
