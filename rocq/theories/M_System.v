(** Model of src/main.rs:80-192 together with src/serve.rs and src/ctx.rs: a service from its start to
    what its clients are sent. *)
From Verif Require Export M_Program M_Main M_Net.

(** A client's connection: what it sends and how it takes what it is sent (with TLS: within the TLS
    stream), the capacity of its buffer at each request (src/ctx.rs:27, Vec::with_capacity: at least what
    is asked for) and the order in which a header table of its messages is visited (hash maps). *)
Record client := Client {
  cl_reader : reader;
  cl_socket : socket;
  cl_caps : nat -> N;
  cl_order : hash_order
}.

(** src/main.rs:179-189: the handler of a service; todo!() for the other two kinds *)
Definition handler_of (K : codec) (k : service_kind) : option (service K) :=
  match k with
  | HelloService => Some hello_http
  | FileService _ => Some fs_http
  | ForwardService | UpstreamService => None
  end.

(** src/main.rs:84-90, 131-141 (the task of a connection) and src/serve.rs:12-34: the settings are
    those of the service *)
Definition connection {K} (fuel : nat) (s : service_config) (svc : service K) (c : client) : net_result K :=
  net_serve fuel (s_tcp s) (s_http s) (cl_caps c) (cl_order c) svc (cl_reader c) (cl_socket c).

(** src/main.rs:168-192: a service that is started and then sees the events [evs]: an error
    ([Ret None]; also for events that cannot happen in this order), a panic, or the tasks of its
    connections.  Simplified: every task runs to its end (or to where it waits), a task works on
    nothing but its own connection and the service's settings, which do not change (src/main.rs:168:
    &'static; the built-in services have no state, src/services/helloworld.rs, fs.rs). *)
Definition service_life {K} (fuel : nat) (x : tls_env) (s : service_config) (clients : conn -> client)
    (evs : list event) : outcome (option (list (conn * net_result K))) :=
  r <- run x s ;;
  match r with
  | Fail => Ret None
  | Done tls =>
      match handler_of K (s_kind s), loop_run tls loop_start evs with
      | Some svc, Some st => Ret (Some (map (fun e => (fst e, connection fuel s svc (clients (fst e)))) (served st)))
      | None, _ => Panic
      | _, None => Ret None
      end
  end.
