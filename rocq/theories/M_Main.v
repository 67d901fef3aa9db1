(** Model of src/main.rs:67-192 (starting a service and its accept loop) and src/config/tls.rs:34-57. *)
From Verif Require Export M_Config.

(** ** Loading the certificate *)

(** What lies outside: opening a file (src/config/tls.rs:41, 47) and reading it, the PEM and TLS
    libraries.  Certificates, keys and server configurations are opaque. *)
Record tls_env := TlsEnv {
  x_open : bytes -> option bytes;
  x_certs : bytes -> list (option bytes);
  x_key : bytes -> option (option bytes);
  x_server : list bytes -> bytes -> option bytes;
  x_bind : bytes -> bool
}.

(** src/config/tls.rs:40-44: the certificates, or the first error *)
Fixpoint all_certs (l : list (option bytes)) : option (list bytes) :=
  match l with
  | [] => Some []
  | None :: _ => None
  | Some c :: r => match all_certs r with Some cs => Some (c :: cs) | None => None end
  end.

(** An operation that can fail: anyhow::Result *)
Inductive attempt (A : Type) := Fail | Done (a : A).
Arguments Fail {A}.
Arguments Done {A} _.

(** src/config/tls.rs:34-57 *)
Definition tls_load (x : tls_env) (t : tls_config) : attempt (option bytes) :=
  match tls_cert t, tls_key t with
  | [], [] => Done None
  | _, _ =>
      match x_open x (tls_cert t) with
      | None => Fail
      | Some pem =>
          match all_certs (x_certs x pem) with
          | None => Fail
          | Some certs =>
              match x_open x (tls_key t) with
              | None => Fail
              | Some pem' =>
                  match x_key x pem' with
                  | Some (Some key) =>
                      match x_server x certs key with
                      | Some scfg => Done (Some scfg)
                      | None => Fail
                      end
                  | _ => Fail
                  end
              end
          end
      end
  end.

(** src/main.rs:168-192 up to the accept loop, and accept_loop's choice (:73-78): an error, a panic
    (todo!()), or an accept loop, in plain text ([None]) or with a TLS configuration.  The services'
    init (src/services/helloworld.rs:24-26, fs.rs:22-24) does nothing. *)
Definition run (x : tls_env) (s : service_config) : outcome (attempt (option bytes)) :=
  if x_bind x (t_addr (s_tcp s)) then
    match tls_load x (t_tls (s_tcp s)) with
    | Fail => Ret Fail
    | Done tls =>
        match s_kind s with
        | HelloService | FileService _ => Ret (Done tls)
        | ForwardService | UpstreamService => Panic
        end
    end
  else Ret Fail.

(** ** The accept loop: src/main.rs:80-106, 115-165 *)

Definition conn := nat.
(** The handshake's three ends (:131-159) *)
Inductive handshake := Established | Rejected | TimedOut.

(** What happens, in order.  [Poll]: a select! polls its second branch, which subscribes to Ctrl-C
    (tokio::signal::ctrl_c() is created anew in every round).  [Interrupt]: the runtime hands a
    Ctrl-C to all subscribers of that moment.  [Accept]: the accept branch is ready and chosen; the
    other branch is dropped, its subscription with it.  [Stop]: the Ctrl-C branch is ready and
    chosen.  [Shake]: the handshake of an accepted connection ends, in its own task. *)
Inductive event := Poll | Interrupt | Accept (c : option conn) | Stop | Shake (c : conn) (h : handshake).

(** [served]: the connections handed to serve, with the flag over_tls *)
Record loop_state := LoopState {
  subscribed : bool;
  delivered : bool;
  stopped : bool;
  shaking : list conn;
  served : list (conn * bool)
}.
Definition loop_start : loop_state := LoopState false false false [] [].

(** one round's end *)
Definition next_round (st : loop_state) (shaking' : list conn) (served' : list (conn * bool)) : loop_state :=
  LoopState false false (stopped st) shaking' served'.

Definition remove_conn (c : conn) (l : list conn) : list conn := filter (fun d => negb (d =? c)) l.

Definition loop_step (tls : option bytes) (st : loop_state) (ev : event) : option loop_state :=
  match ev with
  | Poll => if stopped st then None
            else Some (LoopState true (delivered st) false (shaking st) (served st))
  | Interrupt => Some (LoopState (subscribed st) (delivered st || subscribed st) (stopped st) (shaking st) (served st))
  | Accept c =>
      if stopped st then None
      else match c, tls with
           | None, _ => Some (next_round st (shaking st) (served st))            (* :91-96, 119-124 *)
           | Some c, None => Some (next_round st (shaking st) (served st ++ [(c, true)]))   (* :84-90 *)
           | Some c, Some _ => Some (next_round st (shaking st ++ [c]) (served st))         (* :125-129 *)
           end
  | Stop => if negb (stopped st) && delivered st
            then Some (LoopState false false true (shaking st) (served st)) else None
  | Shake c h =>
      if existsb (Nat.eqb c) (shaking st) then
        let rest := remove_conn c (shaking st) in
        match h with
        | Established => Some (LoopState (subscribed st) (delivered st) (stopped st) rest (served st ++ [(c, false)]))
        | Rejected | TimedOut => Some (LoopState (subscribed st) (delivered st) (stopped st) rest (served st))
        end
      else None
  end.
Fixpoint loop_run (tls : option bytes) (st : loop_state) (l : list event) : option loop_state :=
  match l with
  | [] => Some st
  | ev :: r => match loop_step tls st ev with Some st' => loop_run tls st' r | None => None end
  end.
