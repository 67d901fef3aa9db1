(** What clients of the running program are sent. *)
From Verif Require Export S_Config2 S_Main S_Resp S_Net S_Stream S_Got S_Ends M_System.

(** the services the program goes on with *)
Definition starts (st : start) : list service_config :=
  match st with NoServices => [] | PerCore l | MultiThreads l => l end.

(** the greetings for requests with the versions [vs], the first of them with [S k] greetings *)
Inductive greets : nat -> list bytes -> bytes -> Prop :=
| greets_none k : greets k [] []
| greets_next k v vs line more : greeting_line v line -> greets (S k) vs more ->
    let body := concat (repeat (B "Hello world!") (S k)) in
    greets k (v :: vs) (response line [(B "server", B "httpd.rs");
                                       (B "content-length", dec (N.of_nat (length body)))] body ++ more).

(** what the file service sends for [n] requests *)
Definition shrugs (n : nat) : bytes :=
  concat (repeat (B "  " ++ CRLF ++ B "content-length: 0" ++ CRLF ++ CRLF) n).

(** the buffers of a connection have room for what the settings ask for *)
Definition has_room (s : service_config) (c : client) : Prop := forall k, (t_buf (s_tcp s) <= cl_caps c k)%N.

(** a client that sends the requests [qs], in whatever pieces, and reads what it is sent as long as
    that is not more than [n] bytes *)
Definition asks (fuel : nat) (s : service_config) (qs : list request) (n : nat) (c : client) : Prop :=
  has_room s c /\ enough fuel (cl_reader c) /\ Forall (request_ok (s_http s)) qs
  /\ flat (cl_reader c) = wires qs
  /\ fresh (cl_socket c) /\ Forall reads (so_next (cl_socket c))
  /\ n + length qs < length (so_next (cl_socket c)).

(** it has got exactly [d], and the connection waits for more requests if it may *)
Definition has_got {K} (c : client) (d : bytes) (n : net_result K) : Prop :=
  so_sent (bw_sock (nr_writer n)) = d
  /\ nr_end n = Ended (match fin (cl_reader c) with Stall => EndBlocked | _ => EndClosed end).
