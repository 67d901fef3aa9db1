(** Listening, independently of how services are started. *)
From Verif Require Export S_Load M_Listen.

Definition listening (st : units) (i : nat) (a : N) : Prop := nth_error (u_states st) i = Some (Listens a).

(** [a] is the first of the addresses [text] stands for that can be listened on beside [taken] *)
Definition can_have (net : network) (taken : list N) (a : N) : Prop :=
  n_allows net a = true /\ forall b, In b taken -> n_clash net a b = false.
Definition first_of (net : network) (taken : list N) (text : bytes) (a : N) : Prop :=
  exists before after, n_resolve net text = before ++ a :: after /\ can_have net taken a
  /\ forall b, In b before -> ~ can_have net taken b.

(** the text stands for one address only, with a fixed port: nobody can listen twice on it *)
Definition fixed_address (net : network) (text : bytes) : Prop :=
  exists a, n_resolve net text = [a] /\ n_clash net a a = true.

(** the same service with another host *)
Definition with_host (s : service_config) (host : str) : service_config :=
  ServiceConfig (s_idx s) (s_name s) host (s_kind s) (s_logging s) (s_tcp s) (s_http s).

(** a built-in service whose certificate, if any, can be used *)
Definition presentable (x : tls_env) (s : service_config) : Prop :=
  (s_kind s = HelloService \/ exists root, s_kind s = FileService root)
  /\ exists tls, tls_load x (t_tls (s_tcp s)) = Done tls.
