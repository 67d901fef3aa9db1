(** What HTTP asks of a server beyond reading requests and writing responses. *)
From Verif Require Export S_Ends.

(** the lengths a head states *)
Definition lengths (h : S_Wire.head) : list bytes := values_of (B "content-length") (hd_fields h).
(** a head that states the length of its body in two ways: two numbers that differ, or a number
    beside a transfer coding (RFC 9112, 6.3) *)
Definition conflicting (h : S_Wire.head) : Prop :=
  (exists v v' n n', In v (lengths h) /\ In v' (lengths h) /\ numeral v n /\ numeral v' n' /\ n <> n')
  \/ (lengths h <> [] /\ values_of (B "transfer-encoding") (hd_fields h) <> []).

(** the client says it waits for "100 Continue" before it sends the body (RFC 9110, 10.1.1) *)
Definition waits_to_continue (h : S_Wire.head) : Prop :=
  exists v, In v (values_of (B "expect") (hd_fields h)) /\ lower v = B "100-continue".

(** the client asks for the connection to be closed after the answer (RFC 9112, 9.6) *)
Definition asks_close (h : S_Wire.head) : Prop :=
  exists v, In v (values_of (B "connection") (hd_fields h)) /\ lower v = B "close".

(** no request stands at the start of [s] *)
Definition no_request (e : ending) (cfg : http_config) (s : bytes) : Prop :=
  forall q rest, ~ requests_at e cfg s [q] rest.

(** the response [d] consists of a head and the body [body] *)
Definition carries_body (d body : bytes) : Prop :=
  exists line fs, d = response line fs body /\ one_line line
  /\ Forall (fun f => one_line (fst f) /\ ~ In COLON (fst f) /\ one_line (snd f)) fs.
(** a handler that writes these texts to the body of its response, and nothing else to the body *)
Definition puts {K} (f : message K -> list rop * protocol) (texts : message K -> list bytes) : Prop :=
  forall req, Forall rop_fine (fst (f req)) /\ headers_sound (fst (f req))
  /\ all_of says_body (fst (f req)) = map BWrite (texts req).
