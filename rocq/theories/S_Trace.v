(** What the log should say about requests, independently of the calls that make it. *)
From Verif Require Export M_Trace S_Log S_Json S_Got S_Text.

(** a record is written to some appender of the service with index [idx] *)
Definition in_log_of (k : consumer) (idx : nat) (ws : list write) : Prop :=
  exists i b a, In (i, b) ws /\ nth_error (k_appenders k) i = Some a /\ a_service a = idx.

(** header fields grouped by name, in any order of the names *)
Definition grouped (fs : list field) (l : list (bytes * list bytes)) : Prop :=
  NoDup (map fst l)
  /\ forall k vs, In (k, vs) l <-> lower k = k /\ values_of k fs = vs /\ vs <> [].
Definition header_texts (l : list (bytes * list bytes)) : list bytes :=
  concat (map (fun e => map (fun v => fst e ++ B ": " ++ v) (snd e)) l).

Definition utf8_text (s : bytes) : Prop := exists cs, Forall scalar cs /\ s = utf8 cs.
(** what is said about a body *)
Definition rule : bytes := B "---------------------".
Definition shows_body (body msg : bytes) : Prop :=
  (body = [] /\ msg = B "EmptyBody")
  \/ (body <> [] /\ utf8_text body
      /\ msg = B "PrintableBody:" ++ CRLF ++ rule ++ CRLF ++ body ++ CRLF ++ rule)
  \/ (~ utf8_text body /\ msg = B "BinaryBody: " ++ shown (N.of_nat (length body))).

(** the messages about a request: where it came from, its first line, its header fields, its body
    (after bytes [before] that are not its own) *)
Definition traced (addr before : bytes) (q : got) (msgs : list bytes) : Prop :=
  exists version hs b,
    msgs = (B "Request From " ++ addr) :: (g_method q ++ [SP] ++ g_target q ++ [SP] ++ version)
           :: hs ++ [b]
    /\ (Forall named_line (g_lines q) -> exists l, grouped (all_fields (g_lines q)) l /\ hs = header_texts l)
    /\ (g_body q <> [] -> shows_body (before ++ g_body q) b).

(** [t] stands in [s] as a line of its own *)
Definition own_line (t s : bytes) : Prop := exists a b, s = a ++ CRLF ++ t ++ CRLF ++ b.
