(** The requests in a stream, whatever it contains: heads of the grammar [head_at] (S_Accept.v),
    each followed by the body its header lines announce. *)
From Verif Require Export S_Accept S_Conn.

Record got := Got { g_method : bytes; g_target : bytes; g_version : bytes; g_lines : list bytes; g_body : bytes }.

(** the table made from header lines *)
Definition table_of (ls : list bytes) (h : mmap) : Prop :=
  mm_run (fun l => l) mm_new (fields_added (all_fields ls)) = Ret h.
(** the length header lines announce: none, or a decimal number below 2^64, with or without plus sign *)
Definition announces (ls : list bytes) (n : N) : Prop :=
  exists h, table_of ls h
  /\ (mm_get h (B "content-length") = Ret None /\ n = 0%N
      \/ exists v, mm_get h (B "content-length") = Ret (Some v) /\ (n < 2 ^ 64)%N
         /\ (numeral v n \/ exists t, v = PLUS :: t /\ numeral t n)).

(** the stream begins with the requests [qs] and goes on with [rest] *)
Inductive requests_at (e : ending) (cfg : http_config) : bytes -> list got -> bytes -> Prop :=
| requests_none s : requests_at e cfg s [] s
| requests_more s q s' qs rest :
    head_at e (h_max_url_size cfg) (h_max_header_line_size cfg) (h_max_headers_count cfg) s
      (g_method q) (g_target q) (g_version q) (g_lines q) (g_body q ++ s') ->
    announces (g_lines q) (N.of_nat (length (g_body q))) ->
    requests_at e cfg s' qs rest ->
    requests_at e cfg s (q :: qs) rest.

(** the request as a handler sees it: first line, every header, the body after whatever the
    buffer held before *)
Definition is_got {K} (q : got) (req : message K) : Prop :=
  req_method req = g_method q /\ req_rawuri req = g_target q /\ fl2 req = g_version q
  /\ (exists h, table_of (g_lines q) h /\ forall k, mm_getall (headers req) k = mm_getall h k)
  /\ (g_body q <> [] -> exists before, b_internal (mbody req) = Some (before ++ g_body q)).
