(** Requests spelled in different ways. *)
From Verif Require Export S_Body.

(** the same field: its name in other letter case, its value with other spaces around it *)
Definition same_field (f f' : field) : Prop := lower (fst f') = lower (fst f) /\ strip (snd f') = strip (snd f).
Definition same_head (h h' : S_Wire.head) : Prop :=
  hd_method h' = hd_method h /\ hd_target h' = hd_target h /\ hd_version h' = hd_version h
  /\ Forall2 same_field (hd_fields h) (hd_fields h').

(** [s'] is the stream [s] with the fields of well-formed requests at its beginning spelled otherwise;
    from some point on, after a request or after a head, the streams are the same and need not be
    well-formed. *)
Inductive respelled (cfg : http_config) : bytes -> bytes -> Prop :=
| respelled_same s : respelled cfg s s
| respelled_head h h' s :
    head_ok (h_max_url_size cfg) (h_max_header_line_size cfg) h ->
    head_ok (h_max_url_size cfg) (h_max_header_line_size cfg) h' -> same_head h h' ->
    respelled cfg (head_wire h ++ s) (head_wire h' ++ s)
| respelled_request q q' s s' :
    request_ok cfg q -> request_ok cfg q' -> same_head (rq_head q) (rq_head q') -> rq_body q' = rq_body q ->
    respelled cfg s s' -> respelled cfg (request_wire q ++ s) (request_wire q' ++ s').
