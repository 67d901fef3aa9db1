(** Requests with their header fields in different orders. *)
From Verif Require Export S_Conn.

(** the same request but for the order of fields with different names *)
Definition same_request (q q' : request) : Prop :=
  hd_method (rq_head q') = hd_method (rq_head q) /\ hd_target (rq_head q') = hd_target (rq_head q)
  /\ hd_version (rq_head q') = hd_version (rq_head q)
  /\ (forall n, values_of n (hd_fields (rq_head q')) = values_of n (hd_fields (rq_head q)))
  /\ rq_body q' = rq_body q.

(** the messages cannot be told apart by looking fields up by name *)
Definition same_lookups {K} (m m' : message K) : Prop :=
  fl0 m' = fl0 m /\ fl1 m' = fl1 m /\ fl2 m' = fl2 m /\ mbody m' = mbody m
  /\ forall n, mm_getall (headers m') n = mm_getall (headers m) n.
(** the same answer, leaving the same body *)
Definition same_reply {K} (o o' : outcome (option protocol * message K * message K)) : Prop :=
  match o, o' with
  | Ret (p, q, a), Ret (p', q', a') => p' = p /\ a' = a /\ mbody q' = mbody q
  | Ret _, _ | _, Ret _ => False
  | _, _ => o' = o
  end.
(** a handler that looks fields up by name *)
Definition by_name {K} (svc : service K) : Prop :=
  forall m m' resp, same_lookups m m' -> same_reply (svc m resp) (svc m' resp).

(** the same bytes are written, in answer to requests that cannot be told apart, and the
    connection ends in the same way *)
Definition same_run {K} (x x' : conn_result K) : Prop :=
  cr_writer x' = cr_writer x /\ cr_end x' = cr_end x
  /\ Forall2 (fun p p' => same_lookups (fst p) (fst p') /\ snd p' = snd p) (cr_log x) (cr_log x').
