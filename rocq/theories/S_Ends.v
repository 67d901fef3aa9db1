(** How connections may end. *)
From Verif Require Export S_Got S_Resp.

Section Ends.
Variable K : codec.
Notation message := (message K).

(** a response as a handler gets it: empty, with a new or cleared table *)
Definition unused (resp : message) : Prop :=
  blank resp /\ (headers resp = mm_new \/ exists h, headers resp = mm_clear h).
(** a handler that does not crash itself: whatever the request, it returns, with a response that can
    be sent (or at least be tried to), and does not ask for HTTP/2 *)
Definition sturdy (ho : hash_order) (svc : service K) : Prop :=
  forall req resp : message, (exists buf, mbody req = Body (Some buf) None) -> unused resp ->
  exists o req' resp', svc req resp = Ret (o, req', resp')
  /\ match o with
     | None => True
     | Some Http2 => False
     | Some p => (exists d resp'', serialize ho resp' = Ret (d, resp''))
                 /\ (p = Current true -> usable (mbody req') /\ usable (mbody resp'))
     end.
End Ends.
Arguments sturdy {K} _ _.
Arguments unused {K} _.

(** the steps of a script that concern the body *)
Definition body_steps (l : list rop) : list bop :=
  concat (map (fun o => match o with RBody b => [b] | _ => [] end) l).

(** the stream ends within the body that a head announces *)
Definition unfinished (e : ending) (cfg : http_config) (s : bytes) : Prop :=
  exists me ta ve ls s' n,
    head_at e (h_max_url_size cfg) (h_max_header_line_size cfg) (h_max_headers_count cfg) s me ta ve ls s'
    /\ announces ls n /\ (N.of_nat (length s') < n)%N.

(** endings that are not crashes: closed; waiting for a client that sends nothing more and does not
    close; reading forever behind a client that closed within a body *)
Definition no_crash (e : ending) (cfg : http_config) (rest : bytes) (x : conn_end) : Prop :=
  match x with
  | EndClosed => True
  | EndBlocked => e = Stall
  | EndNoFuel => e = Eof /\ unfinished e cfg rest
  | EndPanic | EndUB => False
  end.
