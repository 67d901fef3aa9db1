(** What is said about whole connections: handlers, logs, responses. *)
From Verif Require Export S_Body.

Section Conn.
Variable K : codec.
Notation message := (message K).

(** a response as a handler receives it: nothing but (possibly) body bytes of earlier responses *)
Definition blank (m : message) : Prop :=
  fl0 m = [] /\ fl1 m = [] /\ fl2 m = [] /\ (forall k, mm_getall (headers m) k = Ret None)
  /\ exists buf, mbody m = Body (Some buf) None.
(** a body that is not lost: it has a buffer or a codec holding one *)
Definition usable (b : body K) : Prop := b_internal b <> None \/ b_cw b <> None.

(** the handler answers every request with one of these versions, and keeps the connection open *)
Definition answers (ho : hash_order) (svc : service K) (versions : list bytes) : Prop :=
  forall req resp, In (fl2 req) versions -> (exists buf, mbody req = Body (Some buf) None) ->
  blank resp ->
  exists req' resp' data resp'', svc req resp = Ret (Some (Current true), req', resp')
    /\ usable (mbody req') /\ usable (mbody resp') /\ serialize ho resp' = Ret (Some data, resp'').
(** a response without status line and header lines *)
Definition bare (m : message) : Prop :=
  fl0 m = [] /\ fl1 m = [] /\ fl2 m = [] /\ forall k, mm_getall (headers m) k = Ret None.
(** the handler's answer to [req] ends the connection: it fails, it asks to close or to switch to
    WebSocket, or its response cannot be completed *)
Definition gives_up (ho : hash_order) (svc : service K) (req : message) : Prop :=
  forall resp, bare resp ->
  (exists req' resp', svc req resp = Ret (None, req', resp'))
  \/ exists p req' resp' data resp'', svc req resp = Ret (Some p, req', resp')
     /\ serialize ho resp' = Ret (data, resp'') /\ (data = None \/ p = Current false \/ p = WebSocket).
(** the handler completes its response to [req] and asks for protocol [p] *)
Definition switches (ho : hash_order) (svc : service K) (p : protocol) (req : message) : Prop :=
  forall resp, bare resp -> exists req' resp' data resp'',
  svc req resp = Ret (Some p, req', resp') /\ serialize ho resp' = Ret (Some data, resp'').
(** it does not modify the request *)
Definition leaves_request (svc : service K) : Prop :=
  forall req resp p req' resp', svc req resp = Ret (p, req', resp') -> req' = req.
(** answering request [q] it leaves a response whose compressed body cannot be finished *)
Definition leaves_failed (svc : service K) (q : request) : Prop :=
  forall req resp, has_head (rq_head q) req -> blank resp ->
  exists p req' resp' c, svc req resp = Ret (Some p, req', resp')
    /\ b_cw (mbody resp') = Some c /\ c_expose K c = None.

(** One entry of the log: the request given to the handler, which then produced these bytes. *)
Definition handled (ho : hash_order) (svc : service K) (q : request)
    (p : message * option bytes) : Prop :=
  has_head (rq_head q) (fst p)
  /\ (exists pre, b_internal (mbody (fst p)) = Some (pre ++ rq_body q))
  /\ exists resp req' resp' resp'' data, blank resp
     /\ svc (fst p) resp = Ret (Some (Current true), req', resp')
     /\ serialize ho resp' = Ret (Some data, resp'') /\ snd p = Some data.

Definition sent (p : message * option bytes) : bytes := match snd p with Some d => d | None => [] end.
Definition wires (qs : list request) : bytes := concat (map request_wire qs).
Definition versions (qs : list request) : list bytes := map (fun q => hd_version (rq_head q)) qs.
End Conn.
Arguments blank {K} _.
Arguments usable {K} _.
Arguments bare {K} _.
Arguments gives_up {K} _ _ _.
Arguments switches {K} _ _ _ _.
Arguments answers {K} _ _ _.
Arguments leaves_request {K} _.
Arguments leaves_failed {K} _ _.
Arguments handled {K} _ _ _ _.
Arguments sent {K} _.

(** the client takes [n] more bytes before it stops reading *)
Definition room_for (w : writer) (n : nat) : Prop :=
  match w_budget w with None => True | Some k => (N.of_nat n <= k)%N end.

(** ** responses as text *)
Definition response_line (f : field) : bytes := fst f ++ B ": " ++ snd f ++ CRLF.
Definition response (line : bytes) (fs : list field) (body : bytes) : bytes :=
  line ++ CRLF ++ concat (map response_line fs) ++ CRLF ++ body.
Definition one_line (s : bytes) : Prop := ~ In CR s /\ ~ In LF s.
(** one content-length header, and it tells the truth *)
Definition truthful (d : bytes) : Prop :=
  exists line fs body, d = response line fs body
    /\ one_line line
    /\ Forall (fun f => one_line (fst f) /\ ~ In COLON (fst f) /\ one_line (snd f)) fs
    /\ exists n v, filter (fun f => same_name (B "content-length") (fst f)) fs = [(n, v)]
       /\ numeral v (N.of_nat (length body)).
(** HTTP/d.d SP ddd SP reason *)
Definition status_line (line : bytes) : Prop :=
  exists a b c1 c2 c3 reason,
    line = B "HTTP/" ++ [a] ++ B "." ++ [b] ++ [SP] ++ [c1; c2; c3] ++ [SP] ++ reason
    /\ digit a /\ digit b /\ digit c1 /\ digit c2 /\ digit c3.

(** HTTP-name/M.m *)
Definition version_text (name major minor : bytes) : bytes :=
  name ++ B "/" ++ major ++ B "." ++ minor.

(** not a decimal number below 2^64, with or without a plus sign *)
Definition malformed (v : bytes) : Prop :=
  forall n, (n < 2 ^ 64)%N -> ~ numeral v n /\ ~ exists t, v = PLUS :: t /\ numeral t n.
