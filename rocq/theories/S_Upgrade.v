(** WebSocket opening handshakes (RFC 6455, 4.2.1) and their answers. *)
From Verif Require Export S_Body S_Conn S_Ws.

(** [t] is an element of the comma-separated list [v], in any letter case *)
Definition comma_element (t v : bytes) : Prop :=
  exists a p b, v = a ++ p ++ b
    /\ (a = [] \/ exists a', a = a' ++ [","%char]) /\ (b = [] \/ exists b', b = ","%char :: b')
    /\ ~ In ","%char p /\ lower (strip p) = t.
(** the head of an opening handshake *)
Definition opening_handshake (h : S_Wire.head) : Prop :=
  hd_method h = B "GET" /\ hd_version h = B "HTTP/1.1"
  /\ (exists host, values_of (B "host") (hd_fields h) = [host])
  /\ (exists v, In v (values_of (B "upgrade") (hd_fields h)) /\ comma_element (B "websocket") v)
  /\ (exists v, In v (values_of (B "connection") (hd_fields h)) /\ comma_element (B "upgrade") v)
  /\ values_of (B "sec-websocket-version") (hd_fields h) = [B "13"]
  /\ exists nonce, length nonce = 16 /\ values_of (B "sec-websocket-key") (hd_fields h) = [base64 nonce].

(** a handler that offers WebSocket with the server's own function, and keeps the connection
    otherwise *)
Definition ws_service {K} : service K := fun req resp =>
  x <- ws_upgrade sha1 base64 req resp ;;
  Ret (Some (if fst x then WebSocket else Current true), req, snd x).

(** the answer to a handshake with this key *)
Definition ws_answer (key : bytes) : bytes :=
  response (B "HTTP/1.1 101 Switching Protocols")
    [(B "sec-websocket-accept", accept_value key); (B "sec-websocket-version", B "13");
     (B "upgrade", B "websocket"); (B "connection", B "Upgrade"); (B "content-length", B "0")] [].
