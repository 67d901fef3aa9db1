(** What a client receives of a connection the server has closed. *)
From Verif Require Export S_Conn.

Section Linger.
Variable K : codec.

(** The server closes the connection after taking no more than the segments [pre] from the socket:
    it does so even when nothing follows them and the client stays silent, where asking for more
    would mean waiting. *)
Definition closes_after (fuel : nat) (cfg : http_config) (caps : nat -> N) (ho : hash_order)
    (svc : service K) (w : writer) (pre : list bytes) : Prop :=
  cr_end (serve fuel cfg caps ho svc (Rd pre Stall) w) = EndClosed.

(** some of what the client sends on [r] is not taken from the socket before it is closed *)
Definition left_unread (fuel : nat) (cfg : http_config) (caps : nat -> N) (ho : hash_order)
    (svc : service K) (w : writer) (r : reader) : Prop :=
  exists pre more, segs r = pre ++ more /\ concat more <> []
    /\ closes_after fuel cfg caps ho svc w pre.

(** TCP: closing a connection with unread data, or for which data arrives later, resets it
    (RFC 1122, 4.2.2.13), and a client that is told of the reset loses what its system has received
    and it has not read yet: any part of the end of what the server wrote (RFC 9112, 9.6).
    Otherwise everything written arrives. *)
Inductive client_gets (fuel : nat) (cfg : http_config) (caps : nat -> N) (ho : hash_order)
    (svc : service K) (r : reader) (w : writer) : bytes -> Prop :=
| gets_all :
    client_gets fuel cfg caps ho svc r w (w_out (cr_writer (serve fuel cfg caps ho svc r w)))
| gets_part d lost :
    left_unread fuel cfg caps ho svc w r ->
    w_out (cr_writer (serve fuel cfg caps ho svc r w)) = d ++ lost ->
    client_gets fuel cfg caps ho svc r w d.
End Linger.
Arguments closes_after {K} _ _ _ _ _ _ _.
Arguments left_unread {K} _ _ _ _ _ _ _.
Arguments client_gets {K} _ _ _ _ _ _ _ _.
