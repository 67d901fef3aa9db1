(** Reaching the client through the network, independently of buffers and sockets. *)
From Verif Require Export M_Net.

(** the bytes of the responses of a connection, in order *)
Definition responses {K} (log : list (message K * option (bytes * bytes))) : bytes :=
  concat (map (fun e => match snd e with Some (head, body) => head ++ body | None => [] end) log).
(** what was handled, without the split into head and body *)
Definition exchanges {K} (log : list (message K * option (bytes * bytes))) : list (message K * option bytes) :=
  map (fun e => (fst e, option_map (fun p => fst p ++ snd p) (snd e))) log.

(** a connection that has just been accepted *)
Definition fresh (s : socket) : Prop := so_out s = [] /\ so_sent s = [] /\ so_offers s = [].

(** the client keeps reading: no call fails and every call takes something *)
Definition reads (a : answer) : Prop := match a with Takes n => (0 < n)%N | Fails => False end.
(** how many bytes it will take altogether, at most *)
Definition will_take (next : list answer) : N :=
  fold_right (fun a n => (match a with Takes k => k | Fails => 0 end + n)%N) 0%N next.
(** it takes everything it is offered, as long as that is not more than [m] bytes *)
Definition takes_all (m : N) (a : answer) : Prop := match a with Takes n => (m <= n)%N | Fails => False end.

(** the system calls a buffer of [cap] bytes allows for a response: one if it fits, otherwise head
    and body separately *)
Definition slices (cap : N) (head body : bytes) : list bytes :=
  if (lenN head + lenN body <=? cap)%N then [head ++ body]
  else head :: match body with [] => [] | _ => [body] end.
Definition all_slices {K} (cap : N) (log : list (message K * option (bytes * bytes))) : list bytes :=
  concat (map (fun e => match snd e with Some (head, body) => slices cap head body | None => [] end) log).
