(** SHA-1 (RFC 3174) and base64 (RFC 4648), which the code takes from the sha1 and base64 crates. *)
From Verif Require Export M_Serve S_MultiMap.
Local Open Scope N_scope.

(** ** SHA-1.  Words are numbers below 2^32. *)
Definition w32 (n : N) : N := N.land n 4294967295.
Definition add32 (a b : N) : N := w32 (a + b).
Definition not32 (a : N) : N := N.lxor a 4294967295.
Definition rotl (k x : N) : N := N.lor (w32 (N.shiftl x k)) (N.shiftr x (32 - k)).

Definition word (a b c d : byte) : N :=
  N.lor (N.shiftl (N_of_ascii a) 24) (N.lor (N.shiftl (N_of_ascii b) 16) (N.lor (N.shiftl (N_of_ascii c) 8) (N_of_ascii d))).
Fixpoint words (l : bytes) : list N :=
  match l with
  | a :: b :: c :: d :: r => word a b c d :: words r
  | _ => []
  end.
(** big-endian bytes of a number, in [n] bytes *)
Fixpoint be_bytes (n : nat) (x : N) : bytes :=
  match n with
  | O => []
  | S n' => be_bytes n' (N.shiftr x 8) ++ [ascii_of_N (N.land x 255)]
  end.
(** padding: a one bit, zeros, the length in bits *)
Definition padded (l : bytes) : bytes :=
  let n := N.of_nat (length l) in
  let zeros := N.to_nat ((119 - n mod 64) mod 64) in
  l ++ [ascii_of_N 128] ++ repeat (ascii_of_N 0) zeros ++ be_bytes 8 (8 * n).

(** the message schedule, most recent word first *)
Fixpoint expand (n : nat) (w : list N) : list N :=
  match n with
  | O => w
  | S n' => let x := N.lxor (N.lxor (nth 2 w 0) (nth 7 w 0)) (N.lxor (nth 13 w 0) (nth 15 w 0)) in
            expand n' (rotl 1 x :: w)
  end.
Definition schedule_words (block : list N) : list N := rev (expand 64 (rev block)).

Definition f_k (t : nat) (b c d : N) : N * N :=
  if (t <? 20)%nat then (N.lor (N.land b c) (N.land (not32 b) d), 1518500249)
  else if (t <? 40)%nat then (N.lxor (N.lxor b c) d, 1859775393)
  else if (t <? 60)%nat then (N.lor (N.lor (N.land b c) (N.land b d)) (N.land c d), 2400959708)
  else (N.lxor (N.lxor b c) d, 3395469782).
Definition sha_state := (N * N * N * N * N)%type.
Definition sha_step (s : sha_state * nat) (w : N) : sha_state * nat :=
  let '(((((a, b), c), d), e), t) := s in
  let '(f, k) := f_k t b c d in
  ((add32 (add32 (add32 (add32 (rotl 5 a) f) e) w) k, a, rotl 30 b, c, d), S t).
Definition sha_block (h : sha_state) (block : list N) : sha_state :=
  let '((((a, b), c), d), e) := fst (fold_left sha_step (schedule_words block) (h, O)) in
  let '((((h0, h1), h2), h3), h4) := h in
  (add32 h0 a, add32 h1 b, add32 h2 c, add32 h3 d, add32 h4 e).
Fixpoint sha_blocks (fuel : nat) (h : sha_state) (w : list N) : sha_state :=
  match fuel, w with
  | S f, _ :: _ => sha_blocks f (sha_block h (firstn 16 w)) (skipn 16 w)
  | _, _ => h
  end.
Definition sha1 (l : bytes) : bytes :=
  let w := words (padded l) in
  let '((((h0, h1), h2), h3), h4) := sha_blocks (length w) (1732584193, 4023233417, 2562383102, 271733878, 3285377520) w in
  be_bytes 4 h0 ++ be_bytes 4 h1 ++ be_bytes 4 h2 ++ be_bytes 4 h3 ++ be_bytes 4 h4.

(** ** base64, with padding *)
Definition alphabet : bytes := B "ABCDEFGHIJKLMNOPQRSTUVWXYZabcdefghijklmnopqrstuvwxyz0123456789+/".
Definition digit (n : N) : byte := nth (N.to_nat (N.land n 63)) alphabet "="%char.
Fixpoint base64 (l : bytes) : bytes :=
  match l with
  | [] => []
  | [a] => let x := N_of_ascii a in
      [digit (N.shiftr x 2); digit (N.shiftl x 4); "="%char; "="%char]
  | [a; b] => let x := N.lor (N.shiftl (N_of_ascii a) 8) (N_of_ascii b) in
      [digit (N.shiftr x 10); digit (N.shiftr x 4); digit (N.shiftl x 2); "="%char]
  | a :: b :: c :: r =>
      let x := N.lor (N.shiftl (N_of_ascii a) 16) (N.lor (N.shiftl (N_of_ascii b) 8) (N_of_ascii c)) in
      digit (N.shiftr x 18) :: digit (N.shiftr x 12) :: digit (N.shiftr x 6) :: digit x :: base64 r
  end.

(** RFC 3174's and RFC 6455's examples *)
Example sha1_abc : base64 (sha1 (B "abc")) = B "qZk+NkcGgWq6PiVxeFDCbJzQ2J0=".
Proof. vm_compute. reflexivity. Qed.
Example sha1_long : base64 (sha1 (B "abcdbcdecdefdefgefghfghighijhijkijkljklmklmnlmnomnopnopq")) = B "hJg+RBw70m66rkqh+VEp5eVGcPE=".
Proof. vm_compute. reflexivity. Qed.

(** the answer to a key *)
Definition accept_value (key : bytes) : bytes := base64 (sha1 (key ++ B "258EAFA5-E914-47DA-95CA-C5AB0DC85B11")).
Example rfc6455 : accept_value (B "dGhlIHNhbXBsZSBub25jZQ==") = B "s3pPLMBiTxaQ9kYGzzhZRbK+xOo=".
Proof. vm_compute. reflexivity. Qed.
(** the first value sent under the key's name, or nothing *)
Definition client_key (rops : list mop) : bytes :=
  match a_run rops a_empty (B "sec-websocket-key") with Some (k :: _) => k | _ => [] end.
(** what the handshake adds under each name *)
Definition added (key k : bytes) : list bytes :=
  if bytes_same k (B "sec-websocket-accept") then [accept_value key]
  else if bytes_same k (B "sec-websocket-version") then [B "13"]
  else if bytes_same k (B "upgrade") then [B "websocket"]
  else if bytes_same k (B "connection") then [B "Upgrade"]
  else [].
Definition base64_char (c : byte) : Prop := In c alphabet \/ c = "="%char.
