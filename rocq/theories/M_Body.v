(** Model of MessageBody (src/message.rs:18-134) and of the codec trait objects
    (src/compression.rs:1-65). *)
From Verif Require Export M_Base.

(** src/message.rs:45-49 *)
Inductive ctype := Brotil | Deflate | Gzip.

(** The third-party encoders/decoders behind [dyn BoxedWriteCompressionImpl]
    (src/compression.rs:3-19).  [c_enc]/[c_dec] wrap a buffer that may already hold bytes;
    [c_append] is [append] (io::Result<usize>: [None] = Err, [Some n] = n bytes accepted);
    [c_expose] is [expose] (the finished buffer, [None] = Err). *)
Record codec := Codec {
  cstate : Type;
  c_enc : ctype -> Z -> bytes -> cstate;
  c_dec : ctype -> bytes -> cstate;
  c_append : cstate -> bytes -> cstate * option nat;
  c_expose : cstate -> option bytes
}.

Section Body.
Variable K : codec.

(** src/message.rs:18-21.  ByteBuffer is only ever appended to and read whole: its bytes. *)
Record body := Body {
  b_internal : option bytes;
  b_cw : option (cstate K)
}.

(** src/message.rs:23-30 *)
Definition body_default : body := Body (Some []) None.

(** src/message.rs:33-38; io::Result<usize> *)
Definition body_write (b : body) (data : bytes) : outcome (body * option nat) :=
  match b_internal b with
  | Some inner => Ret (Body (Some (inner ++ data)) (b_cw b), Some (length data))
  | None =>
      match b_cw b with
      | None => Panic
      | Some c => let '(c', n) := c_append K c data in Ret (Body None (Some c'), n)
      end
  end.

(** [level as i32] (u32 to i32, two's complement) *)
Definition as_i32 (l : N) : Z :=
  if (l <? 2147483648)%N then Z.of_N l else (Z.of_N l - 4294967296)%Z.

(** the level handed to the encoder: src/message.rs:58 for brotli, 66 and 72 for flate2 *)
Definition enc_level (ct : ctype) (level : N) : Z :=
  match ct with
  | Brotil => as_i32 level
  | Deflate | Gzip => Z.of_N (N.min level 9)
  end.

(** src/message.rs:52-76 *)
Definition body_compression (b : body) (ct : ctype) (level : N) : outcome body :=
  match b_internal b with
  | None => Panic
  | Some buf => Ret (Body None (Some (c_enc K ct (enc_level ct level) buf)))
  end.

(** src/message.rs:78-92 *)
Definition body_decompression (b : body) (ct : ctype) : outcome body :=
  match b_internal b with
  | None => Panic
  | Some buf => Ret (Body None (Some (c_dec K ct buf)))
  end.

(** src/message.rs:104-111; [true] = Ok *)
Definition body_end (b : body) : body * bool :=
  match b_cw b with
  | Some c =>
      match c_expose K c with
      | Some buf => (Body (Some buf) None, true)
      | None => (Body (b_internal b) None, false)
      end
  | None => (b, true)
  end.

(** src/message.rs:94-102 *)
Definition body_clear (b : body) : body :=
  let '(b', ok) := body_end b in
  if ok then b' else Body (Some []) None.

(** src/message.rs:113-119 *)
Definition body_size (b : body) : nat :=
  match b_internal b with Some buf => length buf | None => 0 end.

(** src/message.rs:121-123 *)
Definition body_is_empty (b : body) : bool := Nat.eqb (body_size b) 0.

(** src/message.rs:125-128 *)
Definition body_inner (b : body) : outcome bytes :=
  match b_internal b with Some buf => Ret buf | None => Panic end.

(** src/message.rs:130-133 *)
Definition body_write_all_to_internal (b : body) (data : bytes) : outcome body :=
  match b_internal b with
  | Some buf => Ret (Body (Some (buf ++ data)) (b_cw b))
  | None => Panic
  end.

(** src/message.rs:266-268 write_raw *)
Definition write_raw (b : body) (data : bytes) : outcome body := body_write_all_to_internal b data.

(** src/message.rs:270-272 write_compression: the number of accepted bytes is discarded *)
Definition write_compression (b : body) (data : bytes) : outcome body :=
  x <- body_write b data ;; Ret (fst x).

End Body.
Arguments Body {K} _ _.
Arguments b_internal {K} _.
Arguments b_cw {K} _.
Arguments body_default {K}.
Arguments body_write {K} _ _.
Arguments body_compression {K} _ _ _.
Arguments body_decompression {K} _ _.
Arguments body_end {K} _.
Arguments body_clear {K} _.
Arguments body_size {K} _.
Arguments body_is_empty {K} _.
Arguments body_inner {K} _.
Arguments body_write_all_to_internal {K} _ _.
Arguments write_raw {K} _ _.
Arguments write_compression {K} _ _.
