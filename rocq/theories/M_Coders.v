(** Model of src/compression.rs:1-65 with src/message.rs:52-92: the encoders and decoders a body
    uses, over the crates flate2 and brotli; and of std's [Write::write_all] on a body
    (src/message.rs:32-43). *)
From Verif Require Export M_Body.

(** What is used of the two crates.  flate2: the writers of src/compression.rs:35-38, made by
    [new] and used by [write] and [finish] (lines 21-33).  brotli: CompressorWriter, by
    [with_params], [write], [flush] and [into_inner] (lines 40-51); DecompressorWriter, by [new],
    [write], [close] and [into_inner] (lines 53-65), [inl] being its Ok.  Results of [write] are
    io::Result<usize>; an [Err] loses its kind, so that an interrupted call, which std retries, is
    left out.  Buffer sizes and parameters that are constants in the code are the library's. *)
Record library := Library {
  flate2_state : Type;
  flate2_enc : ctype -> Z -> bytes -> flate2_state;
  flate2_dec : ctype -> bytes -> flate2_state;
  flate2_write : flate2_state -> bytes -> flate2_state * option nat;
  flate2_finish : flate2_state -> option bytes;
  brenc_state : Type;
  brenc_new : Z -> bytes -> brenc_state;
  brenc_write : brenc_state -> bytes -> brenc_state * option nat;
  brenc_flush : brenc_state -> option brenc_state;
  brenc_into : brenc_state -> bytes;
  brdec_state : Type;
  brdec_new : bytes -> brdec_state;
  brdec_write : brdec_state -> bytes -> brdec_state * option nat;
  brdec_close : brdec_state -> option brdec_state;
  brdec_into : brdec_state -> bytes + bytes
}.

(** Box<dyn BoxedWriteCompressionImpl> (src/compression.rs:8-19) *)
Inductive coder (L : library) :=
| CFlate (s : flate2_state L) | CBrEnc (s : brenc_state L) | CBrDec (s : brdec_state L).
Arguments CFlate {L} _. Arguments CBrEnc {L} _. Arguments CBrDec {L} _.

(** src/message.rs:55-75 *)
Definition coder_enc (L : library) (ct : ctype) (level : Z) (buf : bytes) : coder L :=
  match ct with
  | Brotil => CBrEnc (brenc_new L level buf)
  | Deflate => CFlate (flate2_enc L Deflate level buf)
  | Gzip => CFlate (flate2_enc L Gzip level buf)
  end.
(** src/message.rs:81-91 *)
Definition coder_dec (L : library) (ct : ctype) (buf : bytes) : coder L :=
  match ct with
  | Brotil => CBrDec (brdec_new L buf)
  | Deflate => CFlate (flate2_dec L Deflate buf)
  | Gzip => CFlate (flate2_dec L Gzip buf)
  end.
(** src/compression.rs:24-26, 41-43, 54-56 *)
Definition coder_append (L : library) (c : coder L) (d : bytes) : coder L * option nat :=
  match c with
  | CFlate s => let '(s', n) := flate2_write L s d in (CFlate s', n)
  | CBrEnc s => let '(s', n) := brenc_write L s d in (CBrEnc s', n)
  | CBrDec s => let '(s', n) := brdec_write L s d in (CBrDec s', n)
  end.
(** src/compression.rs:28-30, 45-50, 58-64 *)
Definition coder_expose (L : library) (c : coder L) : option bytes :=
  match c with
  | CFlate s => flate2_finish L s
  | CBrEnc s => match brenc_flush L s with Some s' => Some (brenc_into L s') | None => None end
  | CBrDec s =>
      match brdec_close L s with
      | Some s' => match brdec_into L s' with inl v => Some v | inr v => Some v end
      | None => None
      end
  end.
Definition coders (L : library) : codec :=
  Codec (coder L) (coder_enc L) (coder_dec L) (coder_append L) (coder_expose L).

(** std's [Write::write_all] (std/src/io/mod.rs): offers what is left until nothing is; [Ok(0)]
    is the error WriteZero; a count larger than the offer panics.  [true] = Ok. *)
Fixpoint body_write_loop {K} (fuel : nat) (b : body K) (data : bytes) : outcome (body K * bool) :=
  match data with
  | [] => Ret (b, true)
  | _ :: _ =>
      match fuel with
      | O => NoFuel
      | S f =>
          x <- body_write b data ;;
          match snd x with
          | None | Some O => Ret (fst x, false)
          | Some n => if Nat.leb n (length data) then body_write_loop f (fst x) (skipn n data) else Panic
          end
      end
  end.
(** every round takes at least one byte: [length data] rounds are enough *)
Definition body_write_all {K} (b : body K) (data : bytes) : outcome (body K * bool) :=
  body_write_loop (length data) b data.
(** one call after another, up to the first error *)
Fixpoint body_write_alls {K} (b : body K) (ds : list bytes) : outcome (body K * bool) :=
  match ds with
  | [] => Ret (b, true)
  | d :: r => x <- body_write_all b d ;; if snd x then body_write_alls (fst x) r else Ret x
  end.
