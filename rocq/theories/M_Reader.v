(** Model of the byte source behind [ctx.reader] (tokio BufReader over the socket,
    src/serve.rs:28) and of the tokio combinators used on it: [take], [read_until],
    [read_line], [read]. *)
From Verif Require Export M_Base.

(** How the stream ends once the peer's bytes are used up: orderly close, I/O error, or the peer
    simply stops sending (the await never completes). *)
Inductive ending := Eof | IoErr | Stall.

(** [segs] is what successive polls of the socket deliver.  Empty segments are skipped: a read
    returning no bytes is the end of the stream, which is [fin].  Re-segmentation by the
    BufReader's own capacity is covered because theorems quantify over all segmentations. *)
Record reader := Rd { segs : list bytes; fin : ending }.

(** One available slice, examined for the delimiter, under [Take]'s limit: bytes taken, bytes
    left, limit left, delimiter found.  tokio io/util/read_until.rs with io/util/take.rs. *)
Fixpoint scan (d : byte) (lim : N) (s : bytes) : bytes * bytes * N * bool :=
  if (lim =? 0)%N then ([], s, 0%N, false)
  else match s with
  | [] => ([], [], lim, false)
  | c :: s' =>
      if Ascii.eqb c d then ([c], s', (lim - 1)%N, true)
      else let '(t, r, l, f) := scan d (lim - 1) s' in (c :: t, r, l, f)
  end.

(** [reader.take(lim).read_until(d, dest)]: [Some t] is [Ok(t.len())] with [t] appended to the
    destination; [None] is [Err]. *)
Fixpoint ru_segs (d : byte) (lim : N) (acc : bytes) (ss : list bytes) (e : ending)
  : outcome (option bytes * list bytes) :=
  if (lim =? 0)%N then Ret (Some acc, ss)
  else match ss with
  | [] => match e with
          | Eof => Ret (Some acc, [])
          | IoErr => Ret (None, [])
          | Stall => Blocked
          end
  | s :: rest =>
      let '(t, r, l, found) := scan d lim s in
      if found then Ret (Some (acc ++ t), r :: rest)
      else match r with
           | [] => ru_segs d l (acc ++ t) rest e
           | _ :: _ => Ret (Some (acc ++ t), r :: rest)
           end
  end.
Definition read_until (d : byte) (lim : N) (r : reader) : outcome (option bytes * reader) :=
  x <- ru_segs d lim [] (segs r) (fin r) ;;
  Ret (fst x, Rd (snd x) (fin r)).

(** [reader.take(lim).read_line(&mut string)]: as [read_until] with '\n', and [Err] when the
    bytes are not UTF-8 (tokio io/util/read_line.rs). *)
Definition read_line (lim : N) (r : reader) : outcome (option bytes * reader) :=
  x <- read_until LF lim r ;;
  match fst x with
  | None => Ret (None, snd x)
  | Some t =>
      match utf8_decode t with
      | Some _ => Ret (Some t, snd x)
      | None => Ret (None, snd x)
      end
  end.

(** [split_at] with a 64-bit count *)
Fixpoint splitN (n : N) (s : bytes) : bytes * bytes :=
  if (n =? 0)%N then ([], s)
  else match s with
  | [] => ([], [])
  | c :: s' => let '(a, b) := splitN (n - 1) s' in (c :: a, b)
  end.

(** [reader.read(&mut buf[..n])]: at most [n] bytes of what is available now;
    [Some []] is [Ok(0)] (end of stream). *)
Fixpoint rd_segs (n : N) (ss : list bytes) (e : ending) : outcome (option bytes * list bytes) :=
  match ss with
  | [] => match e with
          | Eof => Ret (Some [], [])
          | IoErr => Ret (None, [])
          | Stall => Blocked
          end
  | [] :: rest => rd_segs n rest e
  | s :: rest => let '(a, b) := splitN n s in Ret (Some a, b :: rest)
  end.
Definition rd_read (n : N) (r : reader) : outcome (option bytes * reader) :=
  x <- rd_segs n (segs r) (fin r) ;;
  Ret (fst x, Rd (snd x) (fin r)).

(** The client side of [ctx.writer]: what has gone out, and after how many further bytes the
    peer's connection fails ([None]: never).  The BufWriter of src/serve.rs:29 is transparent:
    every response is flushed (src/message.rs:547); M_Net models it and the socket. *)
Record writer := Wr { w_out : bytes; w_budget : option N }.

Definition lenN {A} (l : list A) : N := N.of_nat (length l).

(** write_all: [true] = Ok; on failure a prefix has gone out *)
Definition w_write (data : bytes) (w : writer) : writer * bool :=
  match w_budget w with
  | None => (Wr (w_out w ++ data) None, true)
  | Some k =>
      if (lenN data <=? k)%N then (Wr (w_out w ++ data) (Some (k - lenN data)%N), true)
      else (Wr (w_out w ++ fst (splitN k data)) (Some 0%N), false)
  end.
