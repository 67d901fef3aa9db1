(** Decimal numbers, requests with bodies, chunks, and histories of body operations. *)
From Verif Require Export S_Stream S_Wire M_Serve.

Definition digit (b : byte) : Prop := (48 <= N_of_ascii b <= 57)%N.
Definition decimal (s : bytes) : N := fold_left (fun v b => 10 * v + (N_of_ascii b - 48))%N s 0%N.
Definition PLUS : byte := ascii_of_N 43.
(** [s] is the number [n] written in decimal, leading zeros allowed *)
Definition numeral (s : bytes) (n : N) : Prop := s <> [] /\ Forall digit s /\ decimal s = n.

(** a request: its head and the bytes of its body *)
Record request := Request { rq_head : S_Wire.head; rq_body : bytes }.
Definition request_wire (q : request) : bytes := head_wire (rq_head q) ++ rq_body q.
(** the body is as long as the first content-length says, empty without one *)
Definition framed (q : request) : Prop :=
  (N.of_nat (length (rq_body q)) < 2 ^ 64)%N
  /\ match values_of (B "content-length") (hd_fields (rq_head q)) with
     | [] => rq_body q = []
     | v :: _ => numeral v (N.of_nat (length (rq_body q)))
     end.
Definition request_ok (cfg : http_config) (q : request) : Prop :=
  head_ok (h_max_url_size cfg) (h_max_header_line_size cfg) (rq_head q) /\ framed q.

(** The message a handler holds has the head of [q]. *)
Definition has_head {K} (h : S_Wire.head) (m : message K) : Prop :=
  req_method m = hd_method h /\ req_rawuri m = hd_target h /\ fl2 m = hd_version h
  /\ forall n, mm_getall (headers m) (lower n) = Ret (lookup_of n (hd_fields h)).

(** the two messages differ at most in their bodies *)
Definition same_but_body {K} (m m' : message K) : Prop :=
  fl0 m' = fl0 m /\ fl1 m' = fl1 m /\ fl2 m' = fl2 m /\ headers m' = headers m.

(** a chunk whose size is written [size] *)
Definition chunk (size data : bytes) : bytes := size ++ CRLF ++ data ++ CRLF.
(** these pieces, each as a chunk *)
Definition chunks (ds : list bytes) : bytes :=
  concat (map (fun d => chunk (dec (N.of_nat (length d))) d) ds).
(** hexadecimal numerals *)
Definition hex_digit (b : byte) : Prop :=
  digit b \/ (97 <= N_of_ascii b <= 102)%N \/ (65 <= N_of_ascii b <= 70)%N.

(** Histories of a body. *)
Inductive bop := BWrite (d : bytes) | BCompress (ct : ctype) (level : N) | BDecompress (ct : ctype)
  | BEnd | BClear.
Definition b_step {K} (b : body K) (o : bop) : outcome (body K) :=
  match o with
  | BWrite d => x <- body_write b d ;; Ret (fst x)
  | BCompress ct l => body_compression b ct l
  | BDecompress ct => body_decompression b ct
  | BEnd => Ret (fst (body_end b))
  | BClear => Ret (body_clear b)
  end.
Fixpoint b_run {K} (b : body K) (l : list bop) : outcome (body K) :=
  match l with
  | [] => Ret b
  | o :: r => b' <- b_step b o ;; b_run b' r
  end.
Definition no_failure (K : codec) : Prop := forall c, c_expose K c <> None.

(** A streaming encoder for the function [enc]: it keeps what its sink held before it was
    created, and adds the encoding of everything it accepted. *)
Definition streams (K : codec) (enc : ctype -> Z -> bytes -> bytes) : Prop :=
  exists state : cstate K -> bytes * ctype * Z * bytes,
    (forall ct l sink, state (c_enc K ct l sink) = (sink, ct, l, []))
    /\ (forall c d sink ct l fed, state c = (sink, ct, l, fed) ->
        snd (c_append K c d) = Some (length d)
        /\ state (fst (c_append K c d)) = (sink, ct, l, fed ++ d))
    /\ (forall c sink ct l fed, state c = (sink, ct, l, fed) ->
        c_expose K c = Some (sink ++ enc ct l fed)).

(** The compression level an encoder is given: brotli gets the 32-bit setting as a signed number,
    deflate and gzip at most 9. *)
Definition level_used (ct : ctype) (level : N) : Z :=
  match ct with
  | Brotil => if (2 ^ 31 <=? level)%N then (Z.of_N level - 2 ^ 32)%Z else Z.of_N level
  | Deflate | Gzip => if (9 <? level)%N then 9%Z else Z.of_N level
  end.
(** The bytes a body holds after a history: [plain] is what it holds already, [cur] the encoding
    in progress with what was written to it.  [None]: the history panics. *)
Definition whole (enc : ctype -> Z -> bytes -> bytes) (plain : bytes) (cur : option (ctype * N * bytes)) : bytes :=
  match cur with None => plain | Some (ct, level, x) => plain ++ enc ct (level_used ct level) x end.
Fixpoint body_after (enc : ctype -> Z -> bytes -> bytes) (l : list bop) (plain : bytes)
    (cur : option (ctype * N * bytes)) : option bytes :=
  match l with
  | [] => Some (whole enc plain cur)
  | BWrite d :: r =>
      match cur with
      | None => body_after enc r (plain ++ d) None
      | Some (ct, level, x) => body_after enc r plain (Some (ct, level, x ++ d))
      end
  | BCompress ct level :: r =>
      match cur with None => body_after enc r plain (Some (ct, level, [])) | Some _ => None end
  | BDecompress _ :: _ => None
  | BEnd :: r | BClear :: r => body_after enc r (whole enc plain cur) None
  end.
(** The same with decoding, which may fail.  A body holds bytes, or is in the middle of a coding
    ([None]: decoding, [Some level]: encoding) of [x] to be put after [plain], or has lost
    everything to a decoding that failed. *)
Inductive held := Holds (d : bytes) | Coding (plain : bytes) (ct : ctype) (level : option N) (x : bytes) | Lost.
Definition finished (enc : ctype -> Z -> bytes -> bytes) (dec : ctype -> bytes -> option bytes) (s : held) : held :=
  match s with
  | Coding plain ct (Some level) x => Holds (plain ++ enc ct (level_used ct level) x)
  | Coding plain ct None x => match dec ct x with Some d => Holds (plain ++ d) | None => Lost end
  | _ => s
  end.
Definition held_step enc dec (s : held) (o : bop) : option held :=
  match o, s with
  | BWrite d, Holds h => Some (Holds (h ++ d))
  | BWrite d, Coding p ct level x => Some (Coding p ct level (x ++ d))
  | BCompress ct level, Holds h => Some (Coding h ct (Some level) [])
  | BDecompress ct, Holds h => Some (Coding h ct None [])
  | BEnd, _ => Some (finished enc dec s)
  | BClear, Coding _ _ _ _ => Some (match finished enc dec s with Lost => Holds [] | s' => s' end)
  | BClear, _ => Some s
  | _, _ => None
  end.
Fixpoint held_after enc dec (l : list bop) (s : held) : option held :=
  match l with
  | [] => Some s
  | o :: r => match held_step enc dec s o with Some s' => held_after enc dec r s' | None => None end
  end.
(** streaming encoders for [enc] and decoders for [dec] *)
Definition codes (K : codec) (enc : ctype -> Z -> bytes -> bytes) (dec : ctype -> bytes -> option bytes) : Prop :=
  exists state : cstate K -> bytes * ctype * option Z * bytes,
    (forall ct l sink, state (c_enc K ct l sink) = (sink, ct, Some l, []))
    /\ (forall ct sink, state (c_dec K ct sink) = (sink, ct, None, []))
    /\ (forall c d sink ct l fed, state c = (sink, ct, l, fed) ->
        snd (c_append K c d) = Some (length d)
        /\ state (fst (c_append K c d)) = (sink, ct, l, fed ++ d))
    /\ (forall c sink ct l fed, state c = (sink, ct, l, fed) ->
        c_expose K c = match l with
                       | Some l => Some (sink ++ enc ct l fed)
                       | None => match dec ct fed with Some d => Some (sink ++ d) | None => None end
                       end).
(** what a body in this state says of itself *)
Definition body_says {K} (b : body K) (s : held) : Prop :=
  match s with
  | Holds d => body_inner b = Ret d /\ body_size b = length d /\ (body_is_empty b = true <-> d = [])
  | _ => body_inner b = Panic /\ body_size b = 0 /\ body_is_empty b = true
  end.
(** what ending a decoding leaves: the result of decoding after what was there, or nothing *)
Definition put_after {K} (buf : bytes) (d : option bytes) : body K * bool :=
  match d with Some x => (Body (Some (buf ++ x)) None, true) | None => (Body None None, false) end.
Definition encodes_only (o : bop) : Prop := match o with BDecompress _ => False | _ => True end.

(** An encoder that fails to finish whatever was written to it. *)
Definition never_finishes (K : codec) : Prop := forall c, c_expose K c = None.

(** A decoder that may take only part of what it is offered; [got] is what it has taken. *)
Definition takes (K : codec) (got : cstate K -> bytes) : Prop :=
  forall c d, exists n, snd (c_append K c d) = Some n
    /\ got (fst (c_append K c d)) = got c ++ firstn n d.
Definition takes_all (K : codec) : Prop :=
  forall c d, snd (c_append K c d) = Some (length d).

(** a decoder that takes one byte per call *)
Definition sipping : codec :=
  Codec bytes (fun _ _ b => b) (fun _ b => b) (fun s d => (s ++ firstn 1 d, Some 1)) (fun s => Some s).
