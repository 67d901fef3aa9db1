(** The request heads that are accepted, as a grammar over the whole stream. *)
From Verif Require Export S_Stream S_Wire S_MultiMap.

(** [t] is the next piece of the stream [t ++ rest]: it ends with the first delimiter [d], or it
    has none and is as long as the limit allows, or the peer closed after it. *)
Definition piece (e : ending) (d : byte) (limit : N) (s t rest : bytes) : Prop :=
  s = t ++ rest /\ (N.of_nat (length t) <= limit)%N
  /\ ((exists a, t = a ++ [d] /\ ~ In d a)
      \/ ~ In d t /\ (N.of_nat (length t) = limit \/ rest = [] /\ e = Eof)).

(** a header line without its last two bytes *)
Definition good_line (l : bytes) : Prop :=
  l <> [] /\ Forall vchar l
  /\ match cut_colon l with Some (a, v) => length a <= 256 /\ v <> [] | None => length l <= 256 end.
(** header lines [ls], each followed by two bytes, then a line of just two bytes *)
Inductive lines_at (e : ending) (limit : N) : bytes -> list bytes -> bytes -> Prop :=
| lines_end s x y rest : piece e LF limit s [x; y] rest -> lines_at e limit s [] rest
| lines_more s l x y s' ls rest : piece e LF limit s (l ++ [x; y]) s' -> good_line l ->
    lines_at e limit s' ls rest -> lines_at e limit s (l :: ls) rest.

(** two bytes that are text after ASCII: two ASCII bytes, or one character of two bytes *)
Definition text_end (x y : byte) : Prop :=
  (N_of_ascii x < 128 /\ N_of_ascii y < 128)%N
  \/ (194 <= N_of_ascii x <= 223 /\ 128 <= N_of_ascii y <= 191)%N.

(** A head at the start of the stream [s]: method and target, each with the byte after it, the
    version with the two bytes after it, the header lines.  [count] is max_headers_count. *)
Definition head_at (e : ending) (url line count : N) (s me ta ve : bytes) (ls : list bytes) (rest : bytes) : Prop :=
  exists x y z w s1 s2 s3,
    piece e SP 128 s (me ++ [x]) s1 /\ Forall vchar me
    /\ piece e SP url s1 (ta ++ [y]) s2 /\ Forall vchar ta
    /\ piece e LF 128 s2 (ve ++ [z; w]) s3 /\ Forall vchar ve /\ ve <> [] /\ text_end z w
    /\ lines_at e line s3 ls rest
    /\ (count = 0%N -> all_fields ls = []).

(** the table made by adding these fields in order *)
Definition fields_added (fs : list field) : list mop :=
  map (fun f => OAppend (lower (fst f)) (strip (snd f))) fs.
