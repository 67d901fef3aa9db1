(** HTTP/1 request heads on the wire, independently of the parser. *)
From Verif Require Export M_Base.

(** printable ASCII, and printable other than space *)
Definition vchar (b : byte) : Prop := (32 <= N_of_ascii b <= 126)%N.
Definition token_char (b : byte) : Prop := (33 <= N_of_ascii b <= 126)%N.

(** a header field as sent: name and everything after the colon *)
Definition field := (bytes * bytes)%type.
Definition field_line (f : field) : bytes := fst f ++ [COLON] ++ snd f ++ CRLF.

Record head := Head { hd_method : bytes; hd_target : bytes; hd_version : bytes;
                      hd_fields : list field }.

Definition request_line (h : head) : bytes :=
  hd_method h ++ [SP] ++ hd_target h ++ [SP] ++ hd_version h ++ CRLF.
Definition head_wire (h : head) : bytes :=
  request_line h ++ concat (map field_line (hd_fields h)) ++ CRLF.

(** Well formed and within the limits: [url] and [line] are max_url_size and
    max_header_line_size. *)
Definition field_ok (line : N) (f : field) : Prop :=
  fst f <> [] /\ Forall token_char (fst f) /\ ~ In COLON (fst f) /\ length (fst f) <= 256
  /\ snd f <> [] /\ Forall vchar (snd f)
  /\ (N.of_nat (length (field_line f)) <= line)%N.
Definition head_ok (url line : N) (h : head) : Prop :=
  Forall token_char (hd_method h) /\ length (hd_method h) <= 127
  /\ Forall token_char (hd_target h) /\ (N.of_nat (length (hd_target h)) < url)%N
  /\ Forall vchar (hd_version h) /\ 1 <= length (hd_version h) <= 126
  /\ Forall (field_ok line) (hd_fields h) /\ (2 <= line)%N.

(** What a lookup should give: names compared without case, values without surrounding spaces,
    in the order sent. *)
Fixpoint skip_spaces (s : bytes) : bytes :=
  match s with
  | c :: s' => if ascii_dec c SP then skip_spaces s' else s
  | [] => []
  end.
Definition strip (s : bytes) : bytes := rev (skip_spaces (rev (skip_spaces s))).
Definition same_name (a b : bytes) : bool := bytes_eqb (lower a) (lower b).
Definition values_of (n : bytes) (fs : list field) : list bytes :=
  map (fun f => strip (snd f)) (filter (fun f => same_name n (fst f)) fs).
Definition lookup_of (n : bytes) (fs : list field) : option (list bytes) :=
  match values_of n fs with [] => None | vs => Some vs end.

(** Header lines as raw text.  [cut_colon] splits at the first colon. *)
Fixpoint cut_colon (l : bytes) : option field :=
  match l with
  | [] => None
  | c :: l' =>
      if ascii_dec c COLON then Some ([], l')
      else match cut_colon l' with Some (a, b) => Some (c :: a, b) | None => None end
  end.
Definition line_wire (l : bytes) : bytes := l ++ CRLF.
(** the field a line denotes: its name without surrounding spaces *)
Definition line_fields (l : bytes) : list field :=
  match cut_colon l with Some (a, v) => [(strip a, v)] | None => [] end.
Definition all_fields (ls : list bytes) : list field := concat (map line_fields ls).
(** one line of text, not empty and within the limit *)
Definition line_ok (line : N) (l : bytes) : Prop :=
  l <> [] /\ ~ In LF l /\ (N.of_nat (length (line_wire l)) <= line)%N.
Definition named_line (l : bytes) : Prop :=
  match cut_colon l with Some (a, _) => strip a <> [] | None => True end.
(** a head made of raw lines *)
Definition head_lines (h : head) (ls : list bytes) : bytes :=
  request_line h ++ concat (map line_wire ls) ++ CRLF.
