(** What may stand around a header line: the byte before its line feed, spaces around its name, a
    space at its start (RFC 9112, 2.2, 5.1 and 5.2). *)
From Verif Require Export S_Accept.

(** header lines, each with the byte that stands between it and its line feed: CR where the client
    ends its lines with CRLF, the last character of the line where it ends them with LF alone *)
Definition ended_lines (ls : list (bytes * byte)) : bytes :=
  concat (map (fun p => fst p ++ [snd p; LF]) ls).
(** the first line of [h], these lines, an empty line *)
Definition head_ended (h : S_Wire.head) (ls : list (bytes * byte)) : bytes :=
  request_line h ++ ended_lines ls ++ CRLF.

(** the line [l'] is the header line [l] with spaces put before and after the name *)
Definition space_around (l l' : bytes) : Prop :=
  exists i j a v, cut_colon l = Some (a, v) /\ l' = repeat SP i ++ a ++ repeat SP j ++ COLON :: v.

(** printable text within the limits *)
Definition line_fits (line : N) (l : bytes) : Prop :=
  good_line l /\ (N.of_nat (length l) + 2 <= line)%N.
(** a header line whose name is not empty and has no space at its ends, so that the name is
    everything before the colon *)
Definition exact_line (l : bytes) : Prop :=
  exists a v, cut_colon l = Some (a, v) /\ a <> [] /\ hd COLON a <> SP /\ last a COLON <> SP.
(** the headers written in these lines: everything before the colon, everything after it *)
Definition exact_fields (ls : list bytes) : list field :=
  concat (map (fun l => match cut_colon l with Some f => [f] | None => [] end) ls).
(** the header line that states the length [v] *)
Definition length_line (v : bytes) : bytes := B "Content-Length: " ++ v.

(** the hosts a request is addressed to *)
Definition hosts (h : S_Wire.head) : list bytes := values_of (B "host") (hd_fields h).
