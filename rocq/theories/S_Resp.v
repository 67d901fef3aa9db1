(** What a handler can do to a response, and handlers written as scripts of such steps. *)
From Verif Require Export S_Conn S_MultiMap.

Inductive rop :=
| RVersion (major minor : N)
| RCode (code : N) (reason : bytes)
| RHeader (k v : bytes)
| RSetHeader (k v : bytes)
| RDelHeader (k : bytes)
| RBody (o : bop).

Section Resp.
Variable K : codec.
Notation message := (message K).

Definition rw_step (m : message) (o : rop) : outcome message :=
  match o with
  | RVersion a b => Ret (rw_version m a b)
  | RCode c reason => Ret (rw_code m c reason)
  | RHeader k v => rw_header m k v
  | RSetHeader k v => rw_setheader m k v
  | RDelHeader k => rw_delheader m k
  | RBody o => b <- b_step (mbody m) o ;; Ret (with_body m b)
  end.
Fixpoint rw_run (m : message) (l : list rop) : outcome message :=
  match l with
  | [] => Ret m
  | o :: r => m' <- rw_step m o ;; rw_run m' r
  end.
(** the handler that looks at the request, performs these steps and answers this way *)
Definition scripted (f : message -> list rop * protocol) : service K :=
  fun req resp => resp' <- rw_run resp (fst (f req)) ;; Ret (Some (snd (f req)), req, resp').
(** a handler that compresses: its k-th response on a connection carries k+1 encodings *)
Definition zipper (ct : ctype) (level : N) (d : bytes) : service K :=
  scripted (fun _ => ([RBody (BCompress ct level); RBody (BWrite d)], Current true)).
End Resp.
Arguments rw_step {K} _ _.
Arguments rw_run {K} _ _.
Arguments scripted {K} _ _ _.
Arguments zipper {K} _ _ _ _ _.

(** steps that cannot spoil the framing: names and values free of line breaks, no spelling of
    content-length in another case (deletions: see [headers_sound]) *)
Definition name_fine (k : bytes) : Prop :=
  k <> [] /\ one_line k /\ ~ In COLON k
  /\ (same_name (B "content-length") k = true -> k = B "content-length").
Definition rop_fine (o : rop) : Prop :=
  match o with
  | RVersion _ _ => True
  | RCode _ reason => one_line reason
  | RHeader k v | RSetHeader k v => name_fine k /\ one_line v
  | RDelHeader _ => True
  | RBody _ => True
  end.

(** a table entry the reader will accept and leave as it is *)
Definition entry_ok (line : N) (k : bytes) (vs : list bytes) : Prop :=
  Forall token_char k /\ ~ In COLON k /\ length k <= 256 /\ lower k = k
  /\ Forall (fun v => Forall vchar v /\ strip v = v
       /\ (N.of_nat (length (k ++ B ": " ++ v ++ CRLF)) <= line)%N) vs.

(** the version [v] of a request is taken for number [a] *)
Definition asks_version (v : bytes) (a : N) : Prop :=
  exists name major minor, v = version_text name major minor /\ lower name = B "http" /\ (a < 256)%N
    /\ (numeral major a \/ exists t, major = PLUS :: t /\ numeral t a).
(** the first line of a greeting, by the version of the request *)
Definition greeting_line (v line : bytes) : Prop :=
  (exists a, asks_version v a /\ line = B "HTTP/1.1HTTP/" ++ dec a ++ B "." ++ dec a ++ B " 200 OK")
  \/ (forall a, ~ asks_version v a) /\ line = B "HTTP/1.1 200 OK".

(** versions with major number zero *)
Definition zero_major (v : bytes) : Prop :=
  exists name major minor, v = version_text name major minor /\ lower name = B "http"
    /\ (numeral major 0 \/ exists t, major = PLUS :: t /\ numeral t 0).

(** what the steps of a script say, each on its own: version, code, reason, headers, body *)
Definition says_version (o : rop) : bytes :=
  match o with RVersion a b => B "HTTP/" ++ dec a ++ B "." ++ dec b | _ => [] end.
Definition says_code (o : rop) : bytes := match o with RCode c _ => dec c | _ => [] end.
Definition says_reason (o : rop) : bytes := match o with RCode _ reason => reason | _ => [] end.
Definition says_header (o : rop) : list mop :=
  match o with
  | RHeader k v => [OAppend k v] | RSetHeader k v => [OSet k v] | RDelHeader k => [ODelete k] | _ => []
  end.
Definition says_body (o : rop) : list bop := match o with RBody o => [o] | _ => [] end.
Definition all_of {A} (says : rop -> list A) (l : list rop) : list A := concat (map says l).

(** steps that decode nothing *)
Definition writes (o : rop) : Prop := match o with RBody o => encodes_only o | _ => True end.
(** the header table does what the steps say, up to the content-length set in the end: names are
    not empty, and what is written while a deletion has left a gap goes to names before the gap
    or (appended) to new names *)
Definition headers_sound (l : list rop) : Prop :=
  all_sound (Row []) (all_of says_header l ++ [OSet (B "content-length") []]).
(** steps that name their headers and delete none *)
Definition deletes_none (o : rop) : Prop :=
  match o with RHeader k _ | RSetHeader k _ => k <> [] | RDelHeader _ => False | _ => True end.
(** the fields are those of [a], every name with its values in their order *)
Definition lists (fs : list field) (a : amap) : Prop :=
  forall k, map snd (filter (fun f => if bytes_same (fst f) k then true else false) fs)
    = match a k with Some vs => vs | None => [] end.
(** what was done to the body of the response in the exchanges that are over: the steps of the
    handler, then the response is sent and cleared *)
Definition body_so_far {M : Type} (f : M -> list rop * protocol) (before : list (M * option bytes)) : list bop :=
  concat (map (fun p => all_of says_body (fst (f (fst p))) ++ [BEnd; BClear]) before).
