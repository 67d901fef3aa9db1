(** Model of src/message.rs: Message, read_headers, the body readers, write_to. *)
From Verif Require Export M_Base M_MultiMap M_Settings M_Reader M_Body.

(** src/message.rs:143-152 *)
Inductive read_code :=
| RcOk | RcConnReadError | RcBadDatagram | RcReachMaxBodySize | RcBadContentLength
| RcReachMaxHeadersCount | RcBadChunkSize.

(** src/message.rs:154 *)
Definition MAX_HEADER_NAME_LENGTH : nat := 256.

Section Message.
Variable K : codec.

(** src/message.rs:136-141 *)
Record message := Msg {
  fl0 : bytes; fl1 : bytes; fl2 : bytes;
  headers : mmap;
  mbody : body K
}.

(** #[derive(Default)] *)
Definition msg_default : message := Msg [] [] [] mm_new body_default.

(** src/message.rs:248-254 *)
Definition msg_clear (m : message) : message :=
  Msg [] [] [] (mm_clear (headers m)) (body_clear (mbody m)).

(** src/message.rs:256-264; inner [None] = Err(()) *)
Definition get_content_length (m : message) : outcome (option N) :=
  o <- mm_get (headers m) (B "content-length") ;;
  Ret (match o with
       | Some v => parse_uint_b u64max v
       | None => Some 0%N
       end).

(** ** read_const_length_body_impl! (src/message.rs:156-184)
    [w] is write_raw or write_compression, [cap] the scratch vector's capacity. *)
Fixpoint const_body_loop (fuel : nat) (w : body K -> bytes -> outcome (body K)) (cap : N)
    (r : reader) (b : body K) (remain : N) : outcome (read_code * body K * reader) :=
  match fuel with
  | O => NoFuel
  | S f =>
      let n := if (remain <? cap)%N then remain else cap in
      x <- rd_read n r ;;
      match fst x with
      | Some data =>
          b' <- w b data ;;
          let remain' := (remain - lenN data)%N in
          if (remain' <? 1)%N then Ret (RcOk, b', snd x)
          else const_body_loop f w cap (snd x) b' remain'
      | None => Ret (RcConnReadError, b, snd x)
      end
  end.
Definition const_body (fuel : nat) (w : body K -> bytes -> outcome (body K)) (cap : N)
    (r : reader) (b : body K) (remain : N) : outcome (read_code * body K * reader) :=
  if (remain <? 1)%N then Ret (RcOk, b, r)
  else const_body_loop fuel w cap r b remain.

Definition with_body (m : message) (b : body K) : message :=
  Msg (fl0 m) (fl1 m) (fl2 m) (headers m) b.

(** src/message.rs:274-281 *)
Definition read_const_length_raw (fuel : nat) (cap : N) (r : reader) (m : message) (remain : N)
  : outcome (read_code * message * reader) :=
  x <- const_body fuel write_raw cap r (mbody m) remain ;;
  let '(c, b, r') := x in Ret (c, with_body m b, r').

(** src/message.rs:300-307 *)
Definition read_const_length_body_decompression (fuel : nat) (cap : N) (r : reader) (m : message)
    (remain : N) : outcome (read_code * message * reader) :=
  x <- const_body fuel write_compression cap r (mbody m) remain ;;
  let '(c, b, r') := x in Ret (c, with_body m b, r').

(** src/message.rs:283-298 *)
Definition read_const_length_body (fuel : nat) (cap : N) (r : reader) (m : message)
  : outcome (read_code * message * reader) :=
  o <- get_content_length m ;;
  match o with
  | Some size => read_const_length_raw fuel cap r m size
  | None => Ret (RcBadContentLength, m, r)
  end.

(** ** read_chunked_body_impl! (src/message.rs:186-245).
    The outer [loop] never runs a second time: every path through its body returns
    (lines 239-242), so it is modelled by its single iteration. *)
Definition chunked_body (fuel : nat) (w : body K -> bytes -> outcome (body K)) (cap : N)
    (r : reader) (b : body K) (max_body_size : N) : outcome (read_code * body K * reader) :=
  x <- read_line 128 r ;;
  match fst x with
  | None => Ret (RcConnReadError, b, snd x)
  | Some line =>
      match utf8_decode line with
      | None => Ret (RcConnReadError, b, snd x) (* excluded by read_line *)
      | Some cs =>
          match parse_uint u64max (trim_by is_ws cs) with
          | None => Ret (RcBadChunkSize, b, snd x)
          | Some num =>
              if (max_body_size <? num)%N then Ret (RcReachMaxBodySize, b, snd x)
              else
                y <- const_body fuel w cap (snd x) b num ;;
                let '(c, b', r') := y in
                match c with
                | RcOk =>
                    z <- read_line 2 r' ;;
                    match fst z with
                    | Some _ => Ret (RcOk, b', snd z)
                    | None => Ret (RcBadDatagram, b', snd z)
                    end
                | _ => Ret (c, b', r')
                end
          end
      end
  end.

(** src/message.rs:309-316 *)
Definition read_chunked_body (fuel : nat) (cap : N) (r : reader) (m : message) (max : N)
  : outcome (read_code * message * reader) :=
  x <- chunked_body fuel write_raw cap r (mbody m) max ;;
  let '(c, b, r') := x in Ret (c, with_body m b, r').

(** src/message.rs:318-325 *)
Definition read_chunked_body_decompression (fuel : nat) (cap : N) (r : reader) (m : message)
    (max : N) : outcome (read_code * message * reader) :=
  x <- chunked_body fuel write_compression cap r (mbody m) max ;;
  let '(c, b, r') := x in Ret (c, with_body m b, r').

(** src/message.rs:327-351 *)
Definition read_body_normal (fuel : nat) (cap : N) (r : reader) (m : message) (cfg : http_config)
  : outcome (read_code * message * reader) :=
  te <- mm_getall (headers m) (B "transfer-encoding") ;;
  if header_contains te (B "chunked") then
    read_chunked_body fuel cap r m (h_max_body_size cfg)
  else
    o <- get_content_length m ;;
    match o with
    | Some remain =>
        if (h_max_body_size cfg <? remain)%N then Ret (RcReachMaxBodySize, m, r)
        else read_const_length_raw fuel cap r m remain
    | None => Ret (RcBadContentLength, m, r)
    end.

(** ** read_headers *)

(** The loop over one header line (src/message.rs:454-496), given the line without its last two
    bytes.  [seen] is keytmp[..keyidx] reversed. *)
Inductive line_result := LBad | LNoColon | LHeader (k v : bytes).
Fixpoint scan_line (seen : bytes) (keyidx : nat) (rest : bytes) : line_result :=
  match rest with
  | [] => LNoColon
  | c :: rest' =>
      if negb (is_printable c) then LBad
      else if Ascii.eqb c COLON then
        let key := trim (rev seen) in
        if is_nil rest' then LBad
        else if negb (forallb is_printable rest') then LBad
        else LHeader key (trim rest')
      else if Nat.leb MAX_HEADER_NAME_LENGTH keyidx then LBad
      else scan_line (to_lower c :: seen) (S keyidx) rest'
  end.

(** The ['readlines] loop together with its re-entry from the outer state loop
    (src/message.rs:432-503).  The counter [hc] is local to one iteration (line 438). *)
Fixpoint header_lines (fuel : nat) (cfg : http_config) (r : reader) (h : mmap)
  : outcome (read_code * mmap * reader) :=
  match fuel with
  | O => NoFuel
  | S f =>
      let hc := 0%N in
      x <- read_until LF (h_max_header_line_size cfg) r ;;
      match fst x with
      | None => Ret (RcConnReadError, h, snd x)
      | Some buf =>
          let size := length buf in
          if Nat.ltb size 2 then Ret (RcBadDatagram, h, snd x)
          else if Nat.eqb size 2 then Ret (RcOk, h, snd x)
          else
            match scan_line [] 0 (firstn (size - 2) buf) with
            | LBad => Ret (RcBadDatagram, h, snd x)
            | LNoColon => header_lines f cfg (snd x) h
            | LHeader k v =>
                h' <- mm_append h k v ;;
                let hc' := (hc + 1)%N in
                if (h_max_headers_count cfg <? hc')%N
                then Ret (RcReachMaxHeadersCount, h', snd x)
                else header_lines f cfg (snd x) h'
            end
      end
  end.

(** src/message.rs:353-509: the states None, FirstLine0, FirstLine1, FirstLine2, HeadersDone in
    sequence.  [set_len(size - 1)] / [set_len(size - 2)] act on the whole destination string,
    which is what [firstn] of old content plus new bytes says.  On a failing return the
    partially filled message is dropped by the caller; the model gives back what was complete. *)
Definition read_headers (fuel : nat) (cfg : http_config) (r : reader) (m : message)
  : outcome (read_code * message * reader) :=
  x0 <- read_until SP 128 r ;;
  match fst x0 with
  | None => Ret (RcConnReadError, m, snd x0)
  | Some t0 =>
      if Nat.ltb (length t0) 1 then Ret (RcConnReadError, m, snd x0)
      else
        let d0 := firstn (length t0 - 1) (fl0 m ++ t0) in
        if negb (forallb is_printable d0) then Ret (RcBadDatagram, m, snd x0)
        else
          x1 <- read_until SP (h_max_url_size cfg) (snd x0) ;;
          match fst x1 with
          | None => Ret (RcConnReadError, m, snd x1)
          | Some t1 =>
              if Nat.ltb (length t1) 1 then Ret (RcConnReadError, m, snd x1)
              else
                let d1 := firstn (length t1 - 1) (fl1 m ++ t1) in
                if negb (forallb is_printable d1) then Ret (RcBadDatagram, m, snd x1)
                else
                  x2 <- read_line 128 (snd x1) ;;
                  match fst x2 with
                  | None => Ret (RcConnReadError, m, snd x2)
                  | Some t2 =>
                      if Nat.ltb (length t2) 3 then Ret (RcBadDatagram, m, snd x2)
                      else
                        let d2 := firstn (length t2 - 2) (fl2 m ++ t2) in
                        if negb (forallb is_printable d2) then Ret (RcBadDatagram, m, snd x2)
                        else
                          y <- header_lines fuel cfg (snd x2) (headers m) ;;
                          let '(c, h, r') := y in
                          Ret (c, Msg d0 d1 d2 h (mbody m), r')
                  end
          end
  end.

(** ** write_to *)

(** src/message.rs:531-540: the header visitor *)
Definition header_line (k v : bytes) : bytes := k ++ B ": " ++ v ++ CRLF.
Definition header_visitor (acc : bytes) (k : bytes) (vs : list bytes) : bytes * bool :=
  (acc ++ concat (map (header_line k) vs), true).

(** src/message.rs:517-546: the bytes handed to the writer ([None]: body.end() failed) and the
    message afterwards *)
Definition serialize (ho : hash_order) (m : message) : outcome (option bytes * message) :=
  let first := fl0 m ++ [SP] ++ fl1 m ++ [SP] ++ fl2 m ++ CRLF in
  let '(b, ok) := body_end (mbody m) in
  if ok then
    let bodysize := body_size b in
    h <- mm_set (headers m) (B "content-length") (dec (N.of_nat bodysize)) ;;
    hs <- mm_each ho h header_visitor [] ;;
    let head := first ++ hs ++ CRLF in
    let m' := Msg (fl0 m) (fl1 m) (fl2 m) h b in
    if Nat.ltb 0 bodysize then
      inner <- body_inner b ;; Ret (Some (head ++ inner), m')
    else Ret (Some head, m')
  else Ret (None, with_body m b).

(** src/message.rs:511-549; [true] = Ok *)
Definition write_to (ho : hash_order) (m : message) (w : writer)
  : outcome (bool * message * writer) :=
  x <- serialize ho m ;;
  match fst x with
  | None => Ret (false, snd x, w)
  | Some data => let '(w', ok) := w_write data w in Ret (ok, snd x, w')
  end.

End Message.
Arguments Msg {K} _ _ _ _ _.
Arguments fl0 {K} _.
Arguments fl1 {K} _.
Arguments fl2 {K} _.
Arguments headers {K} _.
Arguments mbody {K} _.
Arguments msg_default {K}.
Arguments msg_clear {K} _.
Arguments with_body {K} _ _.
Arguments get_content_length {K} _.
Arguments const_body_loop {K} _ _ _ _ _ _.
Arguments const_body {K} _ _ _ _ _ _.
Arguments read_const_length_raw {K} _ _ _ _ _.
Arguments read_const_length_body_decompression {K} _ _ _ _ _.
Arguments read_const_length_body {K} _ _ _ _.
Arguments chunked_body {K} _ _ _ _ _ _.
Arguments read_chunked_body {K} _ _ _ _ _.
Arguments read_chunked_body_decompression {K} _ _ _ _ _.
Arguments read_body_normal {K} _ _ _ _ _.
Arguments read_headers {K} _ _ _ _.
Arguments serialize {K} _ _.
Arguments write_to {K} _ _ _.
