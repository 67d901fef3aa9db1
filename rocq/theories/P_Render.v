(** Properties C56-C58 and C98: rendered log lines. *)
From Verif Require Import F_Render.

Definition ex_fmt : formatter := fun _ _ => Some (B "2024-01-02 03:04:05.678").
Definition ex_item (msg : bytes) (kvs : list (bytes * bytes)) : item := Item 0 Info (B "src/main.rs") 7 msg kvs 0.

(** C56, the part that holds: a record whose texts need no escaping, and whose attribute names are
    already JSON strings, is rendered as a JSON object and CR LF. *)
Theorem C56_json_partial : forall fmt layout it t s, shown_time fmt layout it t ->
  render_json fmt layout it = Ret s ->
  jchars t -> jchars (i_file it ++ [COLON] ++ dec (i_line it)) -> jchars (i_msg it) ->
  Forall (fun kv => jstring (fst kv) /\ jvalue (snd kv)) (i_kvs it) -> json_line s.
Proof.
  intros fmt layout it t s Ht Hr. apply render_json_text in Hr as (t' & Ht' & ->).
  unfold shown_time in *. rewrite Ht in Ht'. injection Ht' as <-. apply json_good.
Qed.
Print Assumptions C56_json_partial.
Example C56_partial_nonvacuous :
  render_json ex_fmt [] (ex_item (B "hello") []) = Ret (B "{""level"":""INFO"",""time"":""2024-01-02 03:04:05.678"",""lineno"":""src/main.rs:7"",""message"":""hello""}" ++ CRLF)
  /\ jchars (B "hello") /\ jchars (B "src/main.rs" ++ [COLON] ++ dec 7) /\ jchars (B "2024-01-02 03:04:05.678")
  /\ jstring (quoted (B "k")) /\ jvalue (B "-12.5e+3").
Proof.
  splits; try reflexivity.
  - now apply str_jchars.
  - exact (str_jchars "src/main.rs:7" eq_refl).
  - now apply str_jchars.
  - now apply quoted_jstring, str_jchars.
  - apply jv_number. apply (jn_intro (B "-") (B "12") (B ".5") (B "e+3")).
    + now right; left.
    + apply ji_digits; [vm_compute; split; discriminate|]. repeat constructor; vm_compute; discriminate.
    + apply (jf_some "5"%char []); [vm_compute; split; discriminate|constructor].
    + apply (je_some "e"%char (B "+") "3"%char []); [now left|now right; left|vm_compute; split; discriminate|constructor].
Qed.
(** C56 fails: attribute names are written without quotes, so no record with an ordinary attribute
    is JSON; and messages are not escaped, so none whose message contains a control character or a
    quote followed by ordinary text is. *)
Theorem C56_attributes_refuted : forall fmt layout it t s k v kvs c k', shown_time fmt layout it t ->
  render_json fmt layout it = Ret s ->
  jchars t -> jchars (i_file it ++ [COLON] ++ dec (i_line it)) -> jchars (i_msg it) ->
  i_kvs it = (k, v) :: kvs -> k = c :: k' -> ~ jspace c -> c <> QUOTE -> c <> RBRACE -> ~ json_line s.
Proof.
  intros fmt layout it t s k v kvs c k' Ht Hr. apply render_json_text in Hr as (t' & Ht' & ->).
  unfold shown_time in *. rewrite Ht in Ht'. injection Ht' as <-. apply json_bad_key.
Qed.
Print Assumptions C56_attributes_refuted.
Theorem C56_control_refuted : forall fmt layout it t s a c b, shown_time fmt layout it t ->
  render_json fmt layout it = Ret s ->
  jchars t -> jchars (i_file it ++ [COLON] ++ dec (i_line it)) ->
  i_msg it = a ++ c :: b -> clean a -> (num c < 32)%N -> ~ json_line s.
Proof.
  intros fmt layout it t s a c b Ht Hr. apply render_json_text in Hr as (t' & Ht' & ->).
  unfold shown_time in *. rewrite Ht in Ht'. injection Ht' as <-. apply json_bad_msg.
Qed.
Print Assumptions C56_control_refuted.
Theorem C56_quote_refuted : forall fmt layout it t s a c b, shown_time fmt layout it t ->
  render_json fmt layout it = Ret s ->
  jchars t -> jchars (i_file it ++ [COLON] ++ dec (i_line it)) ->
  i_msg it = a ++ QUOTE :: c :: b -> clean a -> ~ jspace c -> ~ In c [COMMA; COLON; RBRACE; "]"%char] -> ~ json_line s.
Proof.
  intros fmt layout it t s a c b Ht Hr. apply render_json_text in Hr as (t' & Ht' & ->).
  unfold shown_time in *. rewrite Ht in Ht'. injection Ht' as <-. apply json_bad_quote.
Qed.
Print Assumptions C56_quote_refuted.
Example C56_refuted_nonvacuous :
  render_json ex_fmt [] (ex_item (B "hello") [(B "user", B "1")]) = Ret (B "{""level"":""INFO"",""time"":""2024-01-02 03:04:05.678"",""lineno"":""src/main.rs:7"",""message"":""hello"",""kvs"":{user:1}}" ++ CRLF)
  /\ ~ json_line (B "{""level"":""INFO"",""time"":""2024-01-02 03:04:05.678"",""lineno"":""src/main.rs:7"",""message"":""hello"",""kvs"":{user:1}}" ++ CRLF)
  /\ (B "say ""hi""" = B "say " ++ QUOTE :: "h"%char :: B "i""" /\ clean (B "say ")).
Proof.
  splits; try reflexivity.
  - intros H. apply scan_line in H. vm_compute in H. discriminate.
  - repeat constructor; discriminate.
Qed.

(** C57, the part that holds: if none of the texts a record is rendered from has a line feed, its
    line has one line feed, the one at its end. *)
Theorem C57_one_line_partial : forall fmt r it s, render fmt r it = Ret s ->
  Forall (fun p : bytes => ~ In LF p)
    (i_file it :: i_msg it :: flat_map (fun kv => [fst kv; snd kv]) (i_kvs it)) ->
  (forall t, shown_time fmt (r_timelayout r) it t -> ~ In LF t) ->
  exists body, s = body ++ CRLF /\ ~ In LF body.
Proof. exact one_line. Qed.
Print Assumptions C57_one_line_partial.
(** C57 fails for all other records, with both renderers. *)
Theorem C57_many_lines_refuted : forall fmt r it s p, render fmt r it = Ret s ->
  In p (i_file it :: i_msg it :: flat_map (fun kv => [fst kv; snd kv]) (i_kvs it)) -> In LF p ->
  exists body, s = body ++ CRLF /\ In LF body.
Proof. exact many_lines. Qed.
Print Assumptions C57_many_lines_refuted.
Example C57_nonvacuous :
  let r := Renderer (chars "colored") Colorful [] in
  (exists s, render ex_fmt r (ex_item (B "hello") [(B "a", B "1"); (B "b", B "2")]) = Ret s)
  /\ (exists s, render ex_fmt r (ex_item (B "a" ++ [LF] ++ B "b") []) = Ret s) /\ In LF (B "a" ++ [LF] ++ B "b").
Proof. cbv zeta. splits; [eexists; reflexivity|eexists; reflexivity|now right; left]. Qed.

(** C58: removing the colour sequences of a line of any scheme gives the line without colours. *)
Theorem C58_colours : forall fmt scheme layout it s,
  Forall (fun p : bytes => ~ In ESC p)
    (i_file it :: i_msg it :: flat_map (fun kv => [fst kv; snd kv]) (i_kvs it)) ->
  (forall t, shown_time fmt layout it t -> ~ In ESC t) ->
  render_color fmt scheme layout it = Ret s ->
  exists s', render_color fmt no_colours layout it = Ret s' /\ uncoloured s s'.
Proof.
  intros fmt scheme layout it s H Ht Hr. apply render_color_text in Hr as (t & Hs & ->).
  exists (color_text no_colours t it). split; [apply render_color_text; eauto|].
  apply un_text. constructor; [now apply Ht|exact H].
Qed.
Print Assumptions C58_colours.
(** removing colour sequences is a function *)
Theorem C58_determined : forall s a b, uncoloured s a -> uncoloured s b -> a = b.
Proof. intros s a b Ha Hb. exact (uncoloured_fun s a Ha b Hb). Qed.
Print Assumptions C58_determined.
Example C58_nonvacuous :
  exists s, render_color ex_fmt scheme_default [] (ex_item (B "hello") [(B "a", B "1")]) = Ret s
  /\ In ESC s /\ render_color ex_fmt no_colours [] (ex_item (B "hello") [(B "a", B "1")])
     = Ret (B "[INFO] 2024-01-02 03:04:05.678 (src/main.rs:7) hello { a: 1 }" ++ CRLF).
Proof. eexists. splits; [reflexivity|now left|reflexivity]. Qed.

(** C98: the text of a line, for both renderers: level, time, place, message and the attributes in
    their order, and CR LF.  Without a text for the time there is no line: the renderer panics. *)
Theorem C98_shown : forall fmt r it,
  (forall t, shown_time fmt (r_timelayout r) it t ->
     render fmt r it = Ret ((match r_kind r with Json => shown_json t it | Colorful => shown_coloured usual_colours t it end) ++ CRLF))
  /\ ((forall t, ~ shown_time fmt (r_timelayout r) it t) -> render fmt r it = Panic).
Proof. exact rendered_shown. Qed.
Print Assumptions C98_shown.
(** in any colours *)
Theorem C98_coloured : forall fmt scheme layout it t, shown_time fmt layout it t ->
  render_color fmt scheme layout it = Ret (shown_coloured scheme t it ++ CRLF).
Proof. intros fmt scheme layout it t H. apply render_color_text. exists t. split; [exact H|]. symmetry. apply color_shown. Qed.
Print Assumptions C98_coloured.
Example C98_nonvacuous :
  shown_time ex_fmt [] (ex_item (B "hello") []) (B "2024-01-02 03:04:05.678")
  /\ shown_json (B "T") (ex_item (B "m") [(B "a", B "1"); (B "b", B "2")])
     = B "{""level"":""INFO"",""time"":""T"",""lineno"":""src/main.rs:7"",""message"":""m"",""kvs"":{a:1,b:2}}"
  /\ shown_coloured no_colours (B "T") (ex_item (B "m") [(B "a", B "1"); (B "b", B "2")])
     = B "[INFO] T (src/main.rs:7) m { a: 1 , b: 2 }"
  /\ painted (Some (Color 1 2 3)) (B "x") = [ESC] ++ B "[38;2;1;2;3mx" ++ [ESC] ++ B "[0m".
Proof. splits; vm_compute; reflexivity. Qed.
