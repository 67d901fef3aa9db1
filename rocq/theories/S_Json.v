(** The grammar of JSON (RFC 8259) on bytes, and line and colour conventions, independently of the
    code. *)
From Verif Require Export M_Item.

Definition num (c : byte) : N := N_of_ascii c.
Definition jspace (c : byte) : Prop := num c = 32%N \/ num c = 9%N \/ num c = 10%N \/ num c = 13%N.
Definition jws (s : bytes) : Prop := Forall jspace s.
Definition jdigit (c : byte) : Prop := (48 <= num c <= 57)%N.
Definition jhex (c : byte) : Prop :=
  (48 <= num c <= 57)%N \/ (65 <= num c <= 70)%N \/ (97 <= num c <= 102)%N.
Definition BACKSLASH : byte := ascii_of_N 92.

(** the inside of a string: bytes that need no escape, and escapes *)
Definition plain (c : byte) : Prop := (32 <= num c)%N /\ c <> QUOTE /\ c <> BACKSLASH.
Inductive jchars : bytes -> Prop :=
| jc_nil : jchars []
| jc_plain c s : plain c -> jchars s -> jchars (c :: s)
| jc_escape c s : In c (B """\/bfnrt") -> jchars s -> jchars (BACKSLASH :: c :: s)
| jc_hex a b c d s : jhex a -> jhex b -> jhex c -> jhex d -> jchars s ->
    jchars (BACKSLASH :: "u"%char :: a :: b :: c :: d :: s).
Inductive jstring : bytes -> Prop := js_intro s : jchars s -> jstring ([QUOTE] ++ s ++ [QUOTE]).

(** numbers *)
Inductive jint : bytes -> Prop :=
| ji_zero : jint (B "0")
| ji_digits c s : (49 <= num c <= 57)%N -> Forall jdigit s -> jint (c :: s).
Inductive jfrac : bytes -> Prop :=
| jf_none : jfrac []
| jf_some c s : jdigit c -> Forall jdigit s -> jfrac (B "." ++ c :: s).
Inductive jexp : bytes -> Prop :=
| je_none : jexp []
| je_some e sign c s : In e (B "eE") -> In sign [[]; B "+"; B "-"] -> jdigit c -> Forall jdigit s ->
    jexp (e :: sign ++ c :: s).
Inductive jnumber : bytes -> Prop :=
| jn_intro sign i f e : In sign [[]; B "-"] -> jint i -> jfrac f -> jexp e ->
    jnumber (sign ++ i ++ f ++ e).

(** values; [jmembers] and [jelements] are non-empty *)
Inductive jvalue : bytes -> Prop :=
| jv_true : jvalue (B "true")
| jv_false : jvalue (B "false")
| jv_null : jvalue (B "null")
| jv_string s : jstring s -> jvalue s
| jv_number s : jnumber s -> jvalue s
| jv_object s : jobject s -> jvalue s
| jv_array0 w : jws w -> jvalue (B "[" ++ w ++ B "]")
| jv_array s : jelements s -> jvalue (B "[" ++ s ++ B "]")
with jobject : bytes -> Prop :=
| jo_empty w : jws w -> jobject ([LBRACE] ++ w ++ [RBRACE])
| jo_members s : jmembers s -> jobject ([LBRACE] ++ s ++ [RBRACE])
with jmember : bytes -> Prop :=
| jm_intro w1 k w2 w3 v w4 : jws w1 -> jstring k -> jws w2 -> jws w3 -> jvalue v -> jws w4 ->
    jmember (w1 ++ k ++ w2 ++ [COLON] ++ w3 ++ v ++ w4)
with jmembers : bytes -> Prop :=
| jms_one m : jmember m -> jmembers m
| jms_more m s : jmember m -> jmembers s -> jmembers (m ++ [COMMA] ++ s)
with jelements : bytes -> Prop :=
| jes_one w1 v w2 : jws w1 -> jvalue v -> jws w2 -> jelements (w1 ++ v ++ w2)
| jes_more w1 v w2 s : jws w1 -> jvalue v -> jws w2 -> jelements s ->
    jelements (w1 ++ v ++ w2 ++ [COMMA] ++ s).

(** a line of JSON *)
Definition json_line (s : bytes) : Prop := exists o, jobject o /\ s = o ++ CRLF.

(** a text that can stand between quotes as it is *)
Definition clean (s : bytes) : Prop := Forall plain s.

(** the layout of times if none is set: date, time of day, milliseconds *)
Definition usual_layout : str := chars "%Y-%m-%d %H:%M:%S%.3f".
(** the text of a record's time *)
Definition shown_time (fmt : formatter) (layout : str) (it : item) (t : bytes) : Prop :=
  fmt (i_time it) (match layout with [] => usual_layout | _ => layout end) = Some t.

(** the texts a record is rendered from *)
Definition parts (t : bytes) (it : item) : list bytes :=
  t :: i_file it :: i_msg it :: flat_map (fun kv => [fst kv; snd kv]) (i_kvs it).

(** [t] is [s] without its colour sequences: ESC, '[', digits and semicolons, 'm' *)
Definition param (c : byte) : Prop := jdigit c \/ c = ";"%char.
Inductive uncoloured : bytes -> bytes -> Prop :=
| un_nil : uncoloured [] []
| un_byte c s t : c <> ESC -> uncoloured s t -> uncoloured (c :: s) (c :: t)
| un_sequence p s t : Forall param p -> uncoloured s t ->
    uncoloured ([ESC] ++ B "[" ++ p ++ B "m" ++ s) t.
Definition no_colours : color_scheme := ColorScheme None None None None None.

(** ** what a line shows *)
Fixpoint joined (sep : bytes) (l : list bytes) : bytes :=
  match l with [] => [] | [x] => x | x :: r => x ++ sep ++ joined sep r end.
Definition level_text (l : level) : bytes :=
  match l with Error => B "ERROR" | Warn => B "WARN" | Info => B "INFO" | Debug => B "DEBUG" | Trace => B "TRACE" end.
Definition in_quotes (s : bytes) : bytes := B """" ++ s ++ B """".
(** the members of a JSON line, as names and texts of values *)
Definition shown_members (t : bytes) (it : item) : list (string * bytes) :=
  [("level", in_quotes (level_text (i_level it))); ("time", in_quotes t);
   ("lineno", in_quotes (i_file it ++ B ":" ++ dec (i_line it))); ("message", in_quotes (i_msg it))]%string
  ++ match i_kvs it with
     | [] => []
     | kvs => [("kvs"%string, [LBRACE] ++ joined [COMMA] (map (fun kv => fst kv ++ [COLON] ++ snd kv) kvs) ++ [RBRACE])]
     end.
Definition shown_json (t : bytes) (it : item) : bytes :=
  [LBRACE] ++ joined [COMMA] (map (fun m => in_quotes (B (fst m)) ++ [COLON] ++ snd m) (shown_members t it)) ++ [RBRACE].
(** a text in a colour; one shade of black stands for no colour *)
Definition painted (c : option color) (s : bytes) : bytes :=
  match c with
  | None | Some (Color 0 0 1) => s
  | Some (Color r g b) => [ESC] ++ B "[38;2;" ++ joined (B ";") [dec r; dec g; dec b] ++ B "m" ++ s ++ [ESC] ++ B "[0m"
  end.
Definition level_paint (scheme : color_scheme) (l : level) : option color :=
  match cs_levels scheme with
  | None => None
  | Some p => match l with Error => lc_error p | Warn => lc_warn p | Info => lc_info p | Debug => lc_debug p | Trace => lc_trace p end
  end.
Definition shown_coloured (scheme : color_scheme) (t : bytes) (it : item) : bytes :=
  let lv := level_paint scheme (i_level it) in
  joined (B " ")
    ([painted lv (B "[" ++ level_text (i_level it) ++ B "]"); painted (cs_time scheme) t;
      B "(" ++ painted (cs_file scheme) (i_file it) ++ B ":" ++ painted (cs_line scheme) (dec (i_line it)) ++ B ")";
      painted lv (i_msg it)]
     ++ match i_kvs it with
        | [] => []
        | kvs => [B "{"; joined (B " , ") (map (fun kv => painted (cs_key scheme) (fst kv) ++ B ": " ++ painted lv (snd kv)) kvs); B "}"]
        end).
(** the colours in use *)
Definition usual_colours : color_scheme :=
  {| cs_levels := Some {| lc_error := Some (Color 237 90 101); lc_warn := Some (Color 252 211 55);
       lc_info := Some (Color 91 174 35); lc_debug := Some (Color 46 49 124); lc_trace := Some (Color 94 102 91) |};
     cs_time := Some (Color 106 64 40); cs_file := Some (Color 85 187 138); cs_line := Some (Color 20 145 168);
     cs_key := Some (Color 216 89 22) |}.
