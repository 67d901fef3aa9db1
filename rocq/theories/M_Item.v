(** Model of src/logging/item.rs, src/logging/color.rs and the two renderers
    src/logging/json_line_renderer.rs and src/logging/colorful_line_renderer.rs. *)
From Verif Require Export M_Config.

(** A structured value of a log record (crate log): what to_u64 and serde_json::to_writer make of
    it.  (item.rs:66: errors of to_writer are ignored; [v_json] is what was written.) *)
Record kv_value := Value { v_u64 : option N; v_json : bytes }.

(** log::Record as far as it is used *)
Record log_record := LogRecord {
  lr_time : N;
  lr_level : level;
  lr_file : option bytes;
  lr_line : option N;
  lr_msg : bytes;
  lr_kvs : list (bytes * kv_value)
}.

(** src/logging/item.rs:5-13 *)
Record item := Item {
  i_time : N;
  i_level : level;
  i_file : bytes;
  i_line : N;
  i_msg : bytes;
  i_kvs : list (bytes * bytes);
  i_service : N
}.

(** src/logging/item.rs:44-73: one attribute *)
Definition visit_pair (kvs : list (bytes * bytes)) (service : N) (key : bytes) (v : kv_value)
    : list (bytes * bytes) * N :=
  match key with
  | [] => (kvs, service)
  | _ =>
      if bytes_eqb key (B "service") then
        (kvs, match v_u64 v with Some n => n | None => service end)
      else (kvs ++ [(key, v_json v)], service)
  end.
Fixpoint visit_all (l : list (bytes * kv_value)) (kvs : list (bytes * bytes)) (service : N)
    : list (bytes * bytes) * N :=
  match l with
  | [] => (kvs, service)
  | (k, v) :: l' => let '(kvs', service') := visit_pair kvs service k v in visit_all l' kvs' service'
  end.
(** src/logging/item.rs:75-94 *)
Definition item_of (r : log_record) : item :=
  let '(kvs, service) := visit_all (lr_kvs r) [] 0%N in
  Item (lr_time r) (lr_level r) (unwrap_or (lr_file r) []) (unwrap_or (lr_line r) 0%N) (lr_msg r)
    kvs service.

(** Level::as_str as bytes *)
Definition level_bytes (l : level) : bytes :=
  B (match l with Error => "ERROR" | Warn => "WARN" | Info => "INFO" | Debug => "DEBUG"
     | Trace => "TRACE" end)%string.

(** luxon::fmtlocal (src/utils/luxon.rs:30-33): chrono formatting; None when the layout is not
    one chrono can format, in which case to_string panics *)
Definition formatter := N -> str -> option bytes.
Definition default_layout : str := chars "%Y-%m-%d %H:%M:%S%.3f".

Definition QUOTE : byte := ascii_of_N 34.
Definition LBRACE : byte := ascii_of_N 123.
Definition RBRACE : byte := ascii_of_N 125.
Definition COMMA : byte := ascii_of_N 44.
Definition ESC : byte := ascii_of_N 27.
Definition quoted (s : bytes) : bytes := [QUOTE] ++ s ++ [QUOTE].

(** the time text: json_line_renderer.rs:39-44, colorful_line_renderer.rs:51-56 *)
Definition time_text (fmt : formatter) (layout : str) (it : item) : outcome bytes :=
  match fmt (i_time it) (match layout with [] => default_layout | _ => layout end) with
  | Some t => Ret t
  | None => Panic
  end.

(** src/logging/json_line_renderer.rs:69-77 *)
Fixpoint json_pairs (kvs : list (bytes * bytes)) : bytes :=
  match kvs with
  | [] => []
  | [(k, v)] => k ++ [COLON] ++ v
  | (k, v) :: rest => k ++ [COLON] ++ v ++ [COMMA] ++ json_pairs rest
  end.
(** src/logging/json_line_renderer.rs:19-80.  The buffer was cleared before (consumer.rs:107,
    174), so rendering is a function of the record. *)
Definition render_json (fmt : formatter) (layout : str) (it : item) : outcome bytes :=
  t <- time_text fmt layout it ;;
  Ret ([LBRACE] ++ quoted (B "level") ++ [COLON] ++ quoted (level_bytes (i_level it))
       ++ [COMMA] ++ quoted (B "time") ++ [COLON] ++ quoted t
       ++ [COMMA] ++ quoted (B "lineno") ++ [COLON]
       ++ quoted (i_file it ++ [COLON] ++ dec (i_line it))
       ++ [COMMA] ++ quoted (B "message") ++ [COLON] ++ quoted (i_msg it)
       ++ match i_kvs it with
          | [] => [RBRACE] ++ CRLF
          | kvs => [COMMA] ++ quoted (B "kvs") ++ [COLON] ++ [LBRACE] ++ json_pairs kvs
                   ++ [RBRACE; RBRACE] ++ CRLF
          end).

(** src/logging/color.rs:3-10 *)
Record color := Color { c_r : N; c_g : N; c_b : N }.
Definition is_block (c : color) : bool := (c_r c =? 0)%N && (c_g c =? 0)%N && (c_b c =? 1)%N.
(** src/logging/color.rs:12-52 *)
Record level_colors := LevelColors {
  lc_trace : option color; lc_debug : option color; lc_info : option color;
  lc_warn : option color; lc_error : option color
}.
Definition level_color (c : level_colors) (l : level) : option color :=
  match l with
  | Error => lc_error c | Warn => lc_warn c | Info => lc_info c | Debug => lc_debug c
  | Trace => lc_trace c
  end.
Record color_scheme := ColorScheme {
  cs_levels : option level_colors;
  cs_time : option color;
  cs_file : option color;
  cs_line : option color;
  cs_key : option color
}.
(** src/logging/color.rs:33-64 *)
Definition scheme_default : color_scheme :=
  ColorScheme
    (Some (LevelColors (Some (Color 94 102 91)) (Some (Color 46 49 124)) (Some (Color 91 174 35))
             (Some (Color 252 211 55)) (Some (Color 237 90 101))))
    (Some (Color 106 64 40)) (Some (Color 85 187 138)) (Some (Color 20 145 168))
    (Some (Color 216 89 22)).

(** src/logging/colorful_line_renderer.rs:9-26 *)
Definition with_color (txt : bytes) (c : option color) : bytes :=
  match c with
  | Some c =>
      if is_block c then txt
      else [ESC] ++ B "[38;2;" ++ dec (c_r c) ++ B ";" ++ dec (c_g c) ++ B ";" ++ dec (c_b c) ++ B "m"
           ++ txt ++ [ESC] ++ B "[0m"
  | None => txt
  end.

(** src/logging/colorful_line_renderer.rs:75-83 *)
Fixpoint color_pairs (key lv : option color) (kvs : list (bytes * bytes)) : bytes :=
  match kvs with
  | [] => []
  | [(k, v)] => with_color k key ++ B ": " ++ with_color v lv
  | (k, v) :: rest => with_color k key ++ B ": " ++ with_color v lv ++ B " , " ++ color_pairs key lv rest
  end.
(** src/logging/colorful_line_renderer.rs:43-86 *)
Definition render_color (fmt : formatter) (scheme : color_scheme) (layout : str) (it : item)
    : outcome bytes :=
  let lv := match cs_levels scheme with Some c => level_color c (i_level it) | None => None end in
  t <- time_text fmt layout it ;;
  Ret (with_color (B "[" ++ level_bytes (i_level it) ++ B "]") lv ++ B " "
       ++ with_color t (cs_time scheme) ++ B " " ++ B "("
       ++ with_color (i_file it) (cs_file scheme) ++ B ":"
       ++ with_color (dec (i_line it)) (cs_line scheme) ++ B ") "
       ++ with_color (i_msg it) lv
       ++ match i_kvs it with
          | [] => CRLF
          | kvs => B " { " ++ color_pairs (cs_key scheme) lv kvs ++ B " }" ++ CRLF
          end).

(** the renderers created by src/config/mod.rs:212-224: the builder keeps the default scheme *)
Definition render (fmt : formatter) (r : renderer) (it : item) : outcome bytes :=
  match r_kind r with
  | Json => render_json fmt (r_timelayout r) it
  | Colorful => render_color fmt scheme_default (r_timelayout r) it
  end.
