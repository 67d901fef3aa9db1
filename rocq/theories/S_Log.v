(** Logging, independently of the code. *)
From Verif Require Export M_Consumer S_Units S_Json.

(** levels by name and by severity *)
Definition level_name (l : level) : string :=
  match l with Error => "error" | Warn => "warn" | Info => "info" | Debug => "debug" | Trace => "trace" end.
Definition severity (l : level) : nat :=
  match l with Error => 5 | Warn => 4 | Info => 3 | Debug => 2 | Trace => 1 end.

(** the level a setting asks for: the one it names in any case; otherwise, or unset, trace *)
Definition asks_for (setting : option str) (l : level) : Prop :=
  match setting with
  | None => l = Trace
  | Some s => named_as s (level_name l) \/ (l = Trace /\ forall l', ~ named_as s (level_name l'))
  end.

(** the records an appender's settings select *)
Definition selects (cfg : appender_cfg) (lv : level) : Prop :=
  match cfg with
  | ConsoleCfg s => exists l, asks_for s l /\ severity l <= severity lv
  | FileCfg s (Some true) _ _ => exists l, asks_for s l /\ lv = l
  | FileCfg s _ _ _ => exists l, asks_for s l /\ severity l <= severity lv
  end.

(** the files appenders write to *)
Definition file_of (a : appender) : list str :=
  match a_sink a with Stdout => [] | Plain p _ => [p] | Daily p _ => [p] end.
Definition files (l : list appender) : list str := concat (map file_of l).

(** A record belongs at an appender: the appender is of the record's service and its filter
    accepts the level. *)
Definition belongs (a : appender) (it : item) : Prop :=
  N.of_nat (a_service a) = i_service it /\ filter_accepts (a_filter a) (i_level it) = true.

Fixpoint increasing (l : list nat) : Prop :=
  match l with
  | [] => True
  | [_] => True
  | x :: ((y :: _) as l') => x < y /\ increasing l'
  end.

(** a time layout chrono can format *)
Definition layout_ok (fmt : formatter) (layout : str) : Prop :=
  forall t, exists txt, fmt t (match layout with [] => usual_layout | _ => layout end) = Some txt.

(** the line of a record at an appender: coloured on the console, JSON in files *)
Definition line (fmt : formatter) (layout : str) (a : appender) (it : item) (b : bytes) : Prop :=
  exists t, shown_time fmt layout it t
    /\ b = (match a_sink a with Stdout => shown_coloured usual_colours t it | _ => shown_json t it end) ++ CRLF.

(** [ws] are the writes a record must cause: one to each appender it belongs at, no other *)
Definition delivered (fmt : formatter) (layout : str) (appenders : list appender) (it : item)
    (ws : list write) : Prop :=
  NoDup (map fst ws)
  /\ forall i b, In (i, b) ws <->
       exists a, nth_error appenders i = Some a /\ belongs a it /\ line fmt layout a it b.

(** the logging sections of a configuration: the root's, then those of the services *)
Definition sections (c : config) : list logging_config :=
  c_logging c :: map (fun e => s_logging (snd e)) (c_services c).

Definition console (a : appender) : Prop := a_sink a = Stdout.

(** a section's appenders, and what they are *)
Definition configured (s : logging_config) (p : list appender) : Prop :=
  match l_disable s with
  | Some true => p = []
  | _ => Forall2 (fun cfg a => a_service a = l_service_idx s
           /\ forall lv, filter_accepts (a_filter a) lv = true <-> selects cfg lv) (l_appenders s) p
  end.

(** The service a record is for: the value of its last numeric attribute named "service", or the
    root (0) if it has none. *)
Definition numeric_service (p : bytes * kv_value) (n : N) : Prop :=
  fst p = B "service" /\ v_u64 (snd p) = Some n.
Definition service_of (kvs : list (bytes * kv_value)) (n : N) : Prop :=
  (exists a p b, kvs = a ++ p :: b /\ numeric_service p n /\ forall q m, In q b -> ~ numeric_service q m)
  \/ (n = 0%N /\ forall q m, In q kvs -> ~ numeric_service q m).
(** the attributes that are rendered *)
Inductive kept : list (bytes * kv_value) -> list (bytes * bytes) -> Prop :=
| kept_nil : kept [] []
| kept_skip k v l l' : k = [] \/ k = B "service" -> kept l l' -> kept ((k, v) :: l) l'
| kept_take k v l l' : k <> [] -> k <> B "service" -> kept l l' -> kept ((k, v) :: l) ((k, v_json v) :: l').
