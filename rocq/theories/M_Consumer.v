(** Model of src/logging/consumer.rs and of the creation of the consumer:
    src/config/mod.rs:177-248 and src/logging/dispatcher.rs:61-133. *)
From Verif Require Export M_Item.

(** src/logging/consumer.rs:11-16 *)
Record consumer := Consumer {
  k_appenders : list appender;
  k_renderers : list renderer;
  k_armap : list nat;
  k_samap : list (list nat)
}.

(** src/logging/consumer.rs:18-27 *)
Definition unique (u : unicode) (names : list str) : bool :=
  length (dedup (map (str_lower u) names)) =? length names.
(** Renderer::name: json_line_renderer.rs:12-17, colorful_line_renderer.rs:36-41 *)
Definition renderer_name (r : renderer) : str :=
  match r_name r with
  | [] => match r_kind r with
          | Json => chars "JsonLineRenderer"
          | Colorful => chars "ColorfulLineRenderer"
          end
  | n => n
  end.
(** src/logging/consumer.rs:43-47 *)
Definition ridx (rs : list renderer) (name : str) : option nat :=
  position (fun r => eq_nocase (renderer_name r) name) rs.
(** src/logging/consumer.rs:62-74 *)
Fixpoint build_armap (rs : list renderer) (appenders : list appender) : option (list nat) :=
  match appenders with
  | [] => Some []
  | a :: rest => match ridx rs (a_renderer a), build_armap rs rest with
                 | Some i, Some l => Some (i :: l)
                 | _, _ => None
                 end
  end.
(** src/logging/consumer.rs:49-76; None is the error *)
Definition consumer_init (u : unicode) (appenders : list appender) (rs : list renderer)
    (samap : list (list nat)) : option consumer :=
  match rs, appenders with
  | [], _ => None
  | _, [] => None
  | _, _ =>
      if negb (unique u (map renderer_name rs)) then None
      else option_map (fun m => Consumer appenders rs m samap) (build_armap rs appenders)
  end.

(** usize indices into lists: [None] stands for an out-of-bounds unchecked access *)
Definition get_unchecked {A} (l : list A) (i : nat) : outcome A :=
  match nth_error l i with Some a => Ret a | None => UB end.

(** src/logging/consumer.rs:78-92, 126-155: the appenders of the record's service that accept it *)
Fixpoint passing (k : consumer) (it : item) (idxes : list nat) : outcome (list nat) :=
  match idxes with
  | [] => Ret []
  | i :: rest =>
      a <- get_unchecked (k_appenders k) i ;;
      l <- passing k it rest ;;
      Ret (if filter_accepts (a_filter a) (i_level it) then i :: l else l)
  end.
Definition targets (k : consumer) (it : item) : outcome (list nat) :=
  match nth_error (k_samap k) (N.to_nat (i_service it)) with
  | None => Ret []
  | Some idxes => passing k it idxes
  end.

(** One call of writeall on an appender. *)
Definition write : Type := nat * bytes.

(** src/logging/consumer.rs:94-124.  Writing is a list of calls of writeall in the order they are
    awaited (async functions do nothing before that); their errors are only printed. *)
Fixpoint write_to (k : consumer) (buf : bytes) (l : list nat) : outcome (list write) :=
  match l with
  | [] => Ret []
  | i :: rest =>
      _ <- get_unchecked (k_appenders k) i ;;
      ws <- write_to k buf rest ;;
      Ret ((i, buf) :: ws)
  end.
Definition set_nth {A} (n : nat) (a : A) (l : list A) : list A := update_nth n (fun _ => a) l.

Definition consume_single (fmt : formatter) (k : consumer) (it : item) (bufs : list bytes)
    : outcome (list write * list bytes) :=
  l <- targets k it ;;
  match l with
  | [] => Ret ([], bufs)
  | _ =>
      r <- get_unchecked (k_renderers k) 0 ;;
      _ <- get_unchecked bufs 0 ;;
      txt <- render fmt r it ;;
      ws <- write_to k txt l ;;
      Ret (ws, set_nth 0 txt bufs)
  end.

(** src/logging/consumer.rs:126-155: [arm] is appender_renderer_map (pushed in the order of the
    accepting appenders), [rl] is renderer_idxes *)
Fixpoint lookup_renderers (k : consumer) (l : list nat) (rl : list nat)
    : outcome (list nat * list nat) :=
  match l with
  | [] => Ret ([], rl)
  | i :: rest =>
      r <- get_unchecked (k_armap k) i ;;
      q <- lookup_renderers k rest (if existsb (Nat.eqb r) rl then rl else rl ++ [r]) ;;
      Ret (r :: fst q, snd q)
  end.
(** src/logging/consumer.rs:171-176 *)
Fixpoint render_all (fmt : formatter) (k : consumer) (it : item) (rl : list nat) (bufs : list bytes)
    : outcome (list bytes) :=
  match rl with
  | [] => Ret bufs
  | r :: rest =>
      _ <- get_unchecked bufs r ;;
      rr <- get_unchecked (k_renderers k) r ;;
      txt <- render fmt rr it ;;
      render_all fmt k it rest (set_nth r txt bufs)
  end.
(** src/logging/consumer.rs:178-185: the map is indexed by the appender's index *)
Fixpoint write_each (k : consumer) (arm : list nat) (bufs : list bytes) (l : list nat)
    : outcome (list write) :=
  match l with
  | [] => Ret []
  | i :: rest =>
      r <- get_unchecked arm i ;;
      buf <- get_unchecked bufs r ;;
      _ <- get_unchecked (k_appenders k) i ;;
      ws <- write_each k arm bufs rest ;;
      Ret ((i, buf) :: ws)
  end.
(** src/logging/consumer.rs:157-195 *)
Definition comsume (fmt : formatter) (k : consumer) (it : item) (bufs : list bytes)
    : outcome (list write * list bytes) :=
  l <- targets k it ;;
  match l with
  | [] => Ret ([], bufs)
  | _ =>
      q <- lookup_renderers k l [] ;;
      bufs' <- render_all fmt k it (snd q) bufs ;;
      ws <- write_each k (fst q) bufs' l ;;
      Ret (ws, bufs')
  end.

(** src/logging/dispatcher.rs:94-126: the choice of the method, by the number of renderers *)
Definition consume (fmt : formatter) (k : consumer) (it : item) (bufs : list bytes)
    : outcome (list write * list bytes) :=
  if length (k_renderers k) =? 1 then consume_single fmt k it bufs else comsume fmt k it bufs.

(** A whole history: the consumer's loop over the records of the channel, from empty buffers. *)
Fixpoint consume_all (fmt : formatter) (k : consumer) (items : list item) (bufs : list bytes)
    : outcome (list (list write)) :=
  match items with
  | [] => Ret []
  | it :: rest =>
      q <- consume fmt k it bufs ;;
      ws <- consume_all fmt k rest (snd q) ;;
      Ret (fst q :: ws)
  end.
Definition empty_bufs (k : consumer) : list bytes := map (fun _ => []) (k_renderers k).

(** src/config/mod.rs:177-248.  [names_order] is the iteration order of the HashSet of renderer
    names.  Ret None is an error of the configuration; when Consumer::init fails the guard is
    dropped, whose destructor waits for a consumer that was never started
    (dispatcher.rs:46-59, 85), so the program hangs. *)
Definition config_logging (u : unicode) (names_order : list str -> list str) (w : world) (c : config)
    : outcome (option (level * consumer)) :=
  r <- all_appenders w c ;;
  match r with
  | None => Ret None
  | Some appenders =>
      slab <- route appenders 0 (c_slab c) ;;
      match renderers_of u (l_timelayout (c_logging c)) (names_order (dedup (map a_renderer appenders))) with
      | None => Ret None
      | Some rs =>
          match consumer_init u appenders rs slab with
          | None => Blocked
          | Some k => Ret (Some (max_level c, k))
          end
      end
  end.
