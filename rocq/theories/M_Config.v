(** Model of src/config/mod.rs and src/config/service.rs: loading a configuration, including
    service files, fixing up, and setting up logging. *)
From Verif Require Export M_LogConfig.

(** src/config/service.rs:74-120.  Only the root of a file service is ever read again. *)
Inductive service_kind := HelloService | FileService (root : str) | ForwardService | UpstreamService.

(** src/config/service.rs:160-185 ([src] is never used) *)
Record service_config := ServiceConfig {
  s_idx : nat;
  s_name : str;
  s_host : str;
  s_kind : service_kind;
  s_logging : logging_config;
  s_tcp : tcp_config;
  s_http : http_config
}.
(** #[derive(Default)] *)
Definition service_default : service_config :=
  ServiceConfig 0 [] [] HelloService logging_default tcp_default http_default.

(** src/config/mod.rs:34-68.  The map of services is the list of its entries (its iteration
    order is chosen by [e_order] below); the slab is the list of its values, no entry is ever
    removed. *)
Record config := Config {
  c_workdir : str;
  c_runtime : runtime_config;
  c_logging : logging_config;
  c_logpath : str;
  c_loglevel : option str;
  c_tcp : tcp_config;
  c_http : http_config;
  c_include : str;
  c_includes : list str;
  c_services : list (str * service_config);
  c_slab : list (list nat)
}.
Definition config_default : config :=
  Config [] (RuntimeConfig 0 None) logging_default [] None tcp_default http_default [] [] [] [].

Definition set_services (c : config) (l : list (str * service_config)) : config :=
  Config (c_workdir c) (c_runtime c) (c_logging c) (c_logpath c) (c_loglevel c) (c_tcp c) (c_http c)
    (c_include c) (c_includes c) l (c_slab c).

(** A path matched by a pattern: its text, whether it is a regular file, and what reading and
    parsing it as a service gives (None: unreadable or not a service configuration). *)
Record matched := Matched {
  m_path : str;
  m_is_file : bool;
  m_service : option service_config
}.

(** The world a configuration is loaded in. *)
Record world := World {
  e_file : str -> option config;                       (* reading and parsing the main file *)
  e_chdir : str -> bool;                               (* std::env::set_current_dir succeeds *)
  e_glob : str -> option (list (option matched));      (* None: bad pattern; inner None: unreadable entry *)
  e_exists : str -> bool;                              (* std::path::Path::exists *)
  e_order : list (str * service_config) -> list (str * service_config); (* HashMap order *)
  e_log : log_env
}.

Definition has_key {A} (k : str) (l : list (str * A)) : bool :=
  existsb (fun e => chars_eqb k (fst e)) l.

(** str::trim *)
Definition trim_str (s : str) : str := trim_by is_ws s.

(** src/config/mod.rs:71-119, the body of the loop; [None] is an error.  Simplification:
    to_string_lossy is the identity (a matched path is UTF-8). *)
Definition with_name (s : service_config) (name : str) : service_config :=
  ServiceConfig (s_idx s) name (s_host s) (s_kind s) (s_logging s) (s_tcp s) (s_http s).
Definition include_one (services : list (str * service_config)) (entry : option matched)
    : option (list (str * service_config)) :=
  match entry with
  | None => Some services
  | Some m =>
      match file_name (m_path m) with
      | None => Some services
      | Some base =>
          if negb (m_is_file m) then Some services
          else if match base with c :: _ => (c =? dot)%N | [] => false end then Some services
          else match m_service m with
          | None => None
          | Some s =>
              let trimmed := trim_str (s_name s) in
              match (match trimmed with [] => namewithoutext (m_path m) | _ => Some trimmed end) with
              | None => None
              | Some name =>
                  if has_key name services then None
                  else Some (services ++ [(name, with_name s name)])
              end
          end
      end
  end.
Fixpoint include_all (services : list (str * service_config)) (entries : list (option matched))
    : option (list (str * service_config)) :=
  match entries with
  | [] => Some services
  | e :: es => match include_one services e with
               | None => None
               | Some services' => include_all services' es
               end
  end.
Definition include_pattern (w : world) (services : list (str * service_config)) (pattern : str)
    : option (list (str * service_config)) :=
  match e_glob w pattern with
  | None => None
  | Some entries => include_all services entries
  end.
Fixpoint include_patterns (w : world) (services : list (str * service_config)) (ps : list str)
    : option (list (str * service_config)) :=
  match ps with
  | [] => Some services
  | p :: ps' => match include_pattern w services p with
                | None => None
                | Some services' => include_patterns w services' ps'
                end
  end.

(** src/config/service.rs:123-141 *)
Definition kind_ok (w : world) (k : service_kind) : bool :=
  match k with
  | FileService root => match root with [] => false | _ => e_exists w root end
  | _ => true
  end.
(** src/config/service.rs:187-199, with the assignments of src/config/mod.rs:169-170 *)
Definition service_autofix (w : world) (tcp : tcp_config) (http : http_config) (name : str)
    (idx : nat) (s : service_config) : option service_config :=
  if kind_ok w (s_kind s) then
    Some (ServiceConfig idx name (s_host s) (s_kind s) (logging_autofix (s_logging s) name idx)
            (tcp_autofix (s_tcp s) (Some tcp)) (http_autofix (s_http s) (Some http)))
  else None.

(** src/config/mod.rs:163-172; the slab's next key is its length *)
Fixpoint autofix_services (w : world) (tcp : tcp_config) (http : http_config)
    (l : list (str * service_config)) (slab : list (list nat))
    : option (list (str * service_config) * list (list nat)) :=
  match l with
  | [] => Some ([], slab)
  | (key, s) :: rest =>
      let name := trim_str key in
      match name with
      | [] => None
      | _ =>
          match service_autofix w tcp http name (length slab) s with
          | None => None
          | Some s' =>
              match autofix_services w tcp http rest (slab ++ [[]]) with
              | None => None
              | Some (rest', slab') => Some ((key, s') :: rest', slab')
              end
          end
      end
  end.

(** src/config/mod.rs:149-175 *)
Definition config_autofix (w : world) (c : config) : option config :=
  let tcp := tcp_autofix (c_tcp c) None in
  let http := http_autofix (c_http c) None in
  match autofix_services w tcp http (e_order w (c_services c)) (c_slab c ++ [[]]) with
  | None => None
  | Some (services, slab) =>
      Some (Config (c_workdir c) (runtime_autofix (c_runtime c)) (logging_autofix (c_logging c) [] 0)
              (match c_logpath c with [] => chars "./logs/" | p => p end) (c_loglevel c) tcp http
              (c_include c) (c_includes c) services slab)
  end.

(** src/config/mod.rs:136-141 *)
Definition hello_service : service_config :=
  ServiceConfig 0 (chars "helloworld") (chars "*") HelloService logging_default
    (TcpConfig (B "0.0.0.0:8080") tls_default 0 0 0) http_default.

(** src/config/mod.rs:121-147 *)
Definition config_load (w : world) (fp : str) : option config :=
  match e_file w fp with
  | None => None
  | Some c =>
      if match c_workdir c with [] => false | d => negb (e_chdir w d) end then None
      else
        match (match c_include c with
               | [] => Some (c_services c)
               | p => include_pattern w (c_services c) p
               end) with
        | None => None
        | Some services1 =>
            match include_patterns w services1 (c_includes c) with
            | None => None
            | Some services2 =>
                let services3 := match services2 with
                                 | [] => [(chars "helloworld", hello_service)]
                                 | l => l
                                 end in
                config_autofix w (set_services c services3)
            end
        end
  end.

(** src/main.rs:47-65, release profile (the dev profile always loads ./httpd.toml) *)
Definition load_config (w : world) (arg : str) : option config :=
  match trim_str arg with
  | [] => config_autofix w config_default
  | _ => config_load w arg
  end.

(** src/config/mod.rs:181-195: the appenders of all sections, the root's first *)
Fixpoint section_appenders (e : log_env) (logpath : str) (sections : list logging_config)
    : outcome (option (list appender)) :=
  match sections with
  | [] => Ret (Some [])
  | l :: rest =>
      r <- logging_init e l logpath ;;
      match r with
      | None => Ret None
      | Some o =>
          r' <- section_appenders e logpath rest ;;
          Ret (option_map (app (unwrap_or o [])) r')
      end
  end.
Definition all_appenders (w : world) (c : config) : outcome (option (list appender)) :=
  section_appenders (e_log w) (c_logpath c) (c_logging c :: map (fun e => s_logging (snd e)) (c_services c)).

(** src/config/mod.rs:197-206: the routing table; unwrap on a missing slab entry panics *)
Fixpoint route (appenders : list appender) (idx : nat) (slab : list (list nat))
    : outcome (list (list nat)) :=
  match appenders with
  | [] => Ret slab
  | a :: rest =>
      if a_service a <? length slab
      then route rest (S idx) (update_nth (a_service a) (fun l => l ++ [idx]) slab)
      else Panic
  end.

(** src/config/mod.rs:210-232: which renderer a renderer name stands for *)
Inductive renderer_kind := Colorful | Json.
Definition renderer_of (u : unicode) (name : str) : option renderer_kind :=
  let n := trim_str (str_lower u name) in
  if is_one_of n ["color"; "colored"; "colorful"; "colorfullinerenderer"]%string then Some Colorful
  else if is_one_of n [""; "json"; "jsonlinerenderer"]%string then Some Json
  else None.
Record renderer := Renderer { r_name : str; r_kind : renderer_kind; r_timelayout : str }.

Fixpoint dedup (l : list str) : list str :=
  match l with
  | [] => []
  | x :: l' => if existsb (chars_eqb x) l' then dedup l' else x :: dedup l'
  end.
Fixpoint renderers_of (u : unicode) (layout : str) (names : list str) : option (list renderer) :=
  match names with
  | [] => Some []
  | n :: ns => match renderer_of u n, renderers_of u layout ns with
               | Some k, Some rs => Some (Renderer n k layout :: rs)
               | _, _ => None
               end
  end.

(** src/config/mod.rs:234-240 *)
Definition max_level (c : config) : level :=
  match c_loglevel c with
  | Some s => unwrap_or (level_from_str s) Trace
  | None => Trace
  end.
