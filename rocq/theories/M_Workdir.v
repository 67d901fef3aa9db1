(** Model of the directory the program works in: every path of a configuration goes to the operating
    system as it is written (src/config/mod.rs:72, 83, 122, 125; service.rs:131; tls.rs:41, 47;
    src/logging/file_appender.rs:41-43), so it counts from the current directory, which
    src/config/mod.rs:124-126 changes once, after reading the main file. *)
From Verif Require Export M_Program M_Main.

(** The files of the machine, by their absolute paths, with what [world] (M_Config) and [tls_env]
    (M_Main) ask of them.  Simplification: a path is its text, so "/a/./b" and "/a/b" are asked for
    separately. *)
Record file_tree := FileTree {
  y_config : str -> option config;                    (* the file read as main configuration *)
  y_dir : str -> bool;                                (* a directory that can be entered *)
  y_match : str -> option (list (option matched));    (* what a pattern matches *)
  y_exists : str -> bool;
  y_writable : str -> bool;                           (* can be opened for appending *)
  y_bytes : str -> option bytes                       (* the contents of a file *)
}.

(** Path resolution on Unix: a path that begins with a slash counts from the root, any other from
    the current directory; the empty path is no path and stays what it is. *)
Definition from_dir (cwd p : str) : str :=
  match p with
  | [] => []
  | c :: _ => if (c =? slash)%N then p else cwd ++ slash :: p
  end.

(** src/config/mod.rs:122-126: the current directory after the main file has been read; without a
    file (src/main.rs:61-64) it is not changed *)
Definition dir_after (y : file_tree) (cwd arg : str) : str :=
  match trim_str arg with
  | [] => cwd
  | _ => match y_config y (from_dir cwd arg) with
         | None => cwd
         | Some c => match c_workdir c with [] => cwd | d => from_dir cwd d end
         end
  end.

(** The world as the program sees it when started with [arg] in [cwd]: the main file and the
    directory to enter are looked up from there, all else from the directory entered. *)
Definition world_in (y : file_tree) (order : list (str * service_config) -> list (str * service_config))
    (midnight : bool) (cwd arg : str) : world :=
  let here := dir_after y cwd arg in
  World (fun p => y_config y (from_dir cwd p)) (fun p => y_dir y (from_dir cwd p))
    (fun p => y_match y (from_dir here p)) (fun p => y_exists y (from_dir here p)) order
    (LogEnv (fun p => y_writable y (from_dir here p)) midnight).

(** src/config/tls.rs:41, 47, called from src/main.rs:171 after the configuration was loaded.
    Simplification: a non-ASCII character in the path of a certificate is its UTF-8 bytes. *)
Definition tls_in (y : file_tree) (x : tls_env) (cwd arg : str) : tls_env :=
  TlsEnv (fun p => y_bytes y (from_dir (dir_after y cwd arg) (map code p)))
    (x_certs x) (x_key x) (x_server x) (x_bind x).
