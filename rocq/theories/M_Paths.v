(** Model of the path functions the program uses: std::path::Path::file_name and ::extension on
    Unix (library behaviour, modelled from its documentation), src/utils/paths.rs, and the
    dissection of a log path in src/logging/rotation_file_appender.rs.
    A path is its list of code points; all paths here come from Rust strings, so the to_str
    conversions in the code cannot fail. *)
From Verif Require Export M_Units.

Notation str := (list N) (only parsing).
Definition slash : N := 47.
Definition dot : N := 46.

(** splitting at every occurrence of a character: at least one piece *)
Fixpoint split_at (c : N) (s : str) : list str :=
  match s with
  | [] => [[]]
  | x :: s' =>
      if (x =? c)%N then [] :: split_at c s'
      else match split_at c s' with
           | [] => [[x]]
           | p :: ps => (x :: p) :: ps
           end
  end.

(** Path::components: empty pieces and "." pieces are skipped.  (A leading "." or "/" is a
    component of its own, but not one [file_name] accepts.) *)
Definition components (p : str) : list str :=
  filter (fun c : str => negb (chars_eqb c []) && negb (chars_eqb c (chars "."))) (split_at slash p).

(** Path::file_name: the last component, unless it is ".." or there is none *)
Definition file_name (p : str) : option str :=
  match rev (components p) with
  | [] => None
  | c :: _ => if chars_eqb c (chars "..") then None else Some c
  end.

(** rsplit_file_at_dot: what is before and after the last dot; a file name whose only dot is
    its first character has no extension *)
Fixpoint rsplit_dot (s : str) : option (str * str) :=
  match s with
  | [] => None
  | x :: s' =>
      match rsplit_dot s' with
      | Some (b, e) => Some (x :: b, e)
      | None => if (x =? dot)%N then Some ([], s') else None
      end
  end.
(** Path::extension *)
Definition extension (p : str) : option str :=
  match file_name p with
  | None => None
  | Some f => match rsplit_dot f with
              | Some (_ :: _, e) => Some e
              | _ => None
              end
  end.

(** src/utils/paths.rs:5-22; None is the error.  The byte slice ends before an ASCII dot, so it
    is on a character boundary. *)
Definition namewithoutext (p : str) : option str :=
  match file_name p with
  | None => None
  | Some base =>
      match extension p with
      | Some ext => Some (firstn (length base - length ext - 1) base)
      | None => Some base
      end
  end.

(** src/logging/rotation_file_appender.rs:93-109: name_prefix, base_name, file_ext;
    None is the error "empty filename" *)
Definition log_name (fp : str) : option (str * str * str) :=
  let ext := match extension fp with Some e => e | None => [] end in
  match file_name fp with
  | None => None
  | Some filename =>
      let prefix := firstn (length fp - length filename) fp in
      let base := match ext with
                  | [] => filename
                  | _ => firstn (length filename - length ext - 1) filename
                  end in
      Some (prefix, base, ext)
  end.

(** src/logging/rotation_file_appender.rs:135-162: the names tried for the rotated file; [stamp]
    is the formatted local time with its leading dot, [nanos] the clock in nanoseconds *)
Definition rotated_name (n : str * str * str) (stamp : str) : str :=
  let '(prefix, base, ext) := n in prefix ++ base ++ stamp ++ [dot] ++ ext.
Definition rotated_name_again (n : str * str * str) (stamp nanos : str) : str :=
  let '(prefix, base, ext) := n in prefix ++ base ++ stamp ++ [dot] ++ nanos ++ [dot] ++ ext.
