(** Model of src/main.rs:230-252: the threads of the services and their names. *)
From Verif Require Export M_Program.

(** src/main.rs:232 *)
Definition name_of_thread (s : service_config) : str := chars "httpd.service:" ++ s_name s.

(** how the loop ends: all threads were created, one could not be created (:251, an error), or
    std::thread::Builder::spawn panicked, which it does for a name with a NUL character (library
    behaviour, from its documentation: the name becomes a C string) *)
Inductive loop_end := AllCreated | NotCreated | NamePanic.

(** src/main.rs:230-252: the names of the threads created, in order.  [can i] says whether the
    operating system creates the thread number i. *)
Fixpoint create_threads (can : nat -> bool) (i : nat) (l : list service_config) : list str * loop_end :=
  match l with
  | [] => ([], AllCreated)
  | s :: rest =>
      if existsb (N.eqb 0) (name_of_thread s) then ([], NamePanic)
      else if can i then
        let r := create_threads can (S i) rest in
        (name_of_thread s :: fst r, snd r)
      else ([], NotCreated)
  end.
