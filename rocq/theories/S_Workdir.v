(** The files the paths of a configuration stand for, independently of the code. *)
From Verif Require Export M_Workdir S_Load S_LogPlace.

(** path [p], written where [cwd] is the current directory, stands for [q] *)
Definition rooted (p : str) : Prop := exists r, p = slash :: r.
Definition stands_for (cwd p q : str) : Prop :=
  (rooted p /\ q = p) \/ (~ rooted p /\ p <> [] /\ q = cwd ++ [slash] ++ p) \/ (p = [] /\ q = []).
(** the directory from which the paths of configuration [c0] count, for a program started in [cwd] *)
Definition work_base (cwd : str) (c0 : config) (b : str) : Prop :=
  (c_workdir c0 = [] /\ b = cwd) \/ (c_workdir c0 <> [] /\ stands_for cwd (c_workdir c0) b).

(** file [fp] says [c0] to a program started in [cwd] *)
Definition says_in (y : file_tree) (cwd fp : str) (c0 : config) : Prop :=
  exists f, stands_for cwd fp f /\ y_config y f = Some c0.
(** a configuration file has no two services with the same key; the routing table is no part of it *)
Definition tree_ok (y : file_tree) : Prop :=
  forall f c, y_config y f = Some c -> NoDup (map fst (c_services c)) /\ c_slab c = [].
