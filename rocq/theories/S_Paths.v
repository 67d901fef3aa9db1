(** Paths, independently of the code. *)
From Verif Require Export M_Paths.

(** what may follow the last component without changing the path: slashes and "/." *)
Inductive trailing : str -> Prop :=
| tr_end : trailing []
| tr_slash s : trailing s -> trailing (slash :: s)
| tr_dot s : trailing s -> trailing (slash :: dot :: s) .

(** where a component may begin: at the start, or after a slash *)
Definition directory (d : str) : Prop := d = [] \/ exists d', d = d' ++ [slash].

(** a proper file name *)
Definition proper (c : str) : Prop :=
  ~ In slash c /\ c <> [] /\ c <> chars "." /\ c <> chars "..".

(** [c] is the last component of path [p] *)
Definition last_component (p c : str) : Prop :=
  proper c /\ exists d t, p = d ++ c ++ t /\ directory d /\ trailing t.

(** [b] is the file name [c] without its extension *)
Definition stem (c b : str) : Prop :=
  (exists e, c = b ++ [dot] ++ e /\ b <> [] /\ ~ In dot e)
  \/ (b = c /\ forall b' e, c = b' ++ [dot] ++ e -> b' = []).

(** Where a path leads, symbolic links aside: from the root or from the current directory, name by
    name, "." and empty names staying and ".." going up. *)
Fixpoint join (l : list str) : str :=
  match l with [] => [] | [p] => p | p :: l' => p ++ [slash] ++ join l' end.
Definition pieces (p : str) (l : list str) : Prop :=
  join l = p /\ l <> [] /\ Forall (fun x : str => ~ In slash x) l.
Inductive walk : list str -> list str -> list str -> Prop :=
| walk_end here : walk here [] here
| walk_stay here x l there : x = [] \/ x = chars "." -> walk here l there -> walk here (x :: l) there
| walk_up here l there : walk (removelast here) l there -> walk here (chars ".." :: l) there
| walk_down here x l there : x <> [] -> x <> chars "." -> x <> chars ".." -> walk (here ++ [x]) l there ->
    walk here (x :: l) there.
Definition leads (cwd : list str) (p : str) (there : list str) : Prop :=
  exists l, pieces p l /\ walk (match p with c :: _ => if (c =? slash)%N then [] else cwd | [] => cwd end) l there.
