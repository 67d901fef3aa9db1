(** Records waiting to be written, independently of the code. *)
From Verif Require Export S_Dispatch.

(** what the calls of a schedule hand to the logger, in their order *)
Fixpoint posted (l : list action) : list message :=
  match l with
  | [] => []
  | Log lines :: r => LogItem lines :: posted r
  | FlushCall f :: r => FlushRequest f :: posted r
  | _ :: r => posted r
  end.
(** how many of them the logger has dealt with *)
Fixpoint dealt_with (l : list action) : nat :=
  match l with [] => 0 | Take :: r => S (dealt_with r) | _ :: r => dealt_with r end.
