(** The same configuration written in another order. *)
From Verif Require Export S_Restart.

(** the same files match a pattern, in whatever order they are listed *)
Definition same_matches (m m' : option (list (option matched))) : Prop :=
  match m, m' with
  | Some es, Some es' => Permutation es es'
  | None, None => True
  | _, _ => False
  end.
(** The main file [c0'] has the settings of [c0], its services in another order, and the same patterns
    of files to include in another order, one of them perhaps as the single pattern instead of in the
    list.  The files are the same. *)
Definition rearranged (w : world) (c0 : config) (w' : world) (c0' : config) : Prop :=
  same_settings c0 c0' /\ Permutation (c_services c0) (c_services c0') /\ Permutation (patterns c0) (patterns c0')
  /\ (forall p, same_matches (e_glob w p) (e_glob w' p))
  /\ e_chdir w' = e_chdir w /\ e_exists w' = e_exists w /\ e_log w' = e_log w.
