(** C138: the order in which services and included files are written makes no difference. *)
From Verif Require Import S_Arrange F_Arrange.

(** A configuration rearranged gives the same settings and services. *)
Theorem C138_loaded : forall w w' fp c0 c0' c, world_ok w -> world_ok w' -> ~ blank fp -> e_file w fp = Some c0 ->
  e_file w' fp = Some c0' -> rearranged w c0 w' c0' -> load_config w fp = Some c ->
  exists c', load_config w' fp = Some c' /\ same_settings c c' /\ same_services c c'
  /\ length (c_slab c') = length (c_slab c).
Proof.
  intros w w' fp c0 c0' c W W' Hb E E' R H. destruct (load_rearranged w w' fp c0 c0' c W W' Hb E E' R H) as (c' & H' & S & L & P).
  exists c'. splits; auto. now apply er_services.
Qed.
Print Assumptions C138_loaded.

(** One that is refused is refused however it is arranged. *)
Theorem C138_refused : forall w w' fp c0 c0', world_ok w -> world_ok w' -> ~ blank fp -> e_file w fp = Some c0 ->
  e_file w' fp = Some c0' -> rearranged w c0 w' c0' -> load_config w fp = None -> load_config w' fp = None.
Proof.
  intros w w' fp c0 c0' W W' Hb E E' R H. destruct (load_config w' fp) as [c'|] eqn:Ec; [|easy].
  destruct (load_rearranged w' w fp c0' c0 c' W' W Hb E' E (rearranged_sym _ _ _ _ R) Ec) as (c & Hc & _). congruence.
Qed.
Print Assumptions C138_refused.

(** The log outputs are the same for the program itself and for each service. *)
Theorem C138_outputs : forall w w' fp c0 c0' c l, world_ok w -> world_ok w' -> ~ blank fp -> e_file w fp = Some c0 ->
  e_file w' fp = Some c0' -> rearranged w c0 w' c0' -> load_config w fp = Some c -> all_appenders w c = Ret (Some l) ->
  exists c' l', load_config w' fp = Some c' /\ all_appenders w' c' = Ret (Some l') /\ same_logs c l c' l'.
Proof.
  intros w w' fp c0 c0' c l W W' Hb E E' R H Hl.
  destruct (load_rearranged w w' fp c0 c0' c W W' Hb E E' R H) as (c' & H' & S & L & P).
  destruct (outputs_same w w' fp c c' l W W') as (l' & Hl' & O); auto; [apply R|]. eauto.
Qed.
Print Assumptions C138_outputs.

(** Two service files, one pattern each: the first as the single pattern or both in the list, in the
    other order. *)
Definition service_at (name : string) : option matched :=
  Some (Matched (chars "/etc/httpd/" ++ chars name ++ chars ".toml") true (Some service_default)).
Definition globs (p : str) : option (list (option matched)) :=
  if chars_eqb p (chars "a*") then Some [service_at "a"; None]
  else if chars_eqb p (chars "b*") then Some [service_at "b"] else None.
Definition main_file (inc : str) (incs : list str) : config :=
  Config [] (RuntimeConfig 0 None) logging_default [] None tcp_default http_default inc incs [(chars "m", service_default)] [].
Definition files_with (c0 : config) : world :=
  World (fun _ => Some c0) (fun _ => true) globs (fun _ => true) (fun l => l) (LogEnv (fun _ => true) true).
Definition one_way := main_file (chars "a*") [chars "b*"].
Definition other_way := main_file [] [chars "b*"; chars "a*"].
Example C138_nonvacuous :
  world_ok (files_with one_way) /\ world_ok (files_with other_way)
  /\ rearranged (files_with one_way) one_way (files_with other_way) other_way
  /\ (exists c c' l, load_config (files_with one_way) (chars "f") = Some c
      /\ load_config (files_with other_way) (chars "f") = Some c'
      /\ map fst (c_services c) = [chars "m"; chars "a"; chars "b"]
      /\ map fst (c_services c') = [chars "m"; chars "b"; chars "a"]
      /\ all_appenders (files_with one_way) c = Ret (Some l) /\ length l = 4).
Proof.
  assert (N : NoDup (map fst (c_services one_way))) by (repeat constructor; easy).
  splits.
  - split; [intros l; reflexivity|]. intros f c [= <-]. split; [exact N|reflexivity].
  - split; [intros l; reflexivity|]. intros f c [= <-]. split; [exact N|reflexivity].
  - unfold rearranged, same_settings. cbn [files_with e_glob e_chdir e_exists e_log]. splits; try reflexivity.
    + apply perm_swap.
    + intros p. destruct (globs p); cbn; [reflexivity|easy].
  - eexists _, _, _. splits; vm_compute; reflexivity.
Qed.
