(** Model of src/main.rs:270-290: the whole program up to the start of its services. *)
From Verif Require Export M_Consumer.

(** what main goes on with: nothing (:277-280), run_per_core or run_multi_threads on the services *)
Inductive start := NoServices | PerCore (l : list service_config) | MultiThreads (l : list service_config).

(** src/main.rs:270-290.  [Ret None] is an error reported by main; Blocked is a hang (config_logging,
    M_Consumer). *)
Definition program (u : unicode) (names_order : list str -> list str) (w : world) (arg : str)
    : outcome (option (consumer * start)) :=
  match load_config w arg with
  | None => Ret None
  | Some c =>
      r <- config_logging u names_order w c ;;
      match r with
      | None => Ret None
      | Some (_, k) =>
          let services := map snd (c_services c) in
          Ret (Some (k, match services with
                        | [] => NoServices
                        | _ => match rt_per_core (c_runtime c) with
                               | Some true => PerCore services
                               | _ => MultiThreads services
                               end
                        end))
      end
  end.
