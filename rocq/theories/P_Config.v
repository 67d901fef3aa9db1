(** Properties C45-C47, C66, C72: loading configurations. *)
From Verif Require Import F_Config.

(** An example world: a main file with two services and a pattern matching four entries. *)
Definition ex_service (name : str) : service_config :=
  ServiceConfig 9 name [] ForwardService logging_default (TcpConfig (B "127.0.0.1:1") tls_default 0 0 0) http_default.
Definition ex_config (keys : list str) (include : str) : config :=
  Config [] (RuntimeConfig 0 None) logging_default [] None tcp_default http_default include []
    (map (fun k => (k, ex_service [])) keys) [].
Definition ex_entries : list (option matched) :=
  [ None;
    Some (Matched (chars "conf/.hidden.toml") true None);
    Some (Matched (chars "conf/x.y.toml") true (Some (ex_service (chars " "))));
    Some (Matched (chars "conf/z.toml") true (Some (ex_service (chars " zed ")))) ].
Definition ex_world (keys : list str) : world :=
  World (fun _ => Some (ex_config keys (chars "conf/*.toml"))) (fun _ => true)
    (fun _ => Some ex_entries) (fun _ => false) (@rev _) (LogEnv (fun _ => true) true).
Lemma ex_world_ok keys : NoDup keys -> world_ok (ex_world keys).
Proof.
  intros H. split; [intros l; apply Permutation_sym, Permutation_rev|].
  intros fp c [= <-]. cbn [c_services ex_config c_slab]. rewrite map_map. cbn [fst]. now rewrite map_id.
Qed.
Definition ex_arg : str := chars "httpd.toml".

(** C45: service indices are positive and distinct; 0 is the root's. *)
Theorem C45_indices : forall w arg c, world_ok w -> load_config w arg = Some c ->
  NoDup (map (fun e => s_idx (snd e)) (c_services c))
  /\ Forall (fun e => 0 < s_idx (snd e) < length (c_slab c)
                      /\ l_service_idx (s_logging (snd e)) = s_idx (snd e)) (c_services c)
  /\ l_service_idx (c_logging c) = 0.
Proof. exact indices. Qed.
Print Assumptions C45_indices.
Example C45_nonvacuous :
  let w := ex_world [chars "a"; chars "b"] in
  world_ok w /\ option_map (fun c => map (fun e => (fst e, s_idx (snd e))) (c_services c)) (load_config w ex_arg)
    = Some [(chars "zed", 1); (chars "x.y", 2); (chars "b", 3); (chars "a", 4)].
Proof.
  split; [|reflexivity]. apply ex_world_ok. repeat constructor; cbn; intuition discriminate.
Qed.

(** C46: including a list of matched entries succeeds exactly when no name is taken, and then only
    appends. *)
Theorem C46_include : forall es services services',
  include_all services es = Some services' <->
  exists added, gives es added /\ services' = services ++ added /\ NoDup (map fst added)
  /\ forall k, In k (map fst added) -> ~ In k (map fst services).
Proof. exact include_all_spec. Qed.
Print Assumptions C46_include.
Theorem C46_taken : forall services es e name s,
  In e es -> service_file e name s -> In name (map fst services) -> include_all services es = None.
Proof. exact include_taken. Qed.
Print Assumptions C46_taken.
Theorem C46_twice : forall services a b c e e' name s s',
  service_file e name s -> service_file e' name s' ->
  include_all services (a ++ e :: b ++ e' :: c) = None.
Proof. exact include_twice. Qed.
Print Assumptions C46_twice.
(** and for loading as a whole *)
Theorem C46_load_fails : forall w fp c0 p es e name s, ~ blank fp -> e_file w fp = Some c0 ->
  In p (patterns c0) -> e_glob w p = Some es -> In e es -> service_file e name s ->
  In name (map fst (c_services c0)) -> load_config w fp = None.
Proof. exact load_taken. Qed.
Print Assumptions C46_load_fails.
Theorem C46_load_keeps : forall w fp c0 c k s, world_ok w -> ~ blank fp ->
  e_file w fp = Some c0 -> load_config w fp = Some c -> In (k, s) (c_services c0) ->
  exists s', In (k, s') (c_services c)
    /\ s_kind s' = s_kind s /\ s_host s' = s_host s
    /\ s_tcp s' = tcp_autofix (s_tcp s) (Some (c_tcp c))
    /\ s_http s' = http_autofix (s_http s) (Some (c_http c))
    /\ l_appenders (s_logging s') = l_appenders (s_logging s)
    /\ l_disable (s_logging s') = l_disable (s_logging s).
Proof. exact load_keeps. Qed.
Print Assumptions C46_load_keeps.
Example C46_nonvacuous :
  service_file (Some (Matched (chars "conf/x.y.toml") true (Some (ex_service (chars " "))))) (chars "x.y") (ex_service (chars " "))
  /\ option_map (map fst) (include_all [(chars "a", ex_service [])] ex_entries)
     = Some [chars "a"; chars "x.y"; chars "zed"]
  /\ include_all [(chars "x.y", ex_service [])] ex_entries = None
  /\ load_config (ex_world [chars "zed"]) ex_arg = None.
Proof.
  split; [|repeat split].
  exists (Matched (chars "conf/x.y.toml") true (Some (ex_service (chars " ")))), (chars "x.y.toml"). splits; try reflexivity.
  - split.
    + unfold proper. splits; try discriminate. cbn. unfold slash. intros H.
      repeat (destruct H as [H|H]; [discriminate|]). easy.
    + exists (chars "conf/"), []. splits; [reflexivity| |constructor]. right. now exists (chars "conf").
  - intros c' H. discriminate.
  - right. split; [now repeat constructor|]. left. exists (chars "toml"). splits; [reflexivity|discriminate|].
    cbn. unfold dot. intros H. repeat (destruct H as [H|H]; [discriminate|]). easy.
Qed.

(** C47, the part that holds: a service's name is its key without surrounding white space, keys
    are distinct, so the names are distinct if no key has such white space. *)
Theorem C47_names_partial : forall w arg c, world_ok w -> load_config w arg = Some c ->
  NoDup (map fst (c_services c))
  /\ Forall (fun e => trimmed (fst e) (s_name (snd e)) /\ s_name (snd e) <> []) (c_services c).
Proof. exact names_trimmed. Qed.
Print Assumptions C47_names_partial.
Theorem C47_unique_partial : forall w arg c, world_ok w -> load_config w arg = Some c ->
  Forall (fun e => trimmed (fst e) (fst e)) (c_services c) ->
  NoDup (map (fun e => s_name (snd e)) (c_services c)).
Proof. exact names_unique. Qed.
Print Assumptions C47_unique_partial.
Example C47_partial_nonvacuous : exists c, load_config (ex_world [chars "a"; chars "b"]) ex_arg = Some c
  /\ Forall (fun e => trimmed (fst e) (fst e)) (c_services c)
  /\ map (fun e => s_name (snd e)) (c_services c) = [chars "zed"; chars "x.y"; chars "b"; chars "a"].
Proof.
  eexists. split; [reflexivity|]. split; [|reflexivity].
  repeat constructor; apply trim_spec; reflexivity.
Qed.
(** C47 fails otherwise: the keys "a" and "a " load, and both services are named "a". *)
Theorem C47_unique_refuted : exists w arg c, world_ok w /\ load_config w arg = Some c
  /\ ~ NoDup (map (fun e => s_name (snd e)) (c_services c)).
Proof.
  exists (ex_world [chars "a"; chars "a "]), ex_arg. eexists. splits; [|reflexivity|].
  - apply ex_world_ok. repeat constructor; cbn; intuition discriminate.
  - intros H. assert (E : NoDup [chars "zed"; chars "x.y"; chars "a"; chars "a"]) by exact H.
    inversion E as [|? ? _ E1]; subst. inversion E1 as [|? ? _ E2]; subst.
    inversion E2 as [|? ? E3 _]; subst. apply E3. now left.
Qed.
Print Assumptions C47_unique_refuted.

(** C66: the name derived from a path is its last component without its last extension; there is
    none exactly when the path has no last component. *)
Theorem C66_name : forall p b,
  namewithoutext p = Some b <-> exists c, last_component p c /\ stem c b.
Proof. exact namewithoutext_spec. Qed.
Print Assumptions C66_name.
Example C66_nonvacuous :
  namewithoutext (chars "/etc/httpd/a.b.toml/") = Some (chars "a.b")
  /\ namewithoutext (chars ".toml") = Some (chars ".toml")
  /\ namewithoutext (chars "a.") = Some (chars "a") /\ namewithoutext (chars "a/..") = None.
Proof. repeat split. Qed.

(** C72: a configuration without services serves hello world on 0.0.0.0:8080 (without TLS). *)
Theorem C72_hello : forall w fp c0, world_ok w -> ~ blank fp -> e_file w fp = Some c0 -> c_services c0 = [] ->
  (c_workdir c0 <> [] -> e_chdir w (c_workdir c0) = true) ->
  Forall (fun p => exists es, e_glob w p = Some es /\ Forall passed_over es) (patterns c0) ->
  exists c s, load_config w fp = Some c /\ c_services c = [(chars "helloworld", s)]
    /\ s_kind s = HelloService /\ t_addr (s_tcp s) = B "0.0.0.0:8080" /\ s_name s = chars "helloworld"
    /\ s_host s = chars "*" /\ tls_cert (t_tls (s_tcp s)) = [] /\ tls_key (t_tls (s_tcp s)) = [].
Proof. exact hello_default. Qed.
Print Assumptions C72_hello.
Example C72_nonvacuous :
  let c0 := ex_config [] (chars "conf/*.toml") in
  let w := World (fun _ => Some c0) (fun _ => true) (fun _ => Some [None; Some (Matched (chars "conf/a") false None)])
             (fun _ => false) (fun l => l) (LogEnv (fun _ => true) true) in
  world_ok w /\ ~ blank ex_arg /\ e_file w ex_arg = Some c0 /\ c_services c0 = []
  /\ Forall (fun p => exists es, e_glob w p = Some es /\ Forall passed_over es) (patterns c0).
Proof.
  cbv zeta. splits; try reflexivity.
  - split; [intros l; apply Permutation_refl|]. intros fp c [= <-]. split; [constructor|reflexivity].
  - intros H. inversion H. discriminate.
  - repeat constructor. eexists. split; [reflexivity|]. repeat constructor.
Qed.
