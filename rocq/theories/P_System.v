(** Property C122: the running program, from its configuration file to what its clients are sent. *)
From Verif Require Import F_Served F_Base F_Main F_LogStart F_Ends F_Net P_Main P_Net P_Ends P_Load S_System F_System S_Examples.

(** C122: whatever the configuration, once the program runs, every client of one of its hello-world
    services that sends well-formed requests within the service's limits, in whatever pieces, and
    that keeps reading, however slowly, gets one greeting for each of them, in order (as C17 and C22
    say how they look) and nothing else; then the connection waits, or is closed if the client has
    closed it.  Nothing is said about other connections and other services: they do not matter. *)
Theorem C122_hello : forall (K : codec) u no w fp kc st s x fuel clients evs l c n qs d,
  world_ok w -> program u no w fp = Ret (Some (kc, st)) -> In s (starts st) -> s_kind s = HelloService ->
  service_life (K := K) fuel x s clients evs = Ret (Some l) -> In (c, n) l ->
  (forall v, In v (versions qs) -> ~ zero_major v) -> greets 0 (versions qs) d ->
  asks fuel s qs (length d) (clients c) ->
  has_got (clients c) d n.
Proof.
  intros K u no w fp kc st s x fuel clients evs l c n qs d Hw Hp Hs Hk Hl Hin Hv Hg Ha.
  rewrite (life_entry K fuel x s clients evs l c n hello_http Hl ltac:(now rewrite Hk) Hin).
  apply (answered_hello K fuel s qs d); auto. exact (started_sound u no w fp kc st s Hw Hp Hs).
Qed.
Print Assumptions C122_hello.
(** what [greets] describes exists and is determined *)
Theorem C122_determined : forall k vs, exists! d, greets k vs d.
Proof.
  intros k vs. destruct (greets_total vs k) as [d H]. exists d. split; [exact H|]. intros d' H'. exact (greets_det k vs d d' H H').
Qed.
Print Assumptions C122_determined.
(** The same for file services (C90 says what their answers are worth). *)
Theorem C122_files : forall (K : codec) u no w fp kc st s root x fuel clients evs l c n qs,
  world_ok w -> program u no w fp = Ret (Some (kc, st)) -> In s (starts st) -> s_kind s = FileService root ->
  service_life (K := K) fuel x s clients evs = Ret (Some l) -> In (c, n) l ->
  asks fuel s qs (length (shrugs (length qs))) (clients c) ->
  has_got (clients c) (shrugs (length qs)) n.
Proof.
  intros K u no w fp kc st s root x fuel clients evs l c n qs Hw Hp Hs Hk Hl Hin Ha.
  rewrite (life_entry K fuel x s clients evs l c n fs_http Hl ltac:(now rewrite Hk) Hin).
  apply (answered_files K fuel s qs); auto. exact (started_sound u no w fp kc st s Hw Hp Hs).
Qed.
Print Assumptions C122_files.
(** Which clients are served: those that were accepted or, with a certificate, got through the
    handshake, once each. *)
Theorem C122_served : forall (K : codec) fuel x s clients evs l,
  service_life (K := K) fuel x s clients evs = Ret (Some l) -> NoDup (accepted evs) ->
  map fst l = (if match tls_cert (t_tls (s_tcp s)), tls_key (t_tls (s_tcp s)) with [], [] => true | _, _ => false end
               then accepted evs else established evs)
  /\ NoDup (map fst l) /\ (s_kind s = HelloService \/ exists root, s_kind s = FileService root).
Proof.
  intros K fuel x s clients evs l H Hn. unfold service_life in H.
  destruct (run x s) as [[|tls]| | | |] eqn:Er; try discriminate. cbn [obind] in H.
  assert (Hk : s_kind s = HelloService \/ exists root, s_kind s = FileService root).
  { destruct (s_kind s); try discriminate; eauto. }
  destruct (handler_of K (s_kind s)) as [svc|]; [|discriminate].
  destruct (loop_run tls loop_start evs) as [st|] eqn:El; [|discriminate]. injection H as <-. rewrite map_map.
  change (fun x0 : conn * bool => fst (fst x0, connection fuel s svc (clients (fst x0)))) with (@fst conn bool).
  destruct (C48_plain_iff_unset x s tls Er) as [C1 C2].
  destruct tls as [b|].
  - destruct (C50_tls b evs st El Hn) as (T1 & T2 & _).
    destruct (tls_cert (t_tls (s_tcp s))); [destruct (tls_key (t_tls (s_tcp s)))|];
      [now discriminate (C2 (conj eq_refl eq_refl))| |]; rewrite T1; auto.
  - destruct (C1 eq_refl) as [-> ->]. rewrite (C50_plain evs st El). auto.
Qed.
Print Assumptions C122_served.
(** No client can crash the task of its connection, whatever it sends and however it takes what it is
    sent: the task ends by closing, waits for the client, or (C11) reads forever behind a client
    that closed within a body. *)
Theorem C122_no_crash : forall (K : codec) u no w fp kc st s x fuel clients evs l c n,
  world_ok w -> program u no w fp = Ret (Some (kc, st)) -> In s (starts st) ->
  service_life (K := K) fuel x s clients evs = Ret (Some l) -> In (c, n) l ->
  has_room s (clients c) -> enough fuel (cl_reader (clients c)) -> fresh (cl_socket (clients c)) ->
  match nr_end n with
  | Ended e => exists qs rest, requests_at (fin (cl_reader (clients c))) (s_http s) (flat (cl_reader (clients c))) qs rest
                 /\ Forall2 is_got qs (map fst (nr_log n))
                 /\ no_crash (fin (cl_reader (clients c))) (s_http s) rest e
  | SendFailed | SendWaits => True
  end.
Proof.
  intros K u no w fp kc st s x fuel clients evs l c n Hw Hp Hs Hl Hin Hr He Hf.
  destruct (life_handler K fuel x s clients evs l Hl) as (svc & Hh & Hsvc).
  rewrite (life_entry K fuel x s clients evs l c n svc Hl Hh Hin). set (k := clients c) in *.
  destruct (started_sound u no w fp kc st s Hw Hp Hs) as [Hb _].
  assert (Hst : sturdy (cl_order k) svc).
  { destruct (C112_builtin K (cl_order k)) as [B1 B2]. destruct Hsvc as [->| ->]; assumption. }
  pose proof (C107_delivered K fuel (s_tcp s) (s_http s) (cl_caps k) (cl_order k) svc (cl_reader k) (cl_socket k) Hf) as D.
  cbv zeta in D. unfold connection. destruct (nr_end _) as [e| |] eqn:E; auto.
  destruct (C112_no_crash K fuel (s_http s) (cl_caps k) (cl_order k) svc (cl_reader k) (Wr [] None)) as (qs & rest & Q1 & Q2 & Q3); auto.
  { intros i. specialize (Hr i). lia. }
  destruct D as (<- & D2 & _). exists qs, rest. splits; auto.
  replace (map fst (nr_log (net_serve fuel (s_tcp s) (s_http s) (cl_caps k) (cl_order k) svc (cl_reader k) (cl_socket k))))
    with (map fst (cr_log (serve fuel (s_http s) (cl_caps k) (cl_order k) svc (cl_reader k) (Wr [] None)))); [exact Q2|].
  rewrite D2. unfold exchanges. rewrite map_map. reflexivity.
Qed.
Print Assumptions C122_no_crash.
(** An example: the program with the configuration of P_Load; its hello-world service and its file
    service see two connections, one of them sends two requests, byte by byte, and takes three bytes
    at a time. *)
Definition ex_heads : list request :=
  [Request (Head (B "GET") (B "/a") (B "HTTP/1.1") [(B "Host", B "x")]) [];
   Request (Head (B "POST") (B "/b") (B "x") [(B "Content-Length", B "2")]) (B "hi")].
Definition ex_client : client :=
  Client (byte_wise (wires ex_heads) Stall) (Sock true (repeat (Takes 3) 400) [] [] []) (fun _ => 65536%N) (fun l => l).
Definition ex_mute : client := Client (one_piece [] Eof) (Sock true [] [] [] []) (fun _ => 65536%N) (fun l => l).
Definition ex_clients (c : conn) : client := if (c =? 1)%nat then ex_client else ex_mute.
Definition ex_events : list event := [Poll; Accept (Some 0); Accept None; Accept (Some 1)].
Definition ex_tls : tls_env := TlsEnv (fun _ => None) (fun _ => []) (fun _ => None) (fun _ _ => None) (fun _ => true).
Definition ex_text : bytes := B ("HTTP/1.1HTTP/1.1 200 OK" ++ nl ++ "server: httpd.rs" ++ nl ++ "content-length: 12" ++ nl ++ nl ++ "Hello world!"
  ++ "HTTP/1.1 200 OK" ++ nl ++ "server: httpd.rs" ++ nl ++ "content-length: 24" ++ nl ++ nl ++ "Hello world!Hello world!").
Example C122_nonvacuous :
  world_ok (ex_dir ex_main)
  /\ (exists kc st, program (Unicode (fun _ => false) (fun c => [c])) (fun l => l) (ex_dir ex_main) ex_fp = Ret (Some (kc, st))
      /\ In (ex_at "web") (starts st) /\ In (ex_at "files") (starts st))
  /\ s_kind (ex_at "web") = HelloService /\ s_kind (ex_at "files") = FileService (chars "www")
  /\ (exists n0 n1, service_life (K := copy_codec) 300 ex_tls (ex_at "web") ex_clients ex_events = Ret (Some [(0, n0); (1, n1)])
      /\ so_sent (bw_sock (nr_writer n1)) = ex_text /\ nr_end n1 = Ended EndBlocked)
  /\ (exists n0 n1, service_life (K := copy_codec) 300 ex_tls (ex_at "files") ex_clients ex_events = Ret (Some [(0, n0); (1, n1)])
      /\ so_sent (bw_sock (nr_writer n1)) = shrugs 2)
  /\ asks 300 (ex_at "web") ex_heads (length ex_text) (ex_clients 1)
  /\ asks 300 (ex_at "files") ex_heads (length (shrugs 2)) (ex_clients 1)
  /\ greets 0 (versions ex_heads) ex_text
  /\ (forall v, In v (versions ex_heads) -> ~ zero_major v)
  /\ has_room (ex_at "web") (ex_clients 0) /\ NoDup (accepted ex_events).
Proof.
  assert (RM : forall s c, (t_buf (s_tcp s) <=? 65536)%N = true -> has_room s (ex_clients c)).
  { intros s c H k. apply N.leb_le in H. unfold ex_clients. destruct (c =? 1)%nat; exact H. }
  assert (RD : Forall reads (so_next (cl_socket ex_client))).
  { apply Forall_forall. intros a H. apply repeat_spec in H. subst a. reflexivity. }
  split; [exact ex_dir_ok|].
  split; [eexists; eexists; split; [vm_compute; reflexivity|split; [right; left|left]; vm_compute; reflexivity]|].
  split; [vm_compute; reflexivity|]. split; [vm_compute; reflexivity|].
  split; [eexists; eexists; split; [vm_compute; reflexivity|split; vm_compute; reflexivity]|].
  split; [eexists; eexists; split; [vm_compute; reflexivity|vm_compute; reflexivity]|].
  split; [|split; [|split; [|split; [|split]]]].
  - unfold asks. split; [apply RM; vm_compute; reflexivity|]. split; [unfold enough; apply Nat.ltb_lt; vm_compute; reflexivity|].
    split; [apply requests_okb_ok; vm_compute; reflexivity|]. split; [vm_compute; reflexivity|].
    split; [repeat split|]. split; [exact RD|apply Nat.ltb_lt; vm_compute; reflexivity].
  - unfold asks. split; [apply RM; vm_compute; reflexivity|]. split; [unfold enough; apply Nat.ltb_lt; vm_compute; reflexivity|].
    split; [apply requests_okb_ok; vm_compute; reflexivity|]. split; [vm_compute; reflexivity|].
    split; [repeat split|]. split; [exact RD|apply Nat.ltb_lt; vm_compute; reflexivity].
  - exact (greets_next 0 (B "HTTP/1.1") [B "x"] _ _ (hello_greeting (B "HTTP/1.1"))
             (greets_next 1 (B "x") [] _ [] (hello_greeting (B "x")) (greets_none 2))).
  - intros v [<-|[<-|[]]] H; apply keeps_exact in H; vm_compute in H; discriminate.
  - apply RM. vm_compute. reflexivity.
  - repeat constructor; cbn; intuition discriminate.
Qed.
