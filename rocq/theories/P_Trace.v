(** Properties C109-C111: what is logged about requests. *)
From Verif Require Import S_Examples F_Served F_Trace.

(** An example: a root section and a service, each with one file for all levels. *)
Definition ex_files : list appender_cfg := [FileCfg (Some (chars "trace")) None false 0].
Definition ex_config : config :=
  Config [] (RuntimeConfig 0 None) (LoggingConfig [] 0 None [] ex_files) [] None tcp_default http_default [] []
    [(chars "a", ServiceConfig 0 [] [] HelloService (LoggingConfig [] 0 None [] ex_files) tcp_default http_default)] [].
Definition ex_world : world :=
  World (fun _ => Some ex_config) (fun _ => true) (fun _ => None) (fun _ => false) (fun l => l) (LogEnv (fun _ => true) true).
Lemma ex_world_ok : world_ok ex_world.
Proof.
  split; [intros l; apply Permutation_refl|]. intros fp c' [= <-]. split; [|reflexivity].
  repeat constructor; cbn; intuition discriminate.
Qed.
Definition ex_fmt : formatter := fun _ _ => Some (B "2024-01-02 03:04:05.678").
Definition ex_uni : unicode := Unicode (fun _ => false) (fun c => [c]).
Definition ex_get : request :=
  Request (Head (B "GET") (B "/x") (B "HTTP/1.0") [(B "A", B " 1"); (B "B", B "2"); (B "a", B "3 ")]) [].
Definition ex_post (n : string) (body : bytes) : request :=
  Request (Head (B "POST") (B "/") (B "HTTP/1.1") [(B "content-length", B n)]) body.
Definition ex_log (qs : list request) : list (message copy_codec * option bytes) :=
  cr_log (serve 400 cfg0 (fun _ => 9%N) (fun l => l) hello_http (one_piece (wires qs) Eof) open_writer).
Definition ex_calls (qs : list request) (i : nat) : list log_call :=
  match nth_error (ex_log qs) i with
  | Some (req, _) => match hello_calls (B "1.2.3.4:5") 1 (fun l => l) req with Ret l => l | _ => [] end
  | None => []
  end.

(** C109 fails: the first line of a request, and the remark that it has no body, are never in the log of
    the service that handled it ... *)
Theorem C109_request_line_refuted : forall u names_order w arg c lv k e, world_ok w ->
  load_config w arg = Some c -> config_logging u names_order w c = Ret (Some (lv, k)) -> In e (c_services c) ->
  forall (K : codec) addr ho (req : message K) calls, hello_calls addr (s_idx (snd e)) ho req = Ret calls ->
  exists call v, In call calls /\ call_msg call = fl0 req ++ [SP] ++ fl1 req ++ [SP] ++ v
  /\ forall fmt t bufs ws bufs', consume fmt k (item_of (record_of t call)) bufs = Ret (ws, bufs') ->
     ~ in_log_of k (s_idx (snd e)) ws.
Proof. intros u no w arg c lv k e Hw Hl Hc He K addr ho req calls. now apply (request_line_root K u no w arg c lv k e). Qed.
Print Assumptions C109_request_line_refuted.
Theorem C109_empty_body_refuted : forall u names_order w arg c lv k e, world_ok w ->
  load_config w arg = Some c -> config_logging u names_order w c = Ret (Some (lv, k)) -> In e (c_services c) ->
  forall (K : codec) addr ho (req : message K) calls, hello_calls addr (s_idx (snd e)) ho req = Ret calls ->
  b_internal (mbody req) = Some [] ->
  exists call, In call calls /\ call_msg call = B "EmptyBody"
  /\ forall fmt t bufs ws bufs', consume fmt k (item_of (record_of t call)) bufs = Ret (ws, bufs') ->
     ~ in_log_of k (s_idx (snd e)) ws.
Proof. intros u no w arg c lv k e Hw Hl Hc He K addr ho req calls. now apply (empty_body_root K u no w arg c lv k e). Qed.
Print Assumptions C109_empty_body_refuted.
(** ... nor is that a request or the whole service failed, nor (in a build with debug assertions) that
    its connections were made and lost. *)
Theorem C109_failures_refuted : forall u names_order w arg c lv k e, world_ok w ->
  load_config w arg = Some c -> config_logging u names_order w c = Ret (Some (lv, k)) -> In e (c_services c) ->
  forall name addr err line what call,
  In call [send_failed_call err; handle_failed_call name err; service_failed_call line err; connection_call line what name addr] ->
  forall fmt t bufs ws bufs', consume fmt k (item_of (record_of t call)) bufs = Ret (ws, bufs') ->
  ~ in_log_of k (s_idx (snd e)) ws.
Proof. intros u no w arg c lv k e Hw Hl Hc He. now apply (failures_root u no w arg c lv k e). Qed.
Print Assumptions C109_failures_refuted.
(** C109, the part that holds: all other records about a request are written to exactly those appenders
    of the service that accept the level trace. *)
Theorem C109_others_partial : forall u names_order w arg c lv k e, world_ok w ->
  load_config w arg = Some c -> config_logging u names_order w c = Ret (Some (lv, k)) -> In e (c_services c) ->
  forall (K : codec) addr ho (req : message K) calls call, hello_calls addr (s_idx (snd e)) ho req = Ret calls -> In call calls ->
  (forall v, call_msg call <> fl0 req ++ [SP] ++ fl1 req ++ [SP] ++ v) -> call_msg call <> B "EmptyBody" ->
  forall fmt t bufs ws bufs', consume fmt k (item_of (record_of t call)) bufs = Ret (ws, bufs') ->
  forall i, (exists b, In (i, b) ws) <->
    exists a, nth_error (k_appenders k) i = Some a /\ a_service a = s_idx (snd e) /\ filter_accepts (a_filter a) Trace = true.
Proof. intros u no w arg c lv k e Hw Hl Hc He K addr ho req calls call. now apply (others_own K u no w arg c lv k e). Qed.
Print Assumptions C109_others_partial.
Example C109_nonvacuous : exists c k e, load_config ex_world (chars "httpd.toml") = Some c
  /\ config_logging ex_uni (fun l => l) ex_world c = Ret (Some (Trace, k)) /\ In e (c_services c) /\ s_idx (snd e) = 1
  /\ map a_service (k_appenders k) = [0; 1]
  /\ map (fun call => match consume ex_fmt k (item_of (record_of 0 call)) (empty_bufs k) with
                      | Ret (ws, _) => map fst ws | _ => [] end) (ex_calls [ex_get] 0)
     = [[1]; [0]; [1]; [1]; [1]; [0]].
Proof.
  eexists. eexists. eexists. split; [vm_compute; reflexivity|]. split; [vm_compute; reflexivity|].
  split; [left; reflexivity|]. split; [reflexivity|]. split; vm_compute; reflexivity.
Qed.

(** C110 fails: any text can be put into the log as a line of its own, with either renderer, by sending
    it as (part of) a body. *)
Theorem C110_forged_refuted : forall (K : codec) fuel cfg caps ho (svc : service K) q suffix r w line addr idx,
  (1 <= h_max_headers_count cfg)%N -> (forall k, 0 < caps k)%N -> enough fuel r ->
  request_ok cfg q -> flat r = request_wire q ++ suffix ->
  utf8_text line -> rq_body q = CRLF ++ line ++ CRLF ->
  exists req d log calls call, cr_log (serve fuel cfg caps ho svc r w) = (req, d) :: log
    /\ hello_calls addr idx ho req = Ret calls /\ In call calls
    /\ forall fmt rd t s, render fmt rd (item_of (record_of t call)) = Ret s -> own_line line s.
Proof. exact forged. Qed.
Print Assumptions C110_forged_refuted.
(** C110, the part that holds: on any stream, every other record about a request is rendered as one line. *)
Theorem C110_one_line_partial : forall (K : codec) fuel cfg caps ho (svc : service K) r w req d addr idx calls call, order_ok ho ->
  In (req, d) (cr_log (serve fuel cfg caps ho svc r w)) -> ~ In LF addr ->
  hello_calls addr idx ho req = Ret calls -> In call calls ->
  (exists body, b_internal (mbody req) = Some body /\ body <> [] /\ utf8_text body
     /\ call_msg call = B "PrintableBody:" ++ CRLF ++ rule ++ CRLF ++ body ++ CRLF ++ rule)
  \/ forall fmt rd t s, (forall x, shown_time fmt (r_timelayout rd) (item_of (record_of t call)) x -> ~ In LF x) ->
     render fmt rd (item_of (record_of t call)) = Ret s -> exists l, s = l ++ CRLF /\ ~ In LF l.
Proof. exact one_line_calls. Qed.
Print Assumptions C110_one_line_partial.
Definition ex_forged : request := ex_post "11" (CRLF ++ B "[ERROR]" ++ CRLF).
Example C110_nonvacuous : request_ok cfg0 ex_forged /\ utf8_text (B "[ERROR]")
  /\ map (fun call => match render ex_fmt (Renderer (chars "json") Json []) (item_of (record_of 0 call)) with
                      | Ret s => length (filter (Ascii.eqb LF) s) | _ => 0 end) (ex_calls [ex_forged] 0) = [1; 1; 1; 6].
Proof.
  split; [|split].
  - apply request_okb_ok. vm_compute. reflexivity.
  - exists (map N_of_ascii (B "[ERROR]")). split; [repeat (constructor; [left; reflexivity|]); constructor|reflexivity].
  - vm_compute. reflexivity.
Qed.

(** C111, the part that holds: on any stream, what is logged about the requests given to the handler tells
    for each of them the peer, method and target, every header field that was sent under its name
    (unless some name was empty), and the body, after bytes [before] that may be others'. *)
Theorem C111_traced_partial : forall (K : codec) fuel cfg caps ho (svc : service K) r w addr idx, order_ok ho ->
  (forall k, 0 < caps k)%N -> enough fuel r ->
  exists qs rest, requests_at (fin r) cfg (flat r) qs rest
    /\ Forall2 (fun q req => exists calls before, hello_calls addr idx ho req = Ret calls
                             /\ traced addr before q (map call_msg calls))
         qs (map fst (cr_log (serve fuel cfg caps ho svc r w))).
Proof. exact all_traced. Qed.
Print Assumptions C111_traced_partial.
(** C111 fails for bodies: shown for the k-th request of a connection are the bodies of requests 0 to k, *)
Theorem C111_bodies_refuted : forall (K : codec) fuel cfg caps ho qs r w addr idx,
  (1 <= h_max_headers_count cfg)%N -> (forall k, 0 < caps k)%N -> enough fuel r ->
  Forall (request_ok cfg) qs -> (forall v, In v (versions qs) -> ~ zero_major v) ->
  w_budget w = None -> flat r = wires qs ->
  length (cr_log (serve fuel cfg caps ho (@hello_http K) r w)) = length qs /\
  forall k req d, nth_error (cr_log (serve fuel cfg caps ho (@hello_http K) r w)) k = Some (req, d) ->
  exists calls b, hello_calls addr idx ho req = Ret (calls ++ [b])
    /\ shows_body (concat (map rq_body (firstn (S k) qs))) (call_msg b).
Proof. exact bodies_shown. Qed.
Print Assumptions C111_bodies_refuted.
(** and for versions: shown is the first number twice. *)
Theorem C111_version_refuted : forall (K : codec) addr idx ho (req : message K) calls name major minor a,
  hello_calls addr idx ho req = Ret calls ->
  fl2 req = version_text name major minor -> lower name = B "http" -> numeral major a -> (a < 256)%N ->
  exists call, nth_error calls 1 = Some call
    /\ call_msg call = fl0 req ++ [SP] ++ fl1 req ++ [SP] ++ B "Ok((" ++ shown a ++ B ", " ++ shown a ++ B "))".
Proof. exact version_shown. Qed.
Print Assumptions C111_version_refuted.
(** Nothing is logged about requests when the log level is not trace. *)
Theorem C111_quiet : forall (K : codec) max addr idx ho (req : message K) calls,
  hello_calls addr idx ho req = Ret calls -> max <> Trace -> enabled_calls max calls = [].
Proof. exact quiet. Qed.
Print Assumptions C111_quiet.
Example C111_nonvacuous :
  map call_msg (ex_calls [ex_get] 0)
  = [B "Request From 1.2.3.4:5"; B "GET /x Ok((1, 1))"; B "a: 1"; B "a: 3"; B "b: 2"; B "EmptyBody"]
  /\ map call_msg (ex_calls [ex_post "2" (B "hi"); ex_get] 1)
     = [B "Request From 1.2.3.4:5"; B "GET /x Ok((1, 1))"; B "a: 1"; B "a: 3"; B "b: 2";
        B "PrintableBody:" ++ CRLF ++ rule ++ CRLF ++ B "hi" ++ CRLF ++ rule]
  /\ map call_msg (ex_calls [ex_post "1" [ascii_of_N 200]] 0)
     = [B "Request From 1.2.3.4:5"; B "POST / Ok((1, 1))"; B "content-length: 1"; B "BinaryBody: 1"]
  /\ enabled_calls Trace (ex_calls [ex_get] 0) = ex_calls [ex_get] 0
  /\ Forall (request_ok cfg0) [ex_post "2" (B "hi"); ex_get].
Proof.
  split; [vm_compute; reflexivity|]. split; [vm_compute; reflexivity|]. split; [vm_compute; reflexivity|].
  split; [vm_compute; reflexivity|]. apply requests_okb_ok. vm_compute. reflexivity.
Qed.
