(** C140: the order of header fields with different names makes no difference. *)
From Verif Require Import S_FieldOrder S_Upgrade S_Examples F_FieldOrder F_Served.

(** For any handler that looks fields up by name: two connections whose requests differ only in the
    order of fields with different names write the same bytes and end alike, and the handler is
    given requests that it cannot tell apart. *)
Theorem C140_order : forall (K : codec) fuel fuel' cfg caps caps' ho (svc : service K) qs qs' r r' w,
  (1 <= h_max_headers_count cfg)%N -> (forall k, 0 < caps k)%N -> (forall k, 0 < caps' k)%N ->
  enough fuel r -> enough fuel' r' -> by_name svc ->
  Forall (request_ok cfg) qs -> Forall (request_ok cfg) qs' -> Forall2 same_request qs qs' ->
  flat r = wires qs -> flat r' = wires qs' -> fin r = fin r' ->
  same_run (serve fuel cfg caps ho svc r w) (serve fuel' cfg caps' ho svc r' w).
Proof. intros K fuel fuel' cfg caps caps' ho svc qs qs'. intros. now apply (serve_order K cfg caps caps' ho svc qs qs'). Qed.
Print Assumptions C140_order.

(** The handlers of the program are such handlers. *)
Theorem C140_handlers : forall K : codec, by_name (@hello_http K) /\ by_name (@fs_http K) /\ by_name (@ws_service K).
Proof.
  intros K. splits; intros m m' resp (H0 & H1 & H2 & Hb & Hg).
  - unfold hello_http, req_version. rewrite H2.
    destruct (rw_header _ _ _) as [w1| | | |]; cbn [obind]; try reflexivity.
    destruct (version_of _) as [[a b]|]; cbn; match goal with |- context [body_write_all_to_internal ?x ?y] =>
      destruct (body_write_all_to_internal x y); cbn; splits; auto end.
  - cbn. splits; auto.
  - assert (E : ws_upgrade sha1 base64 m' resp = ws_upgrade sha1 base64 m resp) by (unfold ws_upgrade, mm_get; now rewrite Hg).
    unfold ws_service. rewrite E. destruct (ws_upgrade sha1 base64 m resp) as [[a b]| | | |]; cbn; splits; auto.
Qed.
Print Assumptions C140_handlers.

Example C140_nonvacuous :
  let q fs := Request (Head (B "POST") (B "/a") (B "HTTP/1.1") fs) (B "abc") in
  let f1 := [(B "Content-Length", B " 3"); (B "Host", B " x"); (B "Accept", B "a"); (B "Accept", B "b")] in
  let f2 := [(B "Accept", B "a"); (B "Host", B " x"); (B "Accept", B "b"); (B "Content-Length", B " 3")] in
  Forall (request_ok cfg0) [q f1] /\ Forall (request_ok cfg0) [q f2] /\ same_request (q f1) (q f2)
  /\ map (fun p => fl1 (fst p)) (cr_log (serve (K := copy_codec) 200 cfg0 (fun _ => 2%N) (fun l => l) hello_http
        (one_piece (wires [q f2]) Eof) open_writer)) = [B "/a"].
Proof.
  cbv zeta. splits.
  - apply requests_okb_ok. vm_compute. reflexivity.
  - apply requests_okb_ok. vm_compute. reflexivity.
  - unfold same_request. cbn [rq_head rq_body hd_method hd_target hd_version hd_fields]. splits; try reflexivity.
    intros n. unfold values_of, same_name. cbn [filter fst].
    change (lower (B "Content-Length")) with (B "content-length"). change (lower (B "Host")) with (B "host").
    change (lower (B "Accept")) with (B "accept").
    destruct (bytes_eqb (lower n) (B "content-length")) eqn:E1; [apply bytes_eqb_eq in E1; rewrite E1; reflexivity|].
    destruct (bytes_eqb (lower n) (B "host")) eqn:E2; [apply bytes_eqb_eq in E2; rewrite E2; reflexivity|].
    destruct (bytes_eqb (lower n) (B "accept")); reflexivity.
  - vm_compute. reflexivity.
Qed.
