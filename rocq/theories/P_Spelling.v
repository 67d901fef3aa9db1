(** C139: the letter case of header names and the spaces around header values make no difference. *)
From Verif Require Import S_Spelling S_Examples F_Spelling F_HeadEx F_Served.

(** Two connections whose streams differ only in this way behave identically: the handler is given
    the same requests, and the same bytes are written. *)
Theorem C139_spelling : forall (K : codec) fuel fuel' cfg caps caps' ho (svc : service K) r r' w,
  (1 <= h_max_headers_count cfg)%N -> (forall k, 0 < caps k)%N -> (forall k, 0 < caps' k)%N ->
  enough fuel r -> enough fuel' r' -> respelled cfg (flat r) (flat r') -> fin r = fin r' ->
  serve fuel cfg caps ho svc r w = serve fuel' cfg caps' ho svc r' w.
Proof. intros. now apply serve_same. Qed.
Print Assumptions C139_spelling.

(** The second head is followed by something that is no request. *)
Example C139_nonvacuous :
  let v := B "HTTP/1.1" in
  let q fs := Request (Head (B "POST") (B "/a") v fs) (B "abc") in
  let h fs := Head (B "GET") (B "/b") v fs in
  let f1 := [(B "Content-Length", B " 3"); (B "Host", B " x")] in
  let f1' := [(B "CONTENT-length", B "3  "); (B "hOST", B "x")] in
  let s := request_wire (q f1) ++ head_wire (h [(B "Accept", B " */*")]) ++ B "???" in
  let s' := request_wire (q f1') ++ head_wire (h [(B "ACCEPT", B "  */* ")]) ++ B "???" in
  respelled cfg0 s s' /\ s <> s'
  /\ map (fun p => fl1 (fst p)) (cr_log (serve (K := copy_codec) 200 cfg0 (fun _ => 2%N) (fun l => l) hello_http (one_piece s Eof) open_writer))
     = [B "/a"; B "/b"].
Proof.
  cbv zeta. split; [|split; [vm_compute; discriminate|vm_compute; reflexivity]].
  apply respelled_request; [| | | reflexivity|].
  - refine (Forall_inv (requests_okb_ok cfg0 [_] _)). vm_compute. reflexivity.
  - refine (Forall_inv (requests_okb_ok cfg0 [_] _)). vm_compute. reflexivity.
  - unfold same_head. cbn [rq_head hd_method hd_target hd_version hd_fields]. repeat split; repeat constructor.
  - apply respelled_head.
    + apply head_okb_ok. vm_compute. reflexivity.
    + apply head_okb_ok. vm_compute. reflexivity.
    + unfold same_head. cbn [hd_method hd_target hd_version hd_fields]. repeat split; repeat constructor.
Qed.
