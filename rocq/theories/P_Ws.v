(** Property C67: the WebSocket handshake. *)
From Verif Require Import F_Ws.

(** C67: [rops] and [ops] are the histories of the request's and the response's headers.  Without a
    key (no header of that name, or an empty first value) the response is untouched. *)
Theorem C67_no_key : forall K ho rops (req resp : message K), (forall l, Permutation (ho l) l) -> clean rops ->
  mm_run ho mm_new rops = Ret (headers req) -> client_key rops = [] ->
  ws_upgrade sha1 base64 req resp = Ret (false, resp).
Proof. exact upgrade_no. Qed.
Print Assumptions C67_no_key.
(** With a key the response becomes a 101 with the four headers of RFC 6455, among them the answer
    to the key; the other headers and the body stay. *)
Theorem C67_key : forall K ho rops ops (req resp : message K) key, (forall l, Permutation (ho l) l) -> clean rops -> clean ops ->
  mm_run ho mm_new rops = Ret (headers req) -> mm_run ho mm_new ops = Ret (headers resp) ->
  client_key rops = key -> key <> [] ->
  exists w, ws_upgrade sha1 base64 req resp = Ret (true, w)
  /\ fl0 w = fl0 resp ++ B "HTTP/1.1" /\ fl1 w = fl1 resp ++ B "101" /\ fl2 w = fl2 resp ++ B "Switching Protocols"
  /\ mbody w = mbody resp
  /\ forall k, mm_getall (headers w) k
       = Ret (match a_run ops a_empty k, added key k with
              | old, [] => old
              | Some vs, new => Some (vs ++ new)
              | None, new => Some new
              end).
Proof. exact upgrade_yes. Qed.
Print Assumptions C67_key.
(** Whatever the key, the answer is 28 base64 characters, so it cannot break the response. *)
Theorem C67_answer : forall key, length (accept_value key) = 28 /\ Forall base64_char (accept_value key).
Proof. intros key. split; [apply accept_length|]. unfold accept_value. eapply base64_chars. reflexivity. Qed.
Print Assumptions C67_answer.
Example C67_nonvacuous :
  let rops := [OAppend (B "host") (B "h"); OAppend (B "sec-websocket-key") (B "dGhlIHNhbXBsZSBub25jZQ==")] in
  clean rops /\ client_key rops = B "dGhlIHNhbXBsZSBub25jZQ=="
  /\ (exists h, mm_run (fun l => l) mm_new rops = Ret h)
  /\ added (client_key rops) (B "sec-websocket-accept") = [B "s3pPLMBiTxaQ9kYGzzhZRbK+xOo="]
  /\ client_key [OAppend (B "host") (B "h")] = [].
Proof.
  cbv zeta. splits; [repeat constructor; discriminate|reflexivity|eexists; reflexivity|vm_compute; reflexivity|reflexivity].
Qed.
