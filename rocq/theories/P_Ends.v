(** Property C112: no client can crash its connection. *)
From Verif Require Import S_Ends F_Ends S_Examples.

(** C112: whatever a client sends, however it is cut into pieces and however the stream ends, the task
    of the connection neither panics nor has undefined behaviour, if the handler does not crash by
    itself: it closes the connection, or waits for a client that neither sends nor closes, or (C11)
    reads forever behind a client that closed within a body. *)
Theorem C112_no_crash : forall (K : codec) fuel cfg caps ho (svc : service K) r w,
  (forall k, 0 < caps k)%N -> enough fuel r -> sturdy ho svc ->
  exists qs rest, requests_at (fin r) cfg (flat r) qs rest
    /\ Forall2 is_got qs (map fst (cr_log (serve fuel cfg caps ho svc r w)))
    /\ no_crash (fin r) cfg rest (cr_end (serve fuel cfg caps ho svc r w)).
Proof. exact crash_free. Qed.
Print Assumptions C112_no_crash.
(** the built-in services do not crash *)
Theorem C112_builtin : forall (K : codec) ho, sturdy ho (@hello_http K) /\ sturdy ho (@fs_http K).
Proof. intros K ho. split; [apply hello_sturdy|apply fs_sturdy]. Qed.
Print Assumptions C112_builtin.
(** nor do handlers made of calls on the response, whatever they do to the head, if the steps on the
    body alone do not (compressing what is being compressed does) and encoders do not fail *)
Theorem C112_scripts : forall (K : codec) ho (f : message K -> list rop * protocol), no_failure K ->
  (forall req, snd (f req) <> Http2) ->
  (forall req buf, exists b, b_run (K := K) (Body (Some buf) None) (body_steps (fst (f req))) = Ret b) ->
  sturdy ho (scripted f).
Proof. exact scripts_sturdy. Qed.
Print Assumptions C112_scripts.
Definition ex_steps : list rop :=
  [RHeader (B "A") (B "1"); RDelHeader (B "A"); RSetHeader [] (B "x"); RCode 7 []; RBody (BWrite (B "hi"));
   RBody (BCompress Gzip 3); RBody (BWrite (B "ho")); RBody BEnd; RDelHeader (B "content-length")].
Example C112_nonvacuous :
  cr_end (serve (K := copy_codec) 300 cfg0 (fun _ => 3%N) (fun l => l) hello_http
            (byte_wise (B ("GET / HTTP/1.1" ++ nl ++ ": x" ++ nl ++ nl ++ "junk")) Stall) open_writer) = EndBlocked
  /\ cr_end (serve (K := copy_codec) 300 cfg0 (fun _ => 3%N) (fun l => l) (scripted (fun _ => (ex_steps, Current true)))
            (byte_wise (B ("GET / HTTP/1.1" ++ nl ++ nl ++ "junk")) Eof) open_writer) = EndClosed
  /\ length (cr_log (serve (K := copy_codec) 300 cfg0 (fun _ => 3%N) (fun l => l) (scripted (fun _ => (ex_steps, Current true)))
            (byte_wise (B ("GET / HTTP/1.1" ++ nl ++ nl ++ "junk")) Eof) open_writer)) = 1
  /\ no_failure copy_codec
  /\ forall buf, exists b, b_run (K := copy_codec) (Body (Some buf) None) (body_steps ex_steps) = Ret b.
Proof.
  split; [vm_compute; reflexivity|]. split; [vm_compute; reflexivity|]. split; [vm_compute; reflexivity|].
  split; [intros c; discriminate|]. intros buf. eexists. reflexivity.
Qed.
