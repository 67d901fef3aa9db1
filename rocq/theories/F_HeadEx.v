(** Examples used by P_Head. *)
From Verif Require Export F_HeadT S_Examples.

(** computable versions of the well-formedness predicates *)
Definition vcharb (b : byte) : bool := in_range 32 126 (code b).
Definition tokenb (b : byte) : bool := in_range 33 126 (code b).
Definition field_okb (line : N) (f : field) : bool :=
  negb (is_nil (fst f)) && forallb tokenb (fst f) && no_colon (fst f) && Nat.leb (length (fst f)) 256
  && negb (is_nil (snd f)) && forallb vcharb (snd f)
  && (N.of_nat (length (field_line f)) <=? line)%N.
Definition head_okb (url line : N) (h : S_Wire.head) : bool :=
  forallb tokenb (hd_method h) && Nat.leb (length (hd_method h)) 127
  && forallb tokenb (hd_target h) && (N.of_nat (length (hd_target h)) <? url)%N
  && forallb vcharb (hd_version h) && Nat.leb 1 (length (hd_version h)) && Nat.leb (length (hd_version h)) 126
  && forallb (field_okb line) (hd_fields h) && (2 <=? line)%N.

Lemma forallb_Forall {A} (p : A -> bool) (P : A -> Prop) l :
  (forall x, p x = true -> P x) -> forallb p l = true -> Forall P l.
Proof. intros H E. apply Forall_forall. intros x Hx. rewrite forallb_forall in E. auto. Qed.
Lemma vcharb_ok b : vcharb b = true -> vchar b.
Proof. unfold vcharb, vchar, in_range. fold (code b). lia. Qed.
Lemma tokenb_ok b : tokenb b = true -> token_char b.
Proof. unfold tokenb, token_char, in_range. fold (code b). lia. Qed.

Ltac bsplit := repeat match goal with H : _ && _ = true |- _ => apply andb_true_iff in H as [? ?] end.
Lemma field_okb_ok line f : field_okb line f = true -> field_ok line f.
Proof.
  unfold field_okb, field_ok. intros H. bsplit. splits; try lia.
  - intros E. rewrite E in *. discriminate.
  - eapply forallb_Forall; [apply tokenb_ok|easy].
  - now apply no_colon_in.
  - intros E. rewrite E in *. discriminate.
  - eapply forallb_Forall; [apply vcharb_ok|easy].
Qed.
Lemma head_okb_ok url line h : head_okb url line h = true -> head_ok url line h.
Proof.
  unfold head_okb, head_ok. intros H. bsplit. splits; try lia.
  - eapply forallb_Forall; [apply tokenb_ok|easy].
  - eapply forallb_Forall; [apply tokenb_ok|easy].
  - eapply forallb_Forall; [apply vcharb_ok|easy].
  - eapply forallb_Forall; [apply field_okb_ok|easy].
Qed.

Lemma C02_ex :
  let fs := map (fun i => (B "X-" ++ dec (N.of_nat i), B " v" ++ dec (N.of_nat i))) (seq 0 59)
            ++ [(B "x-7", B "again ")] in
  head_ok (h_max_url_size cfg0) (h_max_header_line_size cfg0) (Head (B "GET") (B "/x?y") (B "HTTP/1.1") fs)
  /\ lookup_of (B "X-7") fs = Some [B "v7"; B "again"].
Proof. intros fs. split; [apply head_okb_ok|]; vm_compute; reflexivity. Qed.

Lemma C03_ex :
  let s := B ("GET /a HTTP/1.1" ++ nl ++ nl ++ "GET /b HTTP/1.1" ++ nl ++ "Host: h" ++ nl ++ nl) in
  exists req d, nth_error (cr_log (serve (K := copy_codec) 100 cfg0 (fun _ => 9%N) (fun l => l)
                                     hello_http (one_piece s Stall) open_writer)) 1 = Some (req, d)
    /\ fl1 req = B "/b" /\ mm_getall (headers req) (B "host") = Ret (Some [B "h"]).
Proof. intros s. eexists _, _. split; [vm_compute; reflexivity|]. vm_compute. auto. Qed.

Lemma C06_ex :
  let cfg := HttpConfig None 0 100 100 2 0 None None in
  let h := Head (B "GET") (B "/") (B "HTTP/1.1") [(B "a", B "1"); (B "b", B "2"); (B "c", B "3")] in
  head_ok (h_max_url_size cfg) (h_max_header_line_size cfg) h
  /\ (1 <= h_max_headers_count cfg < N.of_nat (length (hd_fields h)))%N.
Proof. intros cfg h. split; [apply head_okb_ok; vm_compute; reflexivity|]. simpl. lia. Qed.

Lemma C07_ex :
  match read_headers 300 cfg0 (one_piece (B ("POST / HTTP/1.1" ++ nl ++ ":100" ++ nl ++ "Content-Length: 5"
                                             ++ nl ++ nl)) Eof) (@msg_default copy_codec) with
  | Ret (RcOk, m, _) => get_content_length m = Ret (Some 100%N)
  | _ => False
  end
  /\ Forall named_line [B "no colon"; B " Host : x"; B "host:y:z"]
  /\ match read_headers 300 cfg0 (one_piece (head_lines (Head (B "GET") (B "/") (B "HTTP/1.1") [])
               [B "no colon"; B " Host : x"; B "host:y:z"]) Eof) (@msg_default copy_codec) with
     | Ret (RcOk, m, _) => mm_getall (headers m) (B "host") = Ret (Some [B "x"; B "y:z"])
     | _ => False
     end.
Proof.
  split; [vm_compute; reflexivity|]. split; [|vm_compute; reflexivity].
  repeat constructor; vm_compute; try exact I; discriminate.
Qed.

Lemma C08_ex :
  let h := Head (B "GET") (B "/") (B "HTTP/1.1") [] in
  line_ok (h_max_header_line_size cfg0) (B "garbage") /\ ~ In COLON (B "garbage")
  /\ match read_headers 300 cfg0 (one_piece (head_lines h [B "a: 1"; B "garbage"; B "b: 2"]) Eof)
             (@msg_default copy_codec) with
     | Ret (RcOk, m, _) => mm_getall (headers m) (B "b") = Ret (Some [B "2"])
     | _ => False
     end.
Proof.
  intros h. splits; [|apply no_colon_in; reflexivity|vm_compute; reflexivity].
  unfold line_ok. splits; [discriminate| |vm_compute; discriminate].
  intros H. vm_compute in H. repeat destruct H as [H|H]; try discriminate; easy.
Qed.
