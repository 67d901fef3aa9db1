(** C114: bodies written with [write_all] through the encoders and decoders of the crates. *)
From Verif Require Import F_Coders.

(** C114, written: whatever the crates take of each offer, text written to a body after
    [compression] is in the body, encoded, after what was there, once the body has ended; nothing
    fails. *)
Theorem C114_encoded : forall enc dcd (L : library), honest enc dcd L ->
  forall (b : body (coders L)) buf ct level ds, body_inner b = Ret buf ->
  exists b1 b2, body_compression b ct level = Ret b1 /\ body_write_alls b1 ds = Ret (b2, true)
    /\ body_end b2 = (Body (Some (buf ++ enc ct (level_used ct level) (concat ds))) None, true).
Proof. exact coders_encode. Qed.
Print Assumptions C114_encoded.

(** C114, decoded: text written after [decompression] is in the body, decoded; if it cannot be
    decoded, a write or the end says so. *)
Theorem C114_decoded : forall enc dcd (L : library), honest enc dcd L ->
  forall (b : body (coders L)) buf ct ds, body_inner b = Ret buf ->
  exists b1 b2 ok, body_decompression b ct = Ret b1 /\ body_write_alls b1 ds = Ret (b2, ok)
    /\ match dcd ct (concat ds) with
       | Some x => ok = true /\ body_end b2 = (Body (Some (buf ++ x)) None, true)
       | None => ok = false \/ snd (body_end b2) = false
       end.
Proof. exact coders_decode. Qed.
Print Assumptions C114_decoded.

(** C114, plain: without a coding the text is simply appended. *)
Theorem C114_plain : forall (K : codec) ds (b : body K) buf, body_inner b = Ret buf ->
  exists b', body_write_alls b ds = Ret (b', true) /\ body_inner b' = Ret (buf ++ concat ds).
Proof. exact plain_write_alls. Qed.
Print Assumptions C114_plain.

(** C114, told: whatever the coder does, as long as it counts what it takes, success means it took
    everything, in order, and failure that it took a proper beginning. *)
Theorem C114_told : forall (K : codec) got, counts K got -> forall c d,
  exists c' ok, body_write_all (@Body K None (Some c)) d = Ret (Body None (Some c'), ok)
    /\ if ok then got c' = got c ++ d
       else exists k, k < length d /\ got c' = got c ++ firstn k d.
Proof. intros K got HK c d. now apply write_loop_told. Qed.
Print Assumptions C114_told.

(** The crates of the example are as promised. *)
Lemma sip_writes : writes_well sans_tag sip_write (fun s ct l sink fed => s = (sink, ct, l, fed)).
Proof.
  intros s ct l sink fed [|x r] -> Hd; [congruence|]. unfold sip_write. cbn [firstn].
  destruct l as [l|].
  - left. exists 1. cbn. repeat split; lia.
  - destruct (sans_tag ct (fed ++ [x])) eqn:E; [left; exists 1; cbn; repeat split; lia|].
    destruct (Nat.leb_spec 2 (length (fed ++ [x]))) as [Hl|Hl]; [|left; exists 1; cbn; repeat split; lia].
    right. split; [now right|]. split; [reflexivity|]. intros e. unfold sans_tag in E |- *.
    change ((x :: r) ++ e) with ([x] ++ r ++ e). rewrite (app_assoc fed [x]).
    rewrite firstn_app. replace (2 - length (fed ++ [x])) with 0 by lia. rewrite firstn_O, app_nil_r.
    revert E. now destruct (bytes_eqb (firstn 2 (fed ++ [x])) (ctype_tag ct)).
Qed.
Lemma sip_honest : honest with_tag sans_tag sip_library.
Proof.
  exists (fun s ct l sink fed => s = (sink, ct, l, fed)),
    (fun s ct l sink fed => s = (sink, ct, l, fed) /\ l <> None), (fun s ct l sink fed => s = (sink, ct, l, fed)).
  cbn. split; [easy|]. split; [easy|]. split; [intros; split; [reflexivity|discriminate]|]. split; [easy|]. split; [exact sip_writes|].
  split; [|split; [exact sip_writes|split; [|split]]].
  - intros s ct l sink fed d [Hs Hl] Hd. destruct (sip_writes s ct l sink fed d Hs Hd) as [(n & H1 & H2 & H3)|(_ & H & _)];
      [|contradiction]. left. exists n. tauto.
  - now intros s ct l sink fed ->.
  - intros s ct l sink fed [-> Hl]. eexists. split; [reflexivity|]. cbn. destruct l; [reflexivity|contradiction].
  - intros s ct l sink fed ->. cbn. destruct (yields with_tag sans_tag ct l sink fed) eqn:E; [|reflexivity].
    eexists. split; [reflexivity|]. right. cbn. now rewrite E.
Qed.
Example C114_nonvacuous :
  honest with_tag sans_tag sip_library
  /\ (forall ct, sans_tag ct (concat [B "d:a"; B "bc"]) = match ct with Deflate => Some (B "abc") | _ => None end)
  /\ counts (Codec bytes (fun _ _ b => b) (fun _ b => b)
       (fun s d => if Nat.leb 4 (length s) then (s, None) else (s ++ firstn 2 d, Some (length (firstn 2 d)))) Some) (fun s => s)
  /\ body_write_alls (@Body (coders sip_library) (Some (B "x")) None) [B "ab"; []; B "c"]
     = Ret (Body (Some (B "xabc")) None, true)
  /\ match body_compression (@Body (coders sip_library) (Some (B "x")) None) Brotil 5 with
     | Ret b1 =>
         match body_write_alls b1 [B "ab"; []; B "cd"], body_write b1 (B "abcd") with
         | Ret (b2, true), Ret (b3, Some 1) =>
             body_end b2 = (Body (Some (B "xb:abcd")) None, true) /\ body_end b3 = (Body (Some (B "xb:a")) None, true)
         | _, _ => False
         end
     | _ => False
     end.
Proof.
  split; [exact sip_honest|]. split; [now intros []|]. split; [|split; vm_compute; auto].
  intros c d. cbn [c_append]. destruct (Nat.leb 4 (length c)); cbn [fst snd]; [reflexivity|].
  destruct d as [|x [|y d]]; cbn; split; auto; lia.
Qed.
