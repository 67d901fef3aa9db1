(** Serialising and reading back; compressed responses. *)
From Verif Require Export F_Serialize F_MultiMapP.

Lemma strip_space v : strip (SP :: v) = strip v.
Proof. reflexivity. Qed.

Lemma app_inv_first {A} (a b c : list A) : a = b -> a ++ c = b ++ c.
Proof. now intros ->. Qed.

(** header fields as the serialiser writes them *)
Definition spaced (f : field) : field := (fst f, SP :: snd f).
Lemma response_head line fs b : response line fs b
  = line ++ CRLF ++ concat (map field_line (map spaced fs)) ++ CRLF ++ b.
Proof.
  unfold response. do 2 f_equal. rewrite map_map. f_equal.
Qed.

Lemma spread_cons k vs es : spread ((k, vs) :: es) = @app field (@map bytes field (pair k) vs) (spread es).
Proof. reflexivity. Qed.
Lemma values_of_app n a b : values_of n (a ++ b) = values_of n a ++ values_of n b.
Proof. unfold values_of. now rewrite filter_app, map_app. Qed.
Lemma values_of_cons n k v fs : values_of n (spaced (k, v) :: fs)
  = if same_name n k then strip v :: values_of n fs else values_of n fs.
Proof. unfold values_of. cbn [filter fst spaced]. destruct (same_name n k); reflexivity. Qed.
Lemma spread_values n es : NoDup (map fst es) ->
  (forall k vs, In (k, vs) es -> lower k = k /\ Forall (fun v => strip v = v) vs) ->
  values_of n (map spaced (spread es))
  = match h_get (lower n) es with Some vs => vs | None => [] end.
Proof.
  induction es as [|[k vs] es IH]; intros Hnd H; [reflexivity|].
  cbn [map fst] in Hnd. inversion Hnd as [|? ? Hk Hnd']; subst.
  rewrite spread_cons.
  rewrite map_app, values_of_app.
  rewrite IH; [|exact Hnd'|intros; apply H; now right]. clear IH.
  destruct (H k vs (or_introl eq_refl)) as (Hlow & Hst).
  cbn [h_get]. destruct (bytes_eqb k (lower n)) eqn:E.
  - apply bytes_eqb_eq in E. subst k.
    assert (h_get (lower n) es = None) as ->. { apply h_get_none. exact Hk. }
    rewrite app_nil_r. clear H.
    induction vs as [|v vs IHv]; [reflexivity|]. inversion Hst; subst.
    cbn [map]. rewrite values_of_cons. unfold same_name. rewrite Hlow, bytes_eqb_refl.
    f_equal; [assumption|]. now apply IHv.
  - assert (Hno : values_of n (map spaced (@map bytes field (pair k) vs)) = []).
    { clear Hst H. induction vs as [|v vs IHv]; [reflexivity|]. cbn [map]. rewrite values_of_cons.
      unfold same_name. rewrite Hlow.
      destruct (bytes_eqb (lower n) k) eqn:E2; [|exact IHv].
      apply bytes_eqb_eq in E2. subst k. now rewrite bytes_eqb_refl in E. }
    now rewrite Hno.
Qed.

Section Round.
Variable K : codec.
Notation message := (message K).


Lemma dec_vchar n : Forall vchar (dec n).
Proof.
  pose proof (dec_printable n) as H. rewrite forallb_forall in H. apply Forall_forall. intros c Hc.
  apply H in Hc. now apply printable_ascii in Hc.
Qed.
Lemma dec_strip n : strip (dec n) = dec n.
Proof. rewrite <- trim_strip by apply dec_vchar. apply dec_trim. Qed.

Lemma round_trip : forall fuel cfg cap ho ops (m : message) body data m' suffix r,
  order_ok ho -> (0 < cap)%N -> (1 <= h_max_headers_count cfg)%N ->
  Forall token_char (fl0 m) -> length (fl0 m) <= 127 ->
  Forall token_char (fl1 m) -> (N.of_nat (length (fl1 m)) < h_max_url_size cfg)%N ->
  Forall vchar (fl2 m) -> 1 <= length (fl2 m) <= 126 ->
  clean ops -> mm_run ho mm_new ops = Ret (headers m) ->
  (forall k vs, mm_getall (headers m) k = Ret (Some vs) -> entry_ok (h_max_header_line_size cfg) k vs) ->
  (N.of_nat (length (B "content-length: " ++ dec (N.of_nat (length body)) ++ CRLF)) <= h_max_header_line_size cfg)%N ->
  (N.of_nat (length body) < 2 ^ 64)%N ->
  body_end (mbody m) = (Body (Some body) None, true) ->
  serialize ho m = Ret (Some data, m') ->
  flat r = data ++ suffix -> enough fuel r ->
  exists m1 r1 m2 r2, read_headers fuel cfg r (@msg_default K) = Ret (RcOk, m1, r1)
    /\ read_const_length_body fuel cap r1 m1 = Ret (RcOk, m2, r2)
    /\ fl0 m2 = fl0 m /\ fl1 m2 = fl1 m /\ fl2 m2 = fl2 m
    /\ (forall n, mm_getall (headers m2) (lower n)
          = if bytes_same (lower n) (B "content-length")
            then Ret (Some [dec (N.of_nat (length body))])
            else match mm_getall (headers m) (lower n) with
                 | Ret (Some []) => Ret None
                 | x => x
                 end)
    /\ b_internal (mbody m2) = Some body /\ flat r2 = suffix /\ fin r2 = fin r.
Proof.
  intros fuel cfg cap ho ops m body data m' suffix r Hho Hcap Hc H0 H0' H1 H1' H2 H2' Hcl Hrun He Hclen Hlt Hb Es Hr Hf.
  destruct (clean_run ho ops (headers m) Hho Hcl Hrun) as (Hok & _).
  destruct (serialize_shape K ho m data m' Hho Hok Es) as (es & Hnd & Hin & ->).
  unfold final_body in Hr. rewrite Hb in Hr. cbn [fst b_internal] in Hr.
  assert (Hfv : forall k, final_view K m k = if bytes_same k (B "content-length")
     then Some [dec (N.of_nat (length body))] else view (headers m) k).
  { intros k. unfold final_view, final_body. now rewrite Hb. }
  set (line := h_max_header_line_size cfg) in *.
  assert (Hes : forall k vs, In (k, vs) es -> k <> [] /\ entry_ok line k vs).
  { intros k vs Hi. apply Hin in Hi. rewrite Hfv in Hi.
    destruct (bytes_same k (B "content-length")) as [->|N].
    - injection Hi as <-. split; [discriminate|]. unfold entry_ok. splits.
      + repeat constructor; unfold token_char; cbn; lia.
      + apply content_length_fine.
      + cbn. lia.
      + reflexivity.
      + constructor; [|constructor]. splits; [apply dec_vchar|apply dec_strip|exact Hclen].
    - split.
      + intros ->. rewrite ok_view_nil in Hi by easy. discriminate.
      + apply He. rewrite getall_view by apply Hok. now rewrite Hi. }
  set (h := Head (fl0 m) (fl1 m) (fl2 m) (map spaced (spread es))).
  assert (Hr2 : flat r = head_wire h ++ (body ++ suffix)).
  { rewrite Hr, response_head. unfold head_wire, request_line, first_line, h.
    cbn [hd_method hd_target hd_version hd_fields]. rewrite <- !app_assoc. cbn [app]. rewrite <- ?app_assoc. cbn [app].
    rewrite <- ?app_assoc. reflexivity. }
  assert (Hh : head_ok (h_max_url_size cfg) line h).
  { unfold head_ok, h. cbn [hd_method hd_target hd_version hd_fields]. splits; auto; try lia.
    - apply Forall_forall. intros f Hi. apply in_map_iff in Hi as ([k v] & <- & Hi).
      apply spread_in in Hi as (vs & Hi & Hv). apply Hes in Hi as (Hk & A1 & A2 & A3 & A4 & A5). cbn [fst snd] in *.
      rewrite Forall_forall in A5. destruct (A5 _ Hv) as (B1 & B2 & B3).
      unfold field_ok, spaced. cbn [fst snd]. splits; auto; try easy.
      constructor; [|exact B1]. unfold vchar. cbn. lia.
    - rewrite !app_length in Hclen. cbn in Hclen. lia. }
  destruct (head_parsed K fuel cfg r h (body ++ suffix) Hh Hc Hr2 Hf)
    as (m1 & r1 & E1 & F1 & F2 & G0 & G1 & G2 & G3 & G4).
  assert (Hlook : forall n, mm_getall (headers m1) (lower n)
          = if bytes_same (lower n) (B "content-length")
            then Ret (Some [dec (N.of_nat (length body))])
            else match mm_getall (headers m) (lower n) with
                 | Ret (Some []) => Ret None
                 | x => x
                 end).
  { intros n. rewrite G3. unfold h. cbn [hd_fields]. unfold lookup_of. rewrite spread_values; auto.
    2:{ intros k vs Hi. apply Hes in Hi as (_ & A1 & A2 & A3 & A4 & A5). split; [exact A4|].
        rewrite Forall_forall in *. intros v Hv. now apply A5. }
    assert (Hg : h_get (lower n) es = final_view K m (lower n)).
    { destruct (final_view K m (lower n)) as [vs|] eqn:E.
      - apply h_get_nodup; [exact Hnd|]. now apply Hin.
      - apply h_get_none. intros Hi. apply in_map_iff in Hi as ([k vs] & Hk & Hi). cbn in Hk. subst k.
        apply Hin in Hi. congruence. }
    rewrite Hg, Hfv. destruct (bytes_same (lower n) (B "content-length")); [reflexivity|].
    rewrite getall_view by apply Hok. destruct (view (headers m) (lower n)) as [[|v vs]|]; reflexivity. }
  assert (Hget : mm_get (headers m1) (B "content-length") = Ret (Some (dec (N.of_nat (length body))))).
  { unfold mm_get. specialize (Hlook (B "content-length")). change (lower (B "content-length")) with (B "content-length") in Hlook.
    rewrite Hlook. destruct (bytes_same _ _); [reflexivity|congruence]. }
  assert (Hf1 : enough fuel r1).
  { unfold enough in *. rewrite F1. rewrite Hr2, app_length in Hf. lia. }
  destruct (body_exact K fuel cap r1 m1 _ body suffix [] Hcap Hf1 Hget (numeral_dec _) Hlt F1)
    as (m2 & r2 & E2 & (S0 & S1 & S2 & S3) & Hb2 & F3 & F4).
  { rewrite G4. reflexivity. }
  exists m1, r1, m2, r2. splits; auto; try congruence.
  - rewrite S0. exact G0.
  - rewrite S1. exact G1.
  - rewrite S2. exact G2.
  - intros n. rewrite S3. apply Hlook.
Qed.

(** ** C33 *)
Lemma encoded_response : forall enc, streams K enc -> forall ho ops (m : message) ct level pre ps,
  order_ok ho -> clean ops -> mm_run ho mm_new ops = Ret (headers m) -> mbody m = Body (Some pre) None ->
  exists b fs m', b_run (mbody m) (BCompress ct level :: map BWrite ps) = Ret b
    /\ serialize ho (with_body m b)
       = Ret (Some (response (fl0 m ++ [SP] ++ fl1 m ++ [SP] ++ fl2 m) fs
                      (pre ++ enc ct (enc_level ct level) (concat ps))), m')
    /\ In (B "content-length", dec (N.of_nat (length (pre ++ enc ct (enc_level ct level) (concat ps))))) fs.
Proof.
  intros enc Henc ho ops m ct level pre ps Hho Hcl Hrun Hb.
  destruct (clean_run ho ops (headers m) Hho Hcl Hrun) as (Hok & _).
  destruct (encoded K enc Henc ct level pre ps) as (b & E1 & _ & E2).
  destruct (serialize_total K ho (with_body m b) Hho) as (es & _ & Hin & Es); [exact Hok|].
  unfold final_view, final_body in *. cbn [mbody with_body fl0 fl1 fl2] in *. rewrite E2 in *.
  cbn [fst snd b_internal] in *.
  eexists b, (spread es), _. rewrite Hb. split; [exact E1|]. split; [exact Es|].
  apply spread_in. exists [dec (N.of_nat (length (pre ++ enc ct (enc_level ct level) (concat ps))))].
  split; [|now left]. apply Hin.
  destruct (bytes_same _ _); [reflexivity|congruence].
Qed.

(** what is sent is not an encoding of anything when the body already held bytes which no encoder
    output starts with *)
Lemma mixed_body (enc : ctype -> Z -> bytes -> bytes) magic pre ct l x :
  (forall ct l x, hd_error (enc ct l x) = Some magic) -> pre <> [] -> hd_error pre <> Some magic ->
  forall y, pre ++ enc ct l x <> enc ct l y.
Proof.
  intros H Hn Hp y E. specialize (H ct l y). rewrite <- E in H. destruct pre; [easy|]. cbn in *. congruence.
Qed.

Lemma slate_ok (m : message) : clean_slate K m -> ok false (headers m).
Proof. intros H. now apply slate_fine in H as (_ & _ & _ & H & _). Qed.

Lemma zipper_step enc ho ct level d req (resp : message) pre : streams K enc -> order_ok ho ->
  clean_slate K resp -> mbody resp = Body (Some pre) None ->
  let out := pre ++ enc ct (enc_level ct level) d in
  exists resp3 fs resp4, zipper ct level d req resp = Ret (Some (Current true), req, resp3)
    /\ serialize ho resp3 = Ret (Some (response [SP; SP] fs out), resp4)
    /\ fs = [(B "content-length", dec (N.of_nat (length out)))]
    /\ mbody (msg_clear resp4) = Body (Some out) None.
Proof.
  intros Henc Hho Hs Hb out. unfold zipper, scripted. cbn [fst snd rw_run rw_step].
  destruct (encoded K enc Henc ct level pre [d]) as (b & E1 & _ & E2).
  cbn [map b_run] in E1. rewrite Hb. destruct (b_step (Body (Some pre) None) (BCompress ct level)) as [b1| | | |]; try discriminate.
  cbn [obind mbody with_body] in *. destruct (b_step b1 (BWrite d)) as [b2| | | |]; try discriminate.
  cbn [obind] in *. injection E1 as ->. cbn [concat] in E2. rewrite app_nil_r in E2. fold out in E2.
  set (m3 := with_body (with_body resp b1) b). pose proof (slate_first _ _ Hs) as Hfl.
  destruct (serialize_total K ho m3 Hho) as (es & Hnd & Hin & Es); [now apply slate_ok|].
  unfold final_view, final_body in *. unfold m3 in Es, Hin. cbn [mbody with_body fl0 fl1 fl2 headers] in Es, Hin.
  rewrite E2 in Es, Hin. cbn [fst snd b_internal] in *.
  eexists m3, (spread es), _. split; [reflexivity|]. split; [|split].
  - unfold m3. rewrite Es. change (first_line K (with_body (with_body resp b1) b)) with (first_line K resp).
    rewrite Hfl. reflexivity.
  - assert (es = [(B "content-length", [dec (N.of_nat (length out))])]) as ->; [|reflexivity].
    assert (Hall : forall k vs, In (k, vs) es <-> (k, vs) = (B "content-length", [dec (N.of_nat (length out))])).
    { intros k vs. rewrite Hin. destruct (bytes_same k (B "content-length")) as [->|N].
      - split; [now intros [= <-]|]. intros E. assert (vs = [dec (N.of_nat (length out))]) by congruence. now subst.
      - split; [|congruence]. destruct Hs as (_ & _ & _ & H3 & H4 & _). unfold view, content. now rewrite H3, H4. }
    destruct es as [|[k vs] [|[k2 vs2] es]].
    + exfalso. apply (proj2 (Hall (B "content-length") _) eq_refl).
    + f_equal. apply Hall. now left.
    + exfalso. assert (E3 := proj1 (Hall k vs) (or_introl eq_refl)).
      assert (E4 := proj1 (Hall k2 vs2) (or_intror (or_introl eq_refl))).
      cbn [map fst] in Hnd. inversion Hnd as [|? ? Hnn _]; subst. apply Hnn. left. congruence.
  - cbn [mbody msg_clear]. unfold body_clear. cbn [body_end b_cw b_internal]. reflexivity.
Qed.

Definition zips (enc : bytes) (n : nat) : bytes := concat (repeat enc n).
Lemma zips_S e n : zips e n ++ e = zips e (S n).
Proof.
  unfold zips. induction n as [|n IH]; [cbn; now rewrite app_nil_r|].
  cbn [repeat concat] in *. rewrite <- app_assoc, IH. reflexivity.
Qed.
Definition zip_log (e : bytes) (log : list (message * option bytes)) : Prop :=
  forall k req d, nth_error log k = Some (req, d) ->
  d = Some (response [SP; SP] [(B "content-length", dec (N.of_nat (length (zips e (S k)))))] (zips e (S k))).
Lemma zipper_loop enc ct level d : streams K enc -> forall fuel inner cfg caps ho k r w req (resp : message) log,
  order_ok ho -> clean_slate K resp -> mbody resp = Body (Some (zips (enc ct (enc_level ct level) d) (length log))) None ->
  zip_log (enc ct (enc_level ct level) d) log ->
  zip_log (enc ct (enc_level ct level) d)
    (cr_log (serve_loop fuel inner cfg caps ho (@zipper K ct level d) k r w req resp log)).
Proof.
  intros Henc. set (e := enc ct (enc_level ct level) d).
  induction fuel as [|f IH]; intros inner cfg caps ho k r w req resp log Hho Hi Hb Hl; [exact Hl|].
  cbn [serve_loop].
  destruct (read_headers inner cfg r req) as [[[c req1] r1]| | | |]; try exact Hl.
  destruct c; try exact Hl.
  destruct (read_const_length_body inner (caps k) r1 req1) as [[[c req2] r2]| | | |]; try exact Hl.
  destruct c; try exact Hl.
  destruct (zipper_step enc ho ct level d req2 resp _ Henc Hho Hi Hb) as (resp3 & fs & resp4 & E1 & E2 & -> & E3).
  fold e in E2, E3. rewrite zips_S in E2, E3. rewrite E1, E2.
  match goal with |- context [log ++ [?x]] => assert (Hl2 : zip_log e (log ++ [x])) end.
  { intros j q dd E. destruct (Nat.ltb_spec j (length log)) as [Hk|Hk].
    - rewrite nth_error_app1 in E by lia. eauto.
    - rewrite nth_error_app2 in E by lia. destruct (j - length log) as [|i] eqn:Ej.
      + cbn [nth_error] in E. injection E as <- <-. now replace j with (length log) by lia.
      + destruct i; discriminate E. }
  destruct (w_write _ w) as [w' okw]. destruct okw; [|exact Hl2]. cbn [negb].
  apply IH; auto using slate_clear. rewrite app_length, Nat.add_comm. exact E3.
Qed.
Lemma compressed_accumulates : forall enc, streams K enc -> forall fuel cfg caps ho ct level d r w k req o,
  order_ok ho ->
  nth_error (cr_log (serve fuel cfg caps ho (@zipper K ct level d) r w)) k = Some (req, o) ->
  let body := concat (repeat (enc ct (enc_level ct level) d) (S k)) in
  o = Some (response [SP; SP] [(B "content-length", dec (N.of_nat (length body)))] body).
Proof.
  intros enc Henc fuel cfg caps ho ct level d r w k req o Hho Hn.
  refine (zipper_loop enc ct level d Henc fuel fuel cfg caps ho 0 r w msg_default msg_default [] Hho
            (slate_default K) eq_refl _ k req o Hn).
  intros [|j] q dd; discriminate.
Qed.
End Round.
