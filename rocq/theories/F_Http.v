From Verif Require Import S_Http F_Ends F_Served F_Written F_Conn F_Req F_Got F_Extend F_Deletes F_Serialize.

Lemma same_length {A B} (R : A -> B -> Prop) l l' : Forall2 R l l' -> length l = length l'.
Proof. induction 1; cbn [length]; congruence. Qed.

Section Http.
Variable K : codec.
Notation message := (message K).

Lemma expectant fuel cfg caps ho (svc : service K) qs h v n part r w :
  (1 <= h_max_headers_count cfg)%N -> (forall k, 0 < caps k)%N -> enough fuel r ->
  Forall (request_ok cfg) qs -> answers ho svc (versions qs) -> w_budget w = None ->
  head_ok (h_max_url_size cfg) (h_max_header_line_size cfg) h ->
  hd_error (lengths h) = Some v -> numeral v n -> (n < 2 ^ 64)%N ->
  (N.of_nat (length part) < n)%N -> fin r = Stall ->
  flat r = wires qs ++ head_wire h ++ part ->
  let res := serve fuel cfg caps ho svc r w in
  cr_end res = EndBlocked /\ Forall2 (handled ho svc) qs (cr_log res)
  /\ w_out (cr_writer res) = w_out w ++ concat (map sent (cr_log res)).
Proof.
  intros Hc Hcap Hf Hq Ha Hw Hh Hv Hn Hlt Hp He Hr res.
  assert (Hout : w_out (cr_writer res) = w_out w ++ concat (map sent (cr_log res))).
  { unfold res. rewrite written, Hw. reflexivity. }
  cut (cr_end res = EndBlocked /\ Forall2 (handled ho svc) qs (cr_log res)); [tauto|]. clear Hout. unfold res.
  destruct (pipelined_then K fuel cfg caps ho svc qs _ r w Hc Hcap Hf Hq Ha Hw Hr)
    as (f & req' & resp' & log' & E & Hran & Hl & Fq & (buf & Lq) & _). rewrite E.
  destruct f as [|f]; [lia|]. cbn [fl_serve].
  destruct (fl_headers_wf K (S (length (head_wire h ++ part))) cfg req' h part (fin r) Fq Hh Hc) as (h' & Eh & Hok & Hview & _).
  { unfold head_wire. rewrite !app_length. pose proof (concat_fields_length (hd_fields h)). lia. }
  rewrite Eh. unfold fl_const_body, get_content_length. cbn [headers].
  rewrite (get_lookup h' (hd_fields h) Hok Hview). cbn [obind]. unfold lengths in Hv.
  destruct (values_of (B "content-length") (hd_fields h)) as [|v' vs]; [discriminate|].
  cbn in Hv. injection Hv as ->.
  rewrite (numeral_parse v n u64max Hn) by (change u64max with (2 ^ 64 - 1)%N; lia). cbn [obind].
  unfold fl_length_raw, fl_raw. cbn [mbody]. rewrite Lq. cbn [b_internal]. rewrite He.
  destruct (n <? 1)%N eqn:E1; [lia|]. unfold lenN. destruct (n <=? N.of_nat (length part))%N eqn:E2; [lia|].
  cbn [obind end_of cr_end cr_log]. split; [reflexivity|]. now apply ran_handled in Hran.
Qed.

Lemma smuggled fuel cfg caps ho (svc : service K) h v qs r w :
  (1 <= h_max_headers_count cfg)%N -> (forall k, 0 < caps k)%N -> enough fuel r ->
  head_ok (h_max_url_size cfg) (h_max_header_line_size cfg) h ->
  hd_error (lengths h) = Some v -> numeral v 0 ->
  Forall (request_ok cfg) qs -> answers ho svc (hd_version h :: versions qs) -> w_budget w = None ->
  flat r = head_wire h ++ wires qs ->
  Forall2 (handled ho svc) (Request h [] :: qs) (cr_log (serve fuel cfg caps ho svc r w)).
Proof.
  intros Hc Hcap Hf Hh Hv Hn Hq Ha Hw Hr.
  refine (proj1 (pipelined K fuel cfg caps ho svc (Request h [] :: qs) r w Hc Hcap Hf _ Ha Hw _)).
  - constructor; [|exact Hq]. split; [exact Hh|]. unfold framed. cbn [rq_body rq_head length].
    split; [reflexivity|]. unfold lengths in Hv. destruct (values_of _ _); [discriminate|]. injection Hv as ->. exact Hn.
  - rewrite Hr. unfold wires. cbn [map concat]. change (request_wire (Request h [])) with (head_wire h ++ []). now rewrite app_nil_r.
Qed.

Lemma numeral_fun s n m : numeral s n -> numeral s m -> n = m.
Proof. intros (_ & _ & <-) (_ & _ & <-). reflexivity. Qed.
Lemma numeral_plus t n : ~ numeral (PLUS :: t) n.
Proof. intros (_ & H & _). inversion H as [|? ? D _]. unfold digit in D. cbn in D. lia. Qed.

Lemma agreed fuel cfg caps ho (svc : service K) r w :
  (forall k, 0 < caps k)%N -> enough fuel r ->
  exists qs rest, requests_at (fin r) cfg (flat r) qs rest
    /\ Forall2 is_got qs (map fst (cr_log (serve fuel cfg caps ho svc r w)))
    /\ forall q h vs n, In q qs -> table_of (g_lines q) h ->
       mm_getall h (B "content-length") = Ret (Some vs) -> vs <> [] -> (forall v, In v vs -> numeral v n) ->
       N.of_nat (length (g_body q)) = n.
Proof.
  intros Hcap Hf. destruct (only_from_stream K fuel cfg caps ho svc r w Hcap Hf) as (qs & rest & H1 & H2).
  exists qs, rest. splits; auto. clear H2. intros q h vs n Hin Ht Hg Hne Hv.
  induction H1 as [|s q0 s' qs rest _ Han _ IH]; [destruct Hin|]. destruct Hin as [->|Hin]; [|now apply IH].
  destruct Han as (h' & Ht' & Hc). unfold table_of in Ht, Ht'. rewrite Ht in Ht'. injection Ht' as <-.
  unfold mm_get in Hc. rewrite Hg in Hc. cbn [obind] in Hc. destruct vs as [|v vs]; [contradiction|].
  specialize (Hv v (or_introl eq_refl)). destruct Hc as [[Hc _]|(v' & Hc & _ & Hn)]; [discriminate|].
  injection Hc as <-. destruct Hn as [Hn|(t & -> & Hn)]; [|now apply numeral_plus in Hv].
  eapply numeral_fun; eauto.
Qed.

Lemma refused_silently fuel cfg caps ho (svc : service K) qs rest r w :
  (forall k, 0 < caps k)%N -> enough fuel r -> w_budget w = None ->
  requests_at (fin r) cfg (flat r) qs rest -> no_request (fin r) cfg rest ->
  answers ho svc (map g_version qs) ->
  let res := serve fuel cfg caps ho svc r w in
  Forall2 is_got qs (map fst (cr_log res))
  /\ w_out (cr_writer res) = w_out w ++ concat (map sent (cr_log res)).
Proof.
  intros Hcap Hf Hw Hr Hno Ha res.
  destruct (all_from_stream K fuel cfg caps ho svc qs rest r w Hcap Hf Hw Hr Ha) as (l1 & l2 & E & H1 & _ & H2).
  rewrite (H2 Hno), app_nil_r in E. unfold res. rewrite written, Hw, E. split; [exact H1|reflexivity].
Qed.

(** ** bodies of answers *)
Lemma carries_one d b b' : carries_body d b -> carries_body d b' -> b = b'.
Proof.
  intros (l & fs & E & Hl & Hf) (l' & fs' & E' & Hl' & Hf'). subst d. unfold response in E'.
  assert (l = l') as <- by (eapply one_line_cut; eauto).
  apply app_inv_head in E'. apply app_inv_head in E'.
  apply fields_inj in E' as [_ E']; auto.
Qed.

Lemma body_after_writes enc ds : forall l p, body_after enc (map BWrite ds ++ l) p None = body_after enc l (p ++ concat ds) None.
Proof.
  induction ds as [|d ds IH]; intros l p; cbn [map app body_after concat]; [now rewrite app_nil_r|].
  now rewrite IH, <- app_assoc.
Qed.
Lemma body_after_puts enc (f : message -> list rop * protocol) texts : puts f texts -> forall before l p,
  body_after enc (body_so_far f before ++ l) p None
  = body_after enc l (p ++ concat (map (fun x => concat (texts (fst x))) before)) None.
Proof.
  intros H. induction before as [|x before IH]; intros l p; cbn [map concat app]; [now rewrite app_nil_r|].
  unfold body_so_far. cbn [map concat]. rewrite (proj2 (proj2 (H (fst x)))), <- !app_assoc, body_after_writes.
  cbn [app body_after whole]. fold (body_so_far f before). now rewrite IH, <- app_assoc.
Qed.

Lemma put_bodies enc : streams K enc -> forall fuel cfg caps ho f texts r w before req o after, order_ok ho -> puts f texts ->
  cr_log (serve fuel cfg caps ho (@scripted K f) r w) = before ++ (req, o) :: after ->
  exists d, o = Some d
    /\ carries_body d (concat (map (fun x => concat (texts (fst x))) before) ++ concat (texts req)).
Proof.
  intros He fuel cfg caps ho f texts r w before req o after Hho Hp E.
  assert (Hw : forall q, Forall writes (fst (f q)) /\ headers_sound (fst (f q))).
  { intros q. destruct (Hp q) as (_ & H2 & H3). split; [|exact H2]. clear H2. revert H3. generalize (texts q).
    induction (fst (f q)) as [|o' l IH]; intros ts H3; constructor.
    - destruct o' as [| | | | |b]; try exact I. unfold all_of in H3. cbn [map concat says_body app] in H3.
      destruct ts; [discriminate|]. injection H3 as -> _. exact I.
    - unfold all_of in H3. cbn [map concat] in H3. destruct o' as [| | | | |b]; cbn [says_body app] in H3; try (eapply IH; exact H3).
      destruct ts; [discriminate|]. injection H3 as _ H3. eapply IH; exact H3. }
  pose proof (F_Written.written K enc He fuel cfg caps ho f r w before req o after Hho Hw E) as H. cbv zeta in H.
  rewrite (body_after_puts enc f texts Hp), (proj2 (proj2 (Hp req))) in H.
  rewrite <- (app_nil_r (map BWrite (texts req))), body_after_writes in H. cbn [body_after whole app] in H.
  destruct H as (fs & -> & Hfs). eexists. split; [reflexivity|]. eexists _, fs. split; [reflexivity|].
  destruct (Hp req) as (Hfine & _ & _). destruct (fine_lines _ Hfine) as (L0 & L1 & L2). split.
  - assert (S0 : one_line [SP]) by (now apply printable_one_line).
    apply one_line_app; [exact L0|]. apply (one_line_app [SP]); [exact S0|]. apply one_line_app; [exact L1|].
    now apply (one_line_app [SP]).
  - apply Forall_forall. intros [k v] Hin. cbn [fst snd]. specialize (Hfs k).
    assert (Hv : In v (map snd (filter (fun f0 : field => if bytes_same (fst f0) k then true else false) fs))).
    { apply in_map_iff. exists (k, v). split; [reflexivity|]. apply filter_In. split; [exact Hin|]. cbn [fst].
      destruct (bytes_same k k); congruence. }
    unfold field in *. rewrite Hfs in Hv. unfold a_update in Hv. destruct (bytes_same k (B "content-length")) as [->|N].
    + destruct Hv as [<-|[]]. splits; [now apply printable_one_line|intros X; vm_compute in X; repeat (destruct X as [X|X]; [discriminate X|]); exact X|apply dec_one_line].
    + destruct (a_run (all_of says_header (fst (f req))) a_empty k) as [vs|] eqn:Ek; [|destruct Hv].
      apply (fine_headers _ Hfine) in Ek as ((_ & A & C & _) & D); [|intros ? ? X; discriminate X].
      rewrite Forall_forall in D. auto.
Qed.

Lemma hello_carries fuel cfg caps ho r w k req d :
  nth_error (cr_log (serve fuel cfg caps ho (@hello_http K) r w)) k = Some (req, d) ->
  exists data, d = Some data /\ carries_body data (concat (repeat (B "Hello world!") (S k))).
Proof.
  intros H. apply hello_bodies in H as (line & _ & H1 & ->). eexists. split; [reflexivity|].
  eexists line, _. split; [reflexivity|]. split; [exact H1|].
  repeat constructor; cbn [fst snd]; try (intros X; vm_compute in X; repeat (destruct X as [X|X]; [discriminate X|]); exact X); apply dec_one_line.
Qed.
Lemma fs_carries fuel cfg caps ho r w req d :
  In (req, d) (cr_log (serve fuel cfg caps ho (@fs_http K) r w)) ->
  exists data, d = Some data /\ carries_body data [].
Proof.
  intros H. pose proof (fs_serves K fuel cfg caps ho r w) as F. unfold fs_log in F. rewrite Forall_forall in F.
  apply F in H. simpl in H. eexists. split; [exact H|]. unfold fs_response. eexists _, _. split; [reflexivity|].
  split; [exact spaces_one_line|].
  repeat constructor; cbn [fst snd]; intros X; vm_compute in X; repeat (destruct X as [X|X]; [discriminate X|]); exact X.
Qed.

End Http.
