(** Facts about the renderers. *)
From Verif Require Export S_Json F_Consumer.

(** a scanner every JSON text passes *)
Inductive scan_state := SOut | SBrace | SStr | SEsc | SAfter | SFail.
Definition sp (c : byte) : bool := let n := num c in (n =? 32)%N || (n =? 9)%N || (n =? 10)%N || (n =? 13)%N.
Definition is (c d : byte) : bool := Ascii.eqb c d.
Definition scan1 (st : scan_state) (c : byte) : scan_state :=
  match st with
  | SOut => if is c QUOTE then SStr else if is c LBRACE then SBrace else SOut
  | SBrace => if sp c then SBrace else if is c QUOTE then SStr else if is c RBRACE then SOut else SFail
  | SStr => if is c QUOTE then SAfter else if is c BACKSLASH then SEsc else if (num c <? 32)%N then SFail else SStr
  | SEsc => SStr
  | SAfter => if sp c then SAfter
              else if is c COMMA || is c COLON || is c RBRACE || is c "]"%char then SOut else SFail
  | SFail => SFail
  end.
Definition scan (st : scan_state) (s : bytes) : scan_state := fold_left scan1 s st.
Lemma scan_app st a b : scan st (a ++ b) = scan (scan st a) b.
Proof. apply fold_left_app. Qed.
Lemma scan_fail s : scan SFail s = SFail.
Proof. induction s; [easy|]. exact IHs. Qed.
Lemma is_true c d : is c d = true <-> c = d.
Proof. apply Ascii.eqb_eq. Qed.
Lemma is_false c d : is c d = false <-> c <> d.
Proof. apply Ascii.eqb_neq. Qed.
Lemma num_inj a b : num a = num b -> a = b.
Proof. unfold num. intros H. rewrite <- (ascii_N_embedding a), <- (ascii_N_embedding b). now rewrite H. Qed.
Lemma sp_spec c : sp c = true <-> jspace c.
Proof. unfold sp, jspace. lia. Qed.
Lemma neq_num a b : num a <> num b -> a <> b.
Proof. congruence. Qed.

Lemma scan_jchars s : jchars s -> scan SStr s = SStr.
Proof.
  induction 1 as [|c s (H1 & H2 & H3) _ IH|c s _ _ IH|a b c d s Ha Hb Hc Hd _ IH]; [easy| | |].
  - unfold scan in *. cbn [fold_left scan1]. apply is_false in H2, H3. rewrite H2, H3.
    replace (num c <? 32)%N with false by lia. exact IH.
  - exact IH.
  - unfold scan in *. cbn [fold_left]. change (scan1 SStr BACKSLASH) with SEsc. cbn [scan1].
    assert (Hx : forall x, jhex x -> (if is x QUOTE then SAfter else if is x BACKSLASH then SEsc
         else if (num x <? 32)%N then SFail else SStr) = SStr).
    { intros x Hx. assert (E1 : is x QUOTE = false) by (apply is_false, neq_num; change (num QUOTE) with 34%N; unfold jhex in Hx; lia).
      assert (E2 : is x BACKSLASH = false) by (apply is_false, neq_num; change (num BACKSLASH) with 92%N; unfold jhex in Hx; lia).
      rewrite E1, E2. unfold jhex in Hx. replace (num x <? 32)%N with false by lia. reflexivity. }
    rewrite (Hx a Ha). cbn [scan1]. rewrite (Hx b Hb). cbn [scan1]. rewrite (Hx c Hc). cbn [scan1]. rewrite (Hx d Hd). exact IH.
Qed.
Lemma scan_jstring st s : st = SOut \/ st = SBrace -> jstring s -> scan st s = SAfter.
Proof.
  intros Hst [t Ht]. rewrite !scan_app. assert (E : scan st [QUOTE] = SStr) by (destruct Hst as [-> | ->]; reflexivity).
  rewrite E, (scan_jchars t Ht). reflexivity.
Qed.
(** the states between values *)
Definition between (st : scan_state) : Prop := st = SOut \/ st = SAfter.
Lemma scan_ws st w : st = SOut \/ st = SAfter \/ st = SBrace -> jws w -> scan st w = st.
Proof.
  intros Hst H. induction H as [|c w Hc _ IH]; [easy|]. unfold scan in *. cbn [fold_left].
  assert (E : scan1 st c = st); [|now rewrite E]. pose proof Hc as Hs. apply sp_spec in Hs.
  destruct Hst as [-> |[-> | ->]]; cbn [scan1]; try now rewrite Hs.
  assert (E1 : is c QUOTE = false) by (apply is_false, neq_num; change (num QUOTE) with 34%N; unfold jspace in Hc; lia).
  assert (E2 : is c LBRACE = false) by (apply is_false, neq_num; change (num LBRACE) with 123%N; unfold jspace in Hc; lia).
  now rewrite E1, E2.
Qed.
Definition dull (c : byte) : Prop := c <> QUOTE /\ c <> LBRACE.
Lemma scan_dull s : Forall dull s -> scan SOut s = SOut.
Proof.
  induction 1 as [|c s [H1 H2] _ IH]; [easy|]. unfold scan in *. cbn [fold_left scan1].
  apply is_false in H1, H2. now rewrite H1, H2.
Qed.
Lemma dull_num c : num c <> 34%N -> num c <> 123%N -> dull c.
Proof. intros H1 H2. split; apply neq_num; [exact H1|exact H2]. Qed.
Lemma dull_digits s : Forall jdigit s -> Forall dull s.
Proof. apply Forall_impl. intros c H. unfold jdigit in H. apply dull_num; lia. Qed.
Lemma dull_number s : jnumber s -> Forall dull s.
Proof.
  intros [sign i f e Hs Hi Hf He]. rewrite !Forall_app. splits.
  - destruct Hs as [<-|[<-|[]]]; repeat constructor; discriminate.
  - destruct Hi as [|c s' Hc Hd]; [repeat constructor; discriminate|]. constructor; [apply dull_num; lia|now apply dull_digits].
  - destruct Hf as [|c s' Hc Hd]; [constructor|]. constructor; [split; discriminate|].
    constructor; [unfold jdigit in Hc; apply dull_num; lia|now apply dull_digits].
  - destruct He as [|x sign' c s' Hx Hsg Hc Hd]; [constructor|]. constructor.
    + destruct Hx as [<-|[<-|[]]]; split; discriminate.
    + apply Forall_app. split; [destruct Hsg as [<-|[<-|[<-|[]]]]; repeat constructor; discriminate|].
      constructor; [unfold jdigit in Hc; apply dull_num; lia|now apply dull_digits].
Qed.

Scheme jvalue_mut := Minimality for jvalue Sort Prop
  with jobject_mut := Minimality for jobject Sort Prop
  with jmember_mut := Minimality for jmember Sort Prop
  with jmembers_mut := Minimality for jmembers Sort Prop
  with jelements_mut := Minimality for jelements Sort Prop.
Combined Scheme json_mut from jvalue_mut, jobject_mut, jmember_mut, jmembers_mut, jelements_mut.

Lemma scan_between st c : between st -> c = COMMA \/ c = COLON \/ c = RBRACE \/ c = "]"%char -> scan st [c] = SOut.
Proof. intros [-> | ->] [-> |[-> |[-> | ->]]]; reflexivity. Qed.
Lemma scan_ws_between st w : between st -> jws w -> scan st w = st.
Proof. intros [-> | ->]; intros; apply scan_ws; auto. Qed.
Lemma scan_json :
  (forall s, jvalue s -> between (scan SOut s))
  /\ (forall s, jobject s -> scan SOut s = SOut)
  /\ (forall s, jmember s -> (between (scan SOut s) /\ between (scan SBrace s)))
  /\ (forall s, jmembers s -> (between (scan SOut s) /\ between (scan SBrace s)))
  /\ (forall s, jelements s -> between (scan SOut s)).
Proof.
  apply json_mut.
  - now left.
  - now left.
  - now left.
  - intros s Hs. right. apply scan_jstring; auto.
  - intros s Hs. left. now apply scan_dull, dull_number.
  - intros s _ Hs. now left.
  - intros w Hw. left. rewrite !scan_app. change (scan SOut (B "[")) with SOut. rewrite (scan_ws SOut w); auto.
  - intros s _ Hs. rewrite !scan_app. change (scan SOut (B "[")) with SOut. left. apply scan_between; auto.
  - intros w Hw. rewrite !scan_app. change (scan SOut [LBRACE]) with SBrace. rewrite (scan_ws SBrace w); auto.
  - intros s _ [_ Hs]. rewrite !scan_app. change (scan SOut [LBRACE]) with SBrace. apply scan_between; auto.
  - intros w1 k w2 w3 v w4 H1 Hk H2 H3 _ Hv H4.
    assert (G : forall st, st = SOut \/ st = SBrace -> between (scan st (w1 ++ k ++ w2 ++ [COLON] ++ w3 ++ v ++ w4))).
    { intros st Hst. rewrite !scan_app. rewrite (scan_ws st w1) by (tauto || auto). rewrite (scan_jstring st k Hst Hk).
      rewrite (scan_ws SAfter w2) by (tauto || auto). change (scan SAfter [COLON]) with SOut.
      rewrite (scan_ws SOut w3) by (tauto || auto). now rewrite scan_ws_between. }
    split; apply G; auto.
  - auto.
  - intros m s _ [Hm1 Hm2] _ [Hs _]. rewrite !scan_app. rewrite !scan_between by auto. auto.
  - intros w1 v w2 H1 _ Hv H2. rewrite !scan_app. rewrite (scan_ws SOut w1) by auto. now rewrite scan_ws_between.
  - intros w1 v w2 s H1 _ Hv H2 _ Hs. rewrite !scan_app. rewrite (scan_ws SOut w1) by auto.
    rewrite (scan_ws_between _ w2 Hv H2), (scan_between _ COMMA Hv) by auto. exact Hs.
Qed.
Lemma scan_line s : json_line s -> scan SOut s = SOut.
Proof. intros (o & Ho & ->). rewrite scan_app. now rewrite (proj1 (proj2 scan_json) o Ho). Qed.

Lemma clean_jchars s : clean s -> jchars s.
Proof. induction 1; [constructor|now apply jc_plain]. Qed.
Lemma clean_app a b : clean a -> clean b -> clean (a ++ b).
Proof. intros. now apply Forall_app. Qed.
Lemma clean_dec n : clean (dec n).
Proof.
  pose proof (dec_value n) as (_ & H & _). unfold clean. induction (dec n) as [|c s IH]; constructor.
  - cbn [map forallb] in H. apply andb_true_iff in H as [H _]. unfold is_digit, in_range in H.
    change (code c) with (num c) in H.
    split; [lia|]. split; apply neq_num; [change (num QUOTE) with 34%N|change (num BACKSLASH) with 92%N]; lia.
  - cbn [map forallb] in H. apply andb_true_iff in H as [_ H]. auto.
Qed.

(** JSON lines *)
Definition json_text (t : bytes) (it : item) : bytes :=
  [LBRACE] ++ quoted (B "level") ++ [COLON] ++ quoted (level_bytes (i_level it))
       ++ [COMMA] ++ quoted (B "time") ++ [COLON] ++ quoted t
       ++ [COMMA] ++ quoted (B "lineno") ++ [COLON]
       ++ quoted (i_file it ++ [COLON] ++ dec (i_line it))
       ++ [COMMA] ++ quoted (B "message") ++ [COLON] ++ quoted (i_msg it)
       ++ match i_kvs it with
          | [] => [RBRACE] ++ CRLF
          | kvs => [COMMA] ++ quoted (B "kvs") ++ [COLON] ++ [LBRACE] ++ json_pairs kvs
                   ++ [RBRACE; RBRACE] ++ CRLF
          end.
Lemma render_json_text fmt layout it s : render_json fmt layout it = Ret s <->
  exists t, shown_time fmt layout it t /\ s = json_text t it.
Proof.
  unfold render_json, time_text, shown_time. destruct (fmt _ _) as [t|]; cbn [obind].
  - split; [intros [= <-]; exists t; auto|]. intros (t' & [= <-] & ->). reflexivity.
  - split; [discriminate|]. intros (t & H & _). discriminate.
Qed.
Lemma json_text_body t it : json_text t it = ([LBRACE] ++ quoted (B "level") ++ [COLON] ++ quoted (level_bytes (i_level it))
       ++ [COMMA] ++ quoted (B "time") ++ [COLON] ++ quoted t
       ++ [COMMA] ++ quoted (B "lineno") ++ [COLON]
       ++ quoted (i_file it ++ [COLON] ++ dec (i_line it))
       ++ [COMMA] ++ quoted (B "message") ++ [COLON] ++ quoted (i_msg it)
       ++ match i_kvs it with
          | [] => [RBRACE]
          | kvs => [COMMA] ++ quoted (B "kvs") ++ [COLON] ++ [LBRACE] ++ json_pairs kvs
                   ++ [RBRACE; RBRACE]
          end) ++ CRLF.
Proof. unfold json_text. rewrite <- !app_assoc. destruct (i_kvs it); rewrite <- ?app_assoc; reflexivity. Qed.

Lemma jws_nil : jws [].
Proof. constructor. Qed.
Lemma member k v : jstring k -> jvalue v -> jmember (k ++ [COLON] ++ v).
Proof.
  intros Hk Hv. pose proof (jm_intro [] k [] [] v [] jws_nil Hk jws_nil jws_nil Hv jws_nil) as H.
  cbn [app] in H. rewrite app_nil_r in H. exact H.
Qed.
Lemma quoted_jstring s : jchars s -> jstring (quoted s).
Proof. intros H. now apply js_intro. Qed.
Lemma str_jchars s : forallb (fun c => (32 <=? num c)%N && negb (is c QUOTE) && negb (is c BACKSLASH)) (B s) = true -> jchars (B s).
Proof.
  intros H. apply clean_jchars. apply Forall_forall. intros c Hc. rewrite forallb_forall in H. apply H in Hc.
  apply andb_true_iff in Hc as [Hc H3]. apply andb_true_iff in Hc as [H1 H2]. apply negb_true_iff in H2, H3.
  apply is_false in H2, H3. split; [lia|auto].
Qed.
Lemma level_jchars l : jchars (level_bytes l).
Proof. destruct l; apply str_jchars; reflexivity. Qed.
Lemma pairs_members kvs : kvs <> [] -> Forall (fun kv => jstring (fst kv) /\ jvalue (snd kv)) kvs -> jmembers (json_pairs kvs).
Proof.
  intros Hne H. induction H as [|[k v] kvs [Hk Hv] Hr IH]; [easy|]. cbn [fst snd] in *.
  destruct kvs as [|kv kvs].
  - apply jms_one. now apply member.
  - change (json_pairs ((k, v) :: kv :: kvs)) with (k ++ [COLON] ++ v ++ [COMMA] ++ json_pairs (kv :: kvs)).
    replace (k ++ [COLON] ++ v ++ [COMMA] ++ json_pairs (kv :: kvs))
      with ((k ++ [COLON] ++ v) ++ [COMMA] ++ json_pairs (kv :: kvs)) by (now rewrite <- !app_assoc).
    apply jms_more; [now apply member|]. now apply IH.
Qed.
Lemma jcons m s : jmember m -> jmembers s -> jmembers (m ++ [COMMA] ++ s).
Proof. apply jms_more. Qed.
Lemma json_good t it : jchars t -> jchars (i_file it ++ [COLON] ++ dec (i_line it)) -> jchars (i_msg it) ->
  Forall (fun kv => jstring (fst kv) /\ jvalue (snd kv)) (i_kvs it) -> json_line (json_text t it).
Proof.
  intros Ht Hf Hm Hk. rewrite json_text_body. eexists. split; [|reflexivity].
  assert (M : forall n s, jchars (B n) -> jchars s -> jmember (quoted (B n) ++ [COLON] ++ quoted s)).
  { intros n s Hn Hs. apply member; [now apply quoted_jstring|now apply jv_string, quoted_jstring]. }
  assert (M1 := M "level"%string _ (str_jchars "level" eq_refl) (level_jchars (i_level it))).
  assert (M2 := M "time"%string _ (str_jchars "time" eq_refl) Ht).
  assert (M3 := M "lineno"%string _ (str_jchars "lineno" eq_refl) Hf).
  assert (M4 := M "message"%string _ (str_jchars "message" eq_refl) Hm).
  set (m1 := quoted (B "level") ++ [COLON] ++ quoted (level_bytes (i_level it))) in *.
  set (m2 := quoted (B "time") ++ [COLON] ++ quoted t) in *.
  set (m3 := quoted (B "lineno") ++ [COLON] ++ quoted (i_file it ++ [COLON] ++ dec (i_line it))) in *.
  set (m4 := quoted (B "message") ++ [COLON] ++ quoted (i_msg it)) in *.
  destruct (i_kvs it) as [|kv kvs] eqn:Ek.
  - assert (E : jobject ([LBRACE] ++ (m1 ++ [COMMA] ++ m2 ++ [COMMA] ++ m3 ++ [COMMA] ++ m4) ++ [RBRACE])).
    { apply jo_members. apply jms_more; [easy|]. apply jms_more; [easy|]. apply jms_more; [easy|]. now apply jms_one. }
    unfold m1, m2, m3, m4 in E. rewrite <- !app_assoc in E. exact E.
  - rewrite <- Ek in *. assert (Hne : i_kvs it <> []) by now rewrite Ek.
    assert (M5 : jmember (quoted (B "kvs") ++ [COLON] ++ ([LBRACE] ++ json_pairs (i_kvs it) ++ [RBRACE]))).
    { apply member; [now apply quoted_jstring, str_jchars|]. apply jv_object, jo_members. now apply pairs_members. }
    set (m5 := quoted (B "kvs") ++ [COLON] ++ ([LBRACE] ++ json_pairs (i_kvs it) ++ [RBRACE])) in *.
    assert (E : jobject ([LBRACE] ++ (m1 ++ [COMMA] ++ m2 ++ [COMMA] ++ m3 ++ [COMMA] ++ m4 ++ [COMMA] ++ m5) ++ [RBRACE])).
    { apply jo_members. do 4 (apply jms_more; [easy|]). now apply jms_one. }
    unfold m1, m2, m3, m4, m5 in E. rewrite <- !app_assoc in E. cbn [app] in E |- *. exact E.
Qed.

Lemma scan_quoted st s : st = SOut \/ st = SBrace -> jchars s -> scan st (quoted s) = SAfter.
Proof. intros Hst Hs. apply scan_jstring; [easy|]. now apply js_intro. Qed.
(** up to the message, with clean time and file *)
Definition json_head (t : bytes) (it : item) : bytes :=
  [LBRACE] ++ quoted (B "level") ++ [COLON] ++ quoted (level_bytes (i_level it))
       ++ [COMMA] ++ quoted (B "time") ++ [COLON] ++ quoted t
       ++ [COMMA] ++ quoted (B "lineno") ++ [COLON]
       ++ quoted (i_file it ++ [COLON] ++ dec (i_line it))
       ++ [COMMA] ++ quoted (B "message") ++ [COLON].
Lemma scan_head t it : jchars t -> jchars (i_file it ++ [COLON] ++ dec (i_line it)) -> scan SOut (json_head t it) = SOut.
Proof.
  intros Ht Hf. unfold json_head. rewrite !(scan_app _ _ (_ ++ _)).
  change (scan SOut [LBRACE]) with SBrace. change (scan SBrace (quoted (B "level"))) with SAfter.
  change (scan SAfter [COLON]) with SOut. rewrite (scan_quoted SOut) by (auto using level_jchars).
  change (scan SAfter [COMMA]) with SOut. change (scan SOut (quoted (B "time"))) with SAfter.
  change (scan SAfter [COLON]) with SOut. rewrite (scan_quoted SOut) by auto.
  change (scan SAfter [COMMA]) with SOut. change (scan SOut (quoted (B "lineno"))) with SAfter.
  change (scan SAfter [COLON]) with SOut. rewrite (scan_quoted SOut) by auto. reflexivity.
Qed.
Lemma json_text_head t it : exists rest, json_text t it = json_head t it ++ quoted (i_msg it) ++ rest
  /\ forall k v kvs, i_kvs it = (k, v) :: kvs -> exists more, rest = [COMMA] ++ quoted (B "kvs") ++ [COLON] ++ [LBRACE] ++ k ++ [COLON] ++ more.
Proof.
  exists (match i_kvs it with
          | [] => [RBRACE] ++ CRLF
          | kvs => [COMMA] ++ quoted (B "kvs") ++ [COLON] ++ [LBRACE] ++ json_pairs kvs
                   ++ [RBRACE; RBRACE] ++ CRLF
          end). split.
  - unfold json_text, json_head. rewrite <- !app_assoc. reflexivity.
  - intros k v kvs ->. destruct kvs as [|kv kvs]; cbn [json_pairs]; eexists; rewrite <- !app_assoc; reflexivity.
Qed.
(** a key that does not start a JSON string (it is written without quotes) *)
Lemma json_bad_key t it k v kvs c k' : jchars t -> jchars (i_file it ++ [COLON] ++ dec (i_line it)) -> jchars (i_msg it) ->
  i_kvs it = (k, v) :: kvs -> k = c :: k' -> ~ jspace c -> c <> QUOTE -> c <> RBRACE -> ~ json_line (json_text t it).
Proof.
  intros Ht Hf Hm Hk Ek H1 H2 H3 Hj. apply scan_line in Hj.
  destruct (json_text_head t it) as (rest & E & Hr). destruct (Hr k v kvs Hk) as (more & ->). subst k.
  rewrite E, scan_app, scan_head in Hj by easy. rewrite !scan_app in Hj. rewrite (scan_quoted SOut) in Hj by auto.
  change (scan SAfter [COMMA]) with SOut in Hj. change (scan SOut (quoted (B "kvs"))) with SAfter in Hj.
  change (scan SAfter [COLON]) with SOut in Hj. change (scan SOut [LBRACE]) with SBrace in Hj.
  assert (E1 : scan SBrace (c :: k') = SFail).
  { unfold scan. cbn [fold_left scan1]. destruct (sp c) eqn:Es; [now apply sp_spec in Es|].
    apply is_false in H2, H3. rewrite H2, H3. apply scan_fail. }
  rewrite E1, !scan_fail in Hj. discriminate.
Qed.
(** a message with a control character, or with a quote not followed by JSON punctuation *)
Lemma json_bad_msg t it a c b : jchars t -> jchars (i_file it ++ [COLON] ++ dec (i_line it)) ->
  i_msg it = a ++ c :: b -> clean a -> (num c < 32)%N -> ~ json_line (json_text t it).
Proof.
  intros Ht Hf Em Ha Hc Hj. apply scan_line in Hj. destruct (json_text_head t it) as (rest & E & _).
  rewrite E, scan_app, scan_head in Hj by easy. unfold quoted in Hj. rewrite Em in Hj. rewrite !scan_app in Hj.
  change (scan SOut [QUOTE]) with SStr in Hj. rewrite (scan_jchars a) in Hj by now apply clean_jchars.
  assert (E1 : scan SStr (c :: b) = SFail).
  { unfold scan. cbn [fold_left scan1].
    assert (E1 : is c QUOTE = false) by (apply is_false, neq_num; change (num QUOTE) with 34%N; lia).
    assert (E2 : is c BACKSLASH = false) by (apply is_false, neq_num; change (num BACKSLASH) with 92%N; lia).
    rewrite E1, E2. replace (num c <? 32)%N with true by lia. apply scan_fail. }
  rewrite E1, !scan_fail in Hj. discriminate.
Qed.
Lemma json_bad_quote t it a c b : jchars t -> jchars (i_file it ++ [COLON] ++ dec (i_line it)) ->
  i_msg it = a ++ QUOTE :: c :: b -> clean a -> ~ jspace c -> ~ In c [COMMA; COLON; RBRACE; "]"%char] ->
  ~ json_line (json_text t it).
Proof.
  intros Ht Hf Em Ha Hs Hn Hj. apply scan_line in Hj. destruct (json_text_head t it) as (rest & E & _).
  rewrite E, scan_app, scan_head in Hj by easy. unfold quoted in Hj. rewrite Em in Hj. rewrite !scan_app in Hj.
  change (scan SOut [QUOTE]) with SStr in Hj. rewrite (scan_jchars a) in Hj by now apply clean_jchars.
  assert (E1 : scan SStr (QUOTE :: c :: b) = SFail).
  { unfold scan. cbn [fold_left]. change (scan1 SStr QUOTE) with SAfter. cbn [scan1].
    destruct (sp c) eqn:Es; [now apply sp_spec in Es|].
    assert (F : forall d, In d [COMMA; COLON; RBRACE; "]"%char] -> is c d = false).
    { intros d Hd. apply is_false. intros ->. contradiction. }
    rewrite (F COMMA), (F COLON), (F RBRACE), (F "]"%char) by (cbn; auto). apply scan_fail. }
  rewrite E1, !scan_fail in Hj. discriminate.
Qed.

(** lines *)
Lemma json_pairs_in c kvs : c <> COLON -> c <> COMMA ->
  (In c (json_pairs kvs) <-> exists k v, In (k, v) kvs /\ (In c k \/ In c v)).
Proof.
  intros H1 H2. induction kvs as [|[k v] kvs IH]; [split; [easy|intros (k & v & [] & _)]|].
  assert (E : In c (json_pairs ((k, v) :: kvs)) <-> (In c k \/ In c v) \/ In c (json_pairs kvs)).
  { destruct kvs as [|kv kvs].
    - change (json_pairs [(k, v)]) with (k ++ [COLON] ++ v). cbn [json_pairs]. rewrite ?in_app_iff. cbn [In].
      assert (COLON <> c) by congruence. assert (COMMA <> c) by congruence. tauto.
    - change (json_pairs ((k, v) :: kv :: kvs)) with (k ++ [COLON] ++ v ++ [COMMA] ++ json_pairs (kv :: kvs)).
      rewrite ?in_app_iff. cbn [In]. assert (COLON <> c) by congruence. assert (COMMA <> c) by congruence. tauto. }
  rewrite E, IH. split.
  - intros [H|(k' & v' & Hi & H)]; [exists k, v; split; [now left|easy]|exists k', v'; split; [now right|easy]].
  - intros (k' & v' & [E0|Hi] & Hkv); [injection E0 as -> ->; now left|right; eauto].
Qed.

(** which bytes occur in a line before its end *)
Lemma no_lf_dec n : ~ In LF (dec n).
Proof. intros H. pose proof (clean_dec n) as Hc. unfold clean in Hc. rewrite Forall_forall in Hc. apply Hc in H as [H _]. revert H. vm_compute. now intros. Qed.
Lemma no_lf_B s : forallb (fun c => negb (is c LF)) (B s) = true -> ~ In LF (B s).
Proof. intros H Hi. rewrite forallb_forall in H. apply H in Hi. apply negb_true_iff, is_false in Hi. easy. Qed.
Lemma no_lf_level l : ~ In LF (level_bytes l).
Proof. destruct l; apply no_lf_B; reflexivity. Qed.
Lemma in_quoted s : In LF (quoted s) <-> In LF s.
Proof. unfold quoted. rewrite !in_app_iff. cbn [In]. assert (QUOTE <> LF) by discriminate. tauto. Qed.
Lemma in_parts t it : Exists (In LF) (parts t it) <->
  In LF t \/ In LF (i_file it) \/ In LF (i_msg it) \/ exists k v, In (k, v) (i_kvs it) /\ (In LF k \/ In LF v).
Proof.
  unfold parts. rewrite !Exists_cons. assert (E : Exists (In LF) (flat_map (fun kv => [fst kv; snd kv]) (i_kvs it)) <->
    exists k v, In (k, v) (i_kvs it) /\ (In LF k \/ In LF v)); [|tauto].
  rewrite Exists_exists. split.
  - intros (x & Hx & Hl). apply in_flat_map in Hx as ([k v] & Hi & [<-|[<-|[]]]); exists k, v; auto.
  - intros (k & v & Hi & [H|H]); [exists k|exists v]; (split; [|easy]); apply in_flat_map; exists (k, v); cbn; auto.
Qed.
Lemma json_lf t it : exists body, json_text t it = body ++ CRLF /\ (In LF body <-> Exists (In LF) (parts t it)).
Proof.
  rewrite json_text_body. eexists. split; [reflexivity|]. rewrite in_parts.
  pose proof (no_lf_level (i_level it)) as HL. pose proof (no_lf_dec (i_line it)) as HD.
  assert (Q : forall s, forallb (fun c => negb (is c LF)) (B s) = true -> ~ In LF (quoted (B s))).
  { intros s Hs. rewrite in_quoted. now apply no_lf_B. }
  pose proof (Q "level"%string eq_refl). pose proof (Q "time"%string eq_refl). pose proof (Q "lineno"%string eq_refl).
  pose proof (Q "message"%string eq_refl). pose proof (Q "kvs"%string eq_refl).
  assert (One : forall c, c <> LF -> ~ In LF [c]) by (intros c Hc [E|[]]; congruence).
  pose proof (One LBRACE ltac:(discriminate)). pose proof (One RBRACE ltac:(discriminate)).
  pose proof (One COLON ltac:(discriminate)). pose proof (One COMMA ltac:(discriminate)).
  assert (Two : ~ In LF [RBRACE; RBRACE]) by (intros [E|[E|[]]]; discriminate).
  destruct (i_kvs it) as [|kv kvs] eqn:Ek.
  - rewrite !in_app_iff, !in_quoted, !in_app_iff. rewrite !in_quoted in *.
    assert (Hno : ~ exists k v, In (k, v) (@nil (bytes * bytes)) /\ (In LF k \/ In LF v)) by (intros (k & v & [] & _)).
    tauto.
  - rewrite !in_app_iff, (json_pairs_in LF) by discriminate. rewrite !in_quoted, !in_app_iff. rewrite !in_quoted in *. tauto.
Qed.

(** colours *)
Lemma un_app a b c d : uncoloured a c -> uncoloured b d -> uncoloured (a ++ b) (c ++ d).
Proof.
  induction 1 as [|x s t Hx _ IH|p s t Hp _ IH]; intros Hb; [easy|cbn; apply un_byte; auto|].
  rewrite <- !app_assoc. apply un_sequence; auto.
Qed.
Lemma un_plain s : ~ In ESC s -> uncoloured s s.
Proof.
  induction s as [|c s IH]; intros H; [constructor|]. apply un_byte; [intros ->; apply H; now left|].
  apply IH. intros Hi. apply H. now right.
Qed.
Lemma un_seq p : Forall param p -> uncoloured ([ESC] ++ B "[" ++ p ++ B "m") [].
Proof. intros H. exact (un_sequence p [] [] H un_nil). Qed.
Lemma dec_param n : Forall param (dec n).
Proof.
  pose proof (dec_value n) as (_ & H & _). induction (dec n) as [|c s IH]; constructor.
  - cbn [map forallb] in H. apply andb_true_iff in H as [H _]. unfold is_digit, in_range in H.
    change (code c) with (num c) in H. left. unfold jdigit. lia.
  - cbn [map forallb] in H. apply andb_true_iff in H as [_ H]. auto.
Qed.
Lemma param_B s : forallb (fun c => ((48 <=? num c)%N && (num c <=? 57)%N) || is c ";"%char) (B s) = true -> Forall param (B s).
Proof.
  intros H. apply Forall_forall. intros c Hc. rewrite forallb_forall in H. apply H in Hc.
  apply orb_true_iff in Hc as [Hc|Hc]; [left; unfold jdigit; lia|right; now apply is_true].
Qed.
Lemma un_color s c : ~ In ESC s -> uncoloured (with_color s c) s.
Proof.
  intros H. unfold with_color. destruct c as [c|]; [|now apply un_plain]. destruct (is_block c); [now apply un_plain|].
  assert (E1 : uncoloured ([ESC] ++ B "[" ++ (B "38;2;" ++ dec (c_r c) ++ B ";" ++ dec (c_g c) ++ B ";" ++ dec (c_b c)) ++ B "m") []).
  { apply un_seq. rewrite !Forall_app. pose proof (param_B "38;2;" eq_refl). pose proof (param_B ";" eq_refl).
    pose proof (dec_param (c_r c)). pose proof (dec_param (c_g c)). pose proof (dec_param (c_b c)). tauto. }
  assert (E2 : uncoloured ([ESC] ++ B "[0m") []).
  { apply (un_seq (B "0")). now apply param_B. }
  pose proof (un_app _ _ _ _ E1 (un_app _ _ _ _ (un_plain s H) E2)) as E. cbn [app] in E. rewrite app_nil_r in E.
  rewrite <- !app_assoc in E. exact E.
Qed.

Definition color_text (scheme : color_scheme) (t : bytes) (it : item) : bytes :=
  let lv := match cs_levels scheme with Some c => level_color c (i_level it) | None => None end in
  with_color (B "[" ++ level_bytes (i_level it) ++ B "]") lv ++ B " "
       ++ with_color t (cs_time scheme) ++ B " " ++ B "("
       ++ with_color (i_file it) (cs_file scheme) ++ B ":"
       ++ with_color (dec (i_line it)) (cs_line scheme) ++ B ") "
       ++ with_color (i_msg it) lv
       ++ match i_kvs it with
          | [] => CRLF
          | kvs => B " { " ++ color_pairs (cs_key scheme) lv kvs ++ B " }" ++ CRLF
          end.
Lemma render_color_text fmt scheme layout it s : render_color fmt scheme layout it = Ret s <->
  exists t, shown_time fmt layout it t /\ s = color_text scheme t it.
Proof.
  unfold render_color, time_text, shown_time. destruct (fmt _ _) as [t|]; cbn [obind].
  - split; [intros [= <-]; exists t; auto|]. intros (t' & [= <-] & ->). reflexivity.
  - split; [discriminate|]. intros (t & H & _). discriminate.
Qed.
Lemma no_esc_B s : forallb (fun c => negb (is c ESC)) (B s) = true -> ~ In ESC (B s).
Proof. intros H Hi. rewrite forallb_forall in H. apply H in Hi. apply negb_true_iff, is_false in Hi. easy. Qed.
Lemma un_B s : forallb (fun c => negb (is c ESC)) (B s) = true -> uncoloured (B s) (B s).
Proof. intros H. now apply un_plain, no_esc_B. Qed.
Lemma no_esc_dec n : ~ In ESC (dec n).
Proof. intros H. pose proof (clean_dec n) as Hc. unfold clean in Hc. rewrite Forall_forall in Hc. apply Hc in H as [H _]. revert H. vm_compute. now intros. Qed.
Lemma un_pairs key lv kvs : Forall (fun kv : bytes * bytes => ~ In ESC (fst kv) /\ ~ In ESC (snd kv)) kvs ->
  uncoloured (color_pairs key lv kvs) (color_pairs None None kvs).
Proof.
  induction 1 as [|[k v] kvs [Hk Hv] _ IH]; [constructor|]. cbn [fst snd] in *. destruct kvs as [|kv kvs].
  - cbn [color_pairs]. apply un_app; [now apply un_color|]. apply un_app; [now apply un_B|now apply un_color].
  - change (color_pairs key lv ((k, v) :: kv :: kvs)) with
      (with_color k key ++ B ": " ++ with_color v lv ++ B " , " ++ color_pairs key lv (kv :: kvs)).
    change (color_pairs None None ((k, v) :: kv :: kvs)) with
      (with_color k None ++ B ": " ++ with_color v None ++ B " , " ++ color_pairs None None (kv :: kvs)).
    apply un_app; [now apply un_color|]. apply un_app; [now apply un_B|]. apply un_app; [now apply un_color|].
    apply un_app; [now apply un_B|easy].
Qed.
Lemma un_text scheme t it : Forall (fun p : bytes => ~ In ESC p) (parts t it) ->
  uncoloured (color_text scheme t it) (color_text no_colours t it).
Proof.
  intros H. inversion H as [|? ? Ht H1]; subst. inversion H1 as [|? ? Hf H2]; subst. inversion H2 as [|? ? Hm Hk]; subst.
  unfold color_text. cbn [no_colours cs_levels cs_time cs_file cs_line cs_key].
  set (lv := match cs_levels scheme with Some c => level_color c (i_level it) | None => None end). cbv zeta.
  assert (W : forall x : bytes, with_color x None = x) by reflexivity. rewrite !W.
  apply un_app.
  { apply un_color. rewrite !in_app_iff. pose proof (no_esc_B "[" eq_refl). pose proof (no_esc_B "]" eq_refl).
    assert (~ In ESC (level_bytes (i_level it))) by (destruct (i_level it); apply no_esc_B; reflexivity). tauto. }
  apply un_app; [now apply un_B|]. apply un_app; [now apply un_color|]. apply un_app; [now apply un_B|].
  apply un_app; [now apply un_B|]. apply un_app; [now apply un_color|]. apply un_app; [now apply un_B|].
  apply un_app; [apply un_color, no_esc_dec|]. apply un_app; [now apply un_B|]. apply un_app; [now apply un_color|].
  assert (C : uncoloured CRLF CRLF) by (apply un_plain; intros [E|[E|[]]]; discriminate).
  destruct (i_kvs it) as [|kv kvs] eqn:Ek; [exact C|]. rewrite <- Ek in *.
  apply un_app; [now apply un_B|]. apply un_app; [|apply un_app; [now apply un_B|exact C]].
  apply un_pairs. apply Forall_forall. intros [k v] Hi. rewrite Forall_forall in Hk. cbn [fst snd].
  split; apply Hk, in_flat_map; exists (k, v); cbn; auto.
Qed.
Lemma uncoloured_fun a b : uncoloured a b -> forall c, uncoloured a c -> b = c.
Proof.
  assert (P : forall p p' s s', Forall param p -> Forall param p' -> p ++ B "m" ++ s = p' ++ B "m" ++ s' -> s = s').
  { assert (Hm : ~ param "m"%char) by (intros [[H H']|H]; [revert H'; vm_compute; now intros H'|discriminate]).
    induction p as [|x p IH]; intros [|y p'] s s' Hp Hp' E; cbn [app] in E.
    - now injection E.
    - exfalso. inversion Hp'; subst. injection E as E _. subst. contradiction.
    - exfalso. inversion Hp; subst. injection E as E _. subst. contradiction.
    - inversion Hp; subst. inversion Hp'; subst. injection E as _ E. eapply IH; eassumption. }
  induction 1 as [|x s t Hx _ IH|p s t Hp _ IH]; intros c Hc.
  - now inversion Hc.
  - inversion Hc as [|? ? ? ? Hc'|p' s' t' Hp' Hc' E]; subst; [f_equal; auto|]. contradiction.
  - remember ([ESC] ++ B "[" ++ p ++ B "m" ++ s) as z eqn:Ez. destruct Hc as [|x s0 t0 Hx Hc'|p' s' t' Hp' Hc'].
    + discriminate.
    + injection Ez as Ez _. congruence.
    + cbn [app] in Ez. injection Ez as Ez. apply P in Ez; [|easy|easy]. subst. auto.
Qed.

Lemma lf_color s c : In LF (with_color s c) <-> In LF s.
Proof.
  unfold with_color. destruct c as [c|]; [|easy]. destruct (is_block c); [easy|]. rewrite !in_app_iff.
  assert (O : forall x, forallb (fun c => negb (is c LF)) (B x) = true -> ~ In LF (B x)) by (intros; now apply no_lf_B).
  pose proof (O "[38;2;"%string eq_refl). pose proof (O ";"%string eq_refl). pose proof (O "m"%string eq_refl).
  pose proof (O "[0m"%string eq_refl). pose proof (no_lf_dec (c_r c)). pose proof (no_lf_dec (c_g c)). pose proof (no_lf_dec (c_b c)).
  assert (~ In LF [ESC]) by (intros [E|[]]; discriminate). tauto.
Qed.
Lemma lf_pairs key lv kvs : In LF (color_pairs key lv kvs) <-> exists k v, In (k, v) kvs /\ (In LF k \/ In LF v).
Proof.
  assert (O : forall x, forallb (fun c => negb (is c LF)) (B x) = true -> ~ In LF (B x)) by (intros; now apply no_lf_B).
  pose proof (O ": "%string eq_refl) as O1. pose proof (O " , "%string eq_refl) as O2.
  induction kvs as [|[k v] kvs IH]; [split; [easy|intros (k & v & [] & _)]|].
  assert (E : In LF (color_pairs key lv ((k, v) :: kvs)) <-> (In LF k \/ In LF v) \/ In LF (color_pairs key lv kvs)).
  { destruct kvs as [|kv kvs].
    - cbn [color_pairs]. rewrite !in_app_iff, !lf_color. cbn [In]. tauto.
    - change (color_pairs key lv ((k, v) :: kv :: kvs)) with
      (with_color k key ++ B ": " ++ with_color v lv ++ B " , " ++ color_pairs key lv (kv :: kvs)).
      rewrite !in_app_iff, !lf_color. tauto. }
  rewrite E, IH. split.
  - intros [H|(k' & v' & Hi & H)]; [exists k, v; split; [now left|easy]|exists k', v'; split; [now right|easy]].
  - intros (k' & v' & [E0|Hi] & Hkv); [injection E0 as -> ->; now left|right; eauto].
Qed.
Lemma color_lf scheme t it : exists body, color_text scheme t it = body ++ CRLF /\ (In LF body <-> Exists (In LF) (parts t it)).
Proof.
  unfold color_text. set (lv := match cs_levels scheme with Some c => level_color c (i_level it) | None => None end). cbv zeta.
  exists (with_color (B "[" ++ level_bytes (i_level it) ++ B "]") lv ++ B " "
       ++ with_color t (cs_time scheme) ++ B " " ++ B "("
       ++ with_color (i_file it) (cs_file scheme) ++ B ":"
       ++ with_color (dec (i_line it)) (cs_line scheme) ++ B ") "
       ++ with_color (i_msg it) lv
       ++ match i_kvs it with
          | [] => []
          | kvs => B " { " ++ color_pairs (cs_key scheme) lv kvs ++ B " }"
          end). split.
  - rewrite <- !app_assoc. destruct (i_kvs it); rewrite <- ?app_assoc; reflexivity.
  - rewrite in_parts. rewrite !in_app_iff, !lf_color, !in_app_iff.
    assert (O : forall x, forallb (fun c => negb (is c LF)) (B x) = true -> ~ In LF (B x)) by (intros; now apply no_lf_B).
    pose proof (O " "%string eq_refl). pose proof (O "("%string eq_refl). pose proof (O ":"%string eq_refl).
    pose proof (O ") "%string eq_refl). pose proof (O "["%string eq_refl). pose proof (O "]"%string eq_refl).
    pose proof (O " { "%string eq_refl). pose proof (O " }"%string eq_refl).
    pose proof (no_lf_level (i_level it)). pose proof (no_lf_dec (i_line it)).
    destruct (i_kvs it) as [|kv kvs].
    + assert (Hno : ~ exists k v, In (k, v) (@nil (bytes * bytes)) /\ (In LF k \/ In LF v)) by (intros (k & v & [] & _)).
      cbn [In]. tauto.
    + rewrite !in_app_iff, lf_pairs. tauto.
Qed.

(** in terms of the renderers *)
Lemma rendered_lf fmt r it s : render fmt r it = Ret s ->
  exists t body, shown_time fmt (r_timelayout r) it t /\ s = body ++ CRLF /\ (In LF body <-> Exists (In LF) (parts t it)).
Proof.
  unfold render. destruct (r_kind r); intros H.
  - apply render_color_text in H as (t & Ht & ->). destruct (color_lf scheme_default t it) as (body & H1 & H2). eauto.
  - apply render_json_text in H as (t & Ht & ->). destruct (json_lf t it) as (body & H1 & H2). eauto.
Qed.
Lemma one_line fmt r it s : render fmt r it = Ret s ->
  Forall (fun p : bytes => ~ In LF p) (i_file it :: i_msg it :: flat_map (fun kv => [fst kv; snd kv]) (i_kvs it)) ->
  (forall t, shown_time fmt (r_timelayout r) it t -> ~ In LF t) ->
  exists body, s = body ++ CRLF /\ ~ In LF body.
Proof.
  intros Hr H Ht. apply rendered_lf in Hr as (t & body & Hs & -> & E). exists body. split; [easy|]. rewrite E.
  intros Hx. unfold parts in Hx. rewrite Exists_cons in Hx. destruct Hx as [Hx|Hx]; [now apply (Ht t)|].
  rewrite Exists_exists in Hx. destruct Hx as (p & Hp & Hl). rewrite Forall_forall in H. now apply (H p).
Qed.
Lemma many_lines fmt r it s p : render fmt r it = Ret s ->
  In p (i_file it :: i_msg it :: flat_map (fun kv => [fst kv; snd kv]) (i_kvs it)) -> In LF p ->
  exists body, s = body ++ CRLF /\ In LF body.
Proof.
  intros Hr Hp Hl. apply rendered_lf in Hr as (t & body & Hs & -> & E). exists body. split; [easy|]. rewrite E.
  apply Exists_exists. exists p. split; [now right|easy].
Qed.

(** ** C98 *)
Lemma json_pairs_joined kvs : json_pairs kvs = joined [COMMA] (map (fun kv => fst kv ++ [COLON] ++ snd kv) kvs).
Proof.
  induction kvs as [|[k v] kvs IH]; [reflexivity|]. cbn [json_pairs map joined fst snd].
  destruct kvs as [|q kvs]; [reflexivity|]. cbn [map] in *. rewrite IH, <- !app_assoc. reflexivity.
Qed.
Lemma level_same l : level_bytes l = level_text l.
Proof. destruct l; reflexivity. Qed.
Lemma json_shown t it : json_text t it = shown_json t it ++ CRLF.
Proof.
  unfold json_text, shown_json, shown_members. rewrite level_same. change in_quotes with quoted. destruct (i_kvs it) as [|q kvs]; rewrite ?json_pairs_joined;
  cbn [map joined app fst snd]; repeat (cbn [app] || rewrite <- app_assoc || f_equal).
Qed.
Lemma painted_same s c : with_color s c = painted c s.
Proof.
  destruct c as [[r g b]|]; [|reflexivity]. unfold with_color, is_block, painted. cbn [c_r c_g c_b joined].
  destruct r as [|r]; [|now rewrite <- !app_assoc]. destruct g as [|g]; [|now rewrite <- !app_assoc].
  destruct b as [|[b|b|]]; cbn [N.eqb andb Pos.eqb]; rewrite <- ?app_assoc; reflexivity.
Qed.
Lemma color_pairs_joined key lv kvs : color_pairs key lv kvs
  = joined (B " , ") (map (fun kv => painted key (fst kv) ++ B ": " ++ painted lv (snd kv)) kvs).
Proof.
  induction kvs as [|[k v] kvs IH]; [reflexivity|]. cbn [color_pairs map joined fst snd].
  destruct kvs as [|q kvs]; [now rewrite !painted_same|]. cbn [map] in *. rewrite IH, !painted_same, <- !app_assoc. reflexivity.
Qed.
Lemma color_shown scheme t it : color_text scheme t it = shown_coloured scheme t it ++ CRLF.
Proof.
  unfold color_text, shown_coloured. rewrite level_same, !painted_same.
  replace (match cs_levels scheme with Some c => level_color c (i_level it) | None => None end) with (level_paint scheme (i_level it)) by reflexivity.
  destruct (i_kvs it) as [|q kvs]; rewrite ?color_pairs_joined;
  cbn [joined app]; repeat (cbn [app] || rewrite <- app_assoc || f_equal).
Qed.
Lemma rendered_shown fmt r it :
  (forall t, shown_time fmt (r_timelayout r) it t ->
     render fmt r it = Ret ((match r_kind r with Json => shown_json t it | Colorful => shown_coloured usual_colours t it end) ++ CRLF))
  /\ ((forall t, ~ shown_time fmt (r_timelayout r) it t) -> render fmt r it = Panic).
Proof.
  split.
  - intros t H. unfold render. destruct (r_kind r).
    + apply render_color_text. exists t. split; [exact H|]. symmetry. apply color_shown.
    + apply render_json_text. exists t. split; [exact H|]. symmetry. apply json_shown.
  - intros H. unfold render, render_json, render_color, time_text, shown_time in *.
    destruct (fmt (i_time it) _) as [t|]; [now destruct (H t)|]. now destruct (r_kind r).
Qed.
