(** What is logged about requests. *)
From Verif Require Export S_Trace F_Got F_Text F_LogStart F_Render F_Item.
From Coq Require Import Lia.

(** ** where records go *)
Lemma write_to_fst k buf : forall l ws, write_to k buf l = Ret ws -> map fst ws = l.
Proof.
  induction l as [|i l IH]; intros ws; cbn [write_to]; [now intros [= <-]|].
  destruct (get_unchecked _ i); try discriminate. cbn [obind].
  destruct (write_to k buf l) as [ws'| | | |]; try discriminate. cbn [obind]. intros [= <-]. cbn. f_equal. now apply IH.
Qed.
Lemma write_each_fst k arm bufs : forall l ws, write_each k arm bufs l = Ret ws -> map fst ws = l.
Proof.
  induction l as [|i l IH]; intros ws; cbn [write_each]; [now intros [= <-]|].
  destruct (get_unchecked arm i) as [r| | | |]; try discriminate. cbn [obind].
  destruct (get_unchecked bufs r); try discriminate. cbn [obind].
  destruct (get_unchecked (k_appenders k) i); try discriminate. cbn [obind].
  destruct (write_each k arm bufs l) as [ws'| | | |]; try discriminate. cbn [obind]. intros [= <-]. cbn. f_equal. now apply IH.
Qed.
Lemma consume_fst fmt k it bufs ws bufs' : routed k -> consume fmt k it bufs = Ret (ws, bufs') ->
  map fst ws = the_targets k it.
Proof.
  intros Hr. unfold consume. destruct (length (k_renderers k) =? 1).
  - unfold consume_single. rewrite targets_ok by easy. cbn [obind].
    destruct (the_targets k it) as [|i l]; [now intros [= <- _]|].
    destruct (get_unchecked (k_renderers k) 0) as [r| | | |]; try discriminate. cbn [obind].
    destruct (get_unchecked bufs 0) as [b| | | |]; try discriminate. cbn [obind].
    destruct (render fmt r it) as [t| | | |]; try discriminate. cbn [obind].
    destruct (write_to k t (i :: l)) as [ws0| | | |] eqn:E; try discriminate. cbn [obind]. intros [= <- _].
    now apply write_to_fst in E.
  - unfold comsume. rewrite targets_ok by easy. cbn [obind].
    destruct (the_targets k it) as [|i l]; [now intros [= <- _]|].
    destruct (lookup_renderers k (i :: l) []) as [q| | | |]; try discriminate. cbn [obind].
    destruct (render_all fmt k it (snd q) bufs) as [b| | | |]; try discriminate. cbn [obind].
    destruct (write_each k (fst q) b (i :: l)) as [ws0| | | |] eqn:E; try discriminate. cbn [obind]. intros [= <- _].
    now apply write_each_fst in E.
Qed.
Lemma consume_in fmt k it bufs ws bufs' i : routed k -> consume fmt k it bufs = Ret (ws, bufs') ->
  ((exists b, In (i, b) ws) <-> exists a, nth_error (k_appenders k) i = Some a /\ belongs a it).
Proof.
  intros Hr E. rewrite <- targets_spec by easy. rewrite <- (consume_fst _ _ _ _ _ _ Hr E), in_map_iff. split.
  - intros (b & H). now exists (i, b).
  - intros ([j b] & <- & H). now exists b.
Qed.

(** the root's records are not in a service's log *)
Lemma root_only u no w arg c lv k e : world_ok w -> load_config w arg = Some c ->
  config_logging u no w c = Ret (Some (lv, k)) -> In e (c_services c) ->
  forall it, i_service it = 0%N ->
  forall fmt bufs ws bufs', consume fmt k it bufs = Ret (ws, bufs') -> ~ in_log_of k (s_idx (snd e)) ws.
Proof.
  intros Hw Hl Hc He it Hit fmt bufs ws bufs' E (i & b & a & Hi & Ha & Hs).
  destruct (config_logging_inv _ _ _ _ _ _ _ Hw Hl Hc) as (_ & _ & _ & _ & _ & _ & _ & Hr).
  destruct (proj1 (consume_in _ _ _ _ _ _ i Hr E)) as (a' & Ha' & Hb & _); [now exists b|].
  assert (a' = a) as -> by congruence.
  destruct (indices w arg c Hw Hl) as (_ & Hf & _). rewrite Forall_forall in Hf. apply Hf in He. lia.
Qed.

(** ** the calls *)
Section Trace.
Variable K : codec.
Notation message := (message K).

Definition line_call (req : message) : log_call :=
  hello_call 41 (fl0 req ++ [SP] ++ fl1 req ++ [SP] ++ version_debug (version_of (fl2 req))) [].
Definition from_call (addr : bytes) (idx : nat) : log_call :=
  hello_call 39 (B "Request From " ++ addr) [(B "service", index_value idx)].

Lemma body_call_ret idx (b : body K) : exists c, body_call idx b = Ret c
  /\ shows_body (match b_internal b with Some s => s | None => [] end) (call_msg c)
  /\ call_level c = Trace /\ call_file c = hello_file
  /\ (call_kvs c = [(B "service", index_value idx)] \/ call_kvs c = [] /\ call_msg c = B "EmptyBody").
Proof.
  unfold body_call, body_is_empty, body_size, body_inner. destruct (b_internal b) as [s|]; [|eexists; split; [reflexivity|]].
  - destruct s as [|x s].
    { eexists. split; [reflexivity|]. splits; auto. left; auto. }
    cbn [length Nat.eqb obind]. eexists. split; [reflexivity|].
    destruct (utf8_decode (x :: s)) as [cs|] eqn:E; cbn [call_msg call_level call_kvs call_file hello_call].
    + splits; auto. right; left. splits; auto; [discriminate|]. exists cs. now apply utf8_exact.
    + splits; auto. right; right. split; [|now rewrite dec_shown]. intros (cs & H). apply utf8_exact in H. congruence.
  - cbn. splits; auto. left; auto.
Qed.

Lemma each_calls idx : forall l acc,
  visit (header_calls idx) l acc
  = acc ++ concat (map (fun e => map (fun v => hello_call 44 (fst e ++ B ": " ++ v) [(B "service", index_value idx)]) (snd e)) l).
Proof.
  induction l as [|[k vs] l IH]; intros acc; cbn [visit map concat]; [now rewrite app_nil_r|].
  unfold header_calls at 1 2 3. cbn [fst snd]. rewrite IH, <- app_assoc. reflexivity.
Qed.
Definition value_calls (idx : nat) (l : list entry) : list log_call :=
  concat (map (fun e => map (fun v => hello_call 44 (fst e ++ B ": " ++ v) [(B "service", index_value idx)]) (snd e)) l).
Lemma each_ret {S} ho m (f : S -> bytes -> list bytes -> S * bool) s : wf m -> exists x, mm_each ho m f s = Ret x.
Proof.
  unfold wf, mm_each. destruct (mm_ismap m); [|eauto]. intros (_ & mp & -> & _). eauto.
Qed.
Lemma each_inv {S} ho m (f : S -> bytes -> list bytes -> S * bool) s x : mm_each ho m f s = Ret x ->
  exists l, x = visit f l s /\ (order_ok ho -> forall e, In e l -> In e (content m)).
Proof.
  unfold mm_each, content. destruct (mm_ismap m).
  - destruct (mm_map m) as [mp|]; [|discriminate]. intros [= <-]. exists (ho mp). rewrite each_list_visit. split; [reflexivity|].
    intros Hho e. apply Permutation_in, Hho.
  - intros [= <-]. exists (mm_vec m). rewrite each_list_visit. auto.
Qed.

(** the calls for a request *)
Lemma calls_inv addr idx ho (req : message) calls : hello_calls addr idx ho req = Ret calls ->
  exists l b, calls = from_call addr idx :: line_call req :: value_calls idx l ++ [b]
    /\ body_call idx (mbody req) = Ret b
    /\ (order_ok ho -> forall e, In e l -> In e (content (headers req))).
Proof.
  unfold hello_calls. destruct (mm_each ho (headers req) (header_calls idx) []) as [x| | | |] eqn:E; try discriminate.
  cbn [obind]. destruct (body_call idx (mbody req)) as [b| | | |] eqn:Eb; try discriminate. cbn [obind]. intros [= <-].
  apply each_inv in E as (l & -> & Hl). exists l, b. rewrite each_calls. auto.
Qed.
Lemma calls_ret addr idx ho (req : message) : wf (headers req) ->
  exists calls, hello_calls addr idx ho req = Ret calls.
Proof.
  intros Hw. destruct (each_ret ho (headers req) (header_calls idx) [] Hw) as (x & E).
  destruct (body_call_ret idx (mbody req)) as (b & Eb & _). unfold hello_calls. rewrite E. cbn [obind]. rewrite Eb. cbn [obind]. eexists. reflexivity.
Qed.

(** the service of a record *)
Lemma item_service t file line lv msg idx :
  i_service (item_of (record_of t (LogCall file line lv msg [(B "service", index_value idx)]))) = N.of_nat idx.
Proof. reflexivity. Qed.
Lemma in_value_calls idx l c : In c (value_calls idx l) ->
  exists k vs v, In (k, vs) l /\ In v vs /\ c = hello_call 44 (k ++ B ": " ++ v) [(B "service", index_value idx)].
Proof.
  unfold value_calls. intros H. apply in_concat in H as (x & Hx & Hc). apply in_map_iff in Hx as ([k vs] & <- & Hi).
  apply in_map_iff in Hc as (v & <- & Hv). eauto 8.
Qed.
Lemma calls_service addr idx ho (req : message) calls c : hello_calls addr idx ho req = Ret calls -> In c calls ->
  call_level c = Trace /\ call_file c = hello_file
  /\ (call_kvs c = [(B "service", index_value idx)]
      \/ call_kvs c = [] /\ (c = line_call req \/ call_msg c = B "EmptyBody")).
Proof.
  intros E Hi. apply calls_inv in E as (l & b & -> & Eb & _).
  destruct Hi as [<-|[<-|Hi]]; [split; [reflexivity|split; [reflexivity|left; reflexivity]]|split; [reflexivity|split; [reflexivity|right; split; [reflexivity|left; reflexivity]]]|].
  apply in_app_or in Hi as [Hi|[<-|[]]].
  - apply in_value_calls in Hi as (k & vs & v & _ & _ & ->). split; [reflexivity|split; [reflexivity|left; reflexivity]].
  - destruct (body_call_ret idx (mbody req)) as (b' & Eb' & _ & H1 & H2 & H3).
    assert (b' = b) as -> by congruence. splits; auto. destruct H3 as [H3|[H3 H4]]; auto.
Qed.

(** ** C109 *)
Section Places.
Variables (u : unicode) (no : list str -> list str) (w : world) (arg : str) (c : config) (lv : level) (k : consumer).
Variable e : str * service_config.
Hypothesis (Hw : world_ok w) (Hl : load_config w arg = Some c).
Hypothesis (Hc : config_logging u no w c = Ret (Some (lv, k))) (He : In e (c_services c)).

Lemma request_line_root addr ho (req : message) calls : hello_calls addr (s_idx (snd e)) ho req = Ret calls ->
  exists call v, In call calls /\ call_msg call = fl0 req ++ [SP] ++ fl1 req ++ [SP] ++ v
  /\ forall fmt t bufs ws bufs', consume fmt k (item_of (record_of t call)) bufs = Ret (ws, bufs') ->
     ~ in_log_of k (s_idx (snd e)) ws.
Proof.
  intros E. apply calls_inv in E as (l & b & -> & _). exists (line_call req), (version_debug (version_of (fl2 req))).
  splits; [right; left; reflexivity|reflexivity|]. intros fmt t bufs ws bufs'.
  eapply (root_only u no w arg c lv k e); eauto.
Qed.
Lemma empty_body_root addr ho (req : message) calls : hello_calls addr (s_idx (snd e)) ho req = Ret calls ->
  b_internal (mbody req) = Some [] ->
  exists call, In call calls /\ call_msg call = B "EmptyBody"
  /\ forall fmt t bufs ws bufs', consume fmt k (item_of (record_of t call)) bufs = Ret (ws, bufs') ->
     ~ in_log_of k (s_idx (snd e)) ws.
Proof.
  intros E Hb. apply calls_inv in E as (l & b & -> & Eb & _). unfold body_call, body_is_empty, body_size in Eb.
  rewrite Hb in Eb. injection Eb as <-. eexists. splits; [right; right; apply in_or_app; right; left; reflexivity|reflexivity|].
  intros fmt t bufs ws bufs'. eapply (root_only u no w arg c lv k e); eauto.
Qed.
Lemma failures_root name addr err line what call :
  In call [send_failed_call err; handle_failed_call name err; service_failed_call line err; connection_call line what name addr] ->
  forall fmt t bufs ws bufs', consume fmt k (item_of (record_of t call)) bufs = Ret (ws, bufs') ->
  ~ in_log_of k (s_idx (snd e)) ws.
Proof.
  intros Hi fmt t bufs ws bufs'. eapply (root_only u no w arg c lv k e); eauto.
  cbn in Hi. decompose [or] Hi; subst; easy.
Qed.
Lemma others_own addr ho (req : message) calls call : hello_calls addr (s_idx (snd e)) ho req = Ret calls -> In call calls ->
  (forall v, call_msg call <> fl0 req ++ [SP] ++ fl1 req ++ [SP] ++ v) -> call_msg call <> B "EmptyBody" ->
  forall fmt t bufs ws bufs', consume fmt k (item_of (record_of t call)) bufs = Ret (ws, bufs') ->
  forall i, (exists b, In (i, b) ws) <->
    exists a, nth_error (k_appenders k) i = Some a /\ a_service a = s_idx (snd e) /\ filter_accepts (a_filter a) Trace = true.
Proof.
  intros E Hi H1 H2 fmt t bufs ws bufs' Ec i.
  destruct (config_logging_inv _ _ _ _ _ _ _ Hw Hl Hc) as (_ & _ & _ & _ & _ & _ & _ & Hr).
  rewrite (consume_in _ _ _ _ _ _ i Hr Ec).
  destruct (calls_service _ _ _ _ _ _ E Hi) as (L1 & L2 & [L3|[L3 [->|L4]]]).
  - assert (Ei : i_service (item_of (record_of t call)) = N.of_nat (s_idx (snd e)) /\ i_level (item_of (record_of t call)) = Trace).
    { destruct call as [f ln lv' m kvs]. cbn [call_kvs call_level] in *. subst. auto. }
    destruct Ei as [Ei1 Ei2]. unfold belongs. rewrite Ei1, Ei2.
    split; intros (a & Ha & Hs & Hf); exists a; splits; auto; lia.
  - exfalso. eapply H1. reflexivity.
  - contradiction.
Qed.
End Places.

(** ** C110 *)
Definition holds (m s : bytes) : Prop := exists a b, s = a ++ m ++ b.
Lemma holds_l m x s : holds m s -> holds m (x ++ s).
Proof. intros (a & b & ->). exists (x ++ a), b. now rewrite app_assoc. Qed.
Lemma holds_r m x s : holds m s -> holds m (s ++ x).
Proof. intros (a & b & ->). exists a, (b ++ x). now rewrite !app_assoc. Qed.
Lemma holds_refl m : holds m m.
Proof. exists [], []. now rewrite app_nil_r. Qed.
Lemma ret_inj {A} (a b : A) : Ret a = Ret b -> a = b.
Proof. congruence. Qed.
Lemma in_rendered fmt r it s : render fmt r it = Ret s -> holds (i_msg it) s.
Proof.
  unfold render. destruct (r_kind r).
  - unfold render_color. destruct (time_text fmt (r_timelayout r) it) as [t| | | |]; try discriminate. cbn [obind]. intros H. apply ret_inj in H as <-.
    do 9 apply holds_l. apply holds_r. unfold with_color. 
    match goal with |- context [match ?x with Some _ => _ | None => _ end] => destruct x as [c|] end; [|apply holds_refl].
    destruct (is_block c); [apply holds_refl|]. do 8 apply holds_l. apply holds_r, holds_refl.
  - unfold render_json. destruct (time_text fmt (r_timelayout r) it) as [t| | | |]; try discriminate. cbn [obind]. intros H. apply ret_inj in H as <-.
    do 15 apply holds_l. apply holds_r. unfold quoted. apply holds_l, holds_r, holds_refl.
Qed.

Lemma forged : forall fuel cfg caps ho (svc : service K) q suffix r w line addr idx,
  (1 <= h_max_headers_count cfg)%N -> (forall k, 0 < caps k)%N -> enough fuel r ->
  request_ok cfg q -> flat r = request_wire q ++ suffix ->
  utf8_text line -> rq_body q = CRLF ++ line ++ CRLF ->
  exists req d log calls call, cr_log (serve fuel cfg caps ho svc r w) = (req, d) :: log
    /\ hello_calls addr idx ho req = Ret calls /\ In call calls
    /\ forall fmt rd t s, render fmt rd (item_of (record_of t call)) = Ret s -> own_line line s.
Proof.
  intros fuel cfg caps ho svc q suffix r w line addr idx Hc Hcap Hf Hq Hr (cs & Hcs & Ht) Hb.
  destruct (first_request K fuel cfg caps ho svc q suffix r w Hc Hcap Hf Hq Hr) as (req & d & log & El & Hh & Eb).
  assert (Hi : In (req, d) (cr_log (serve fuel cfg caps ho svc r w))) by (rewrite El; now left).
  destruct (logged_head K _ _ _ _ _ _ _ _ _ Hi) as (_ & _ & _ & Hw & _).
  destruct (calls_ret addr idx ho req Hw) as (calls & Ec). exists req, d, log, calls.
  pose proof (calls_inv _ _ _ _ _ Ec) as (l & b & -> & Ebc & _).
  exists b. splits; auto; [right; right; apply in_or_app; right; now left|].
  assert (Hm : call_msg b = B "PrintableBody:" ++ CRLF ++ rule ++ CRLF ++ (CRLF ++ line ++ CRLF) ++ CRLF ++ rule).
  { unfold body_call, body_is_empty, body_size, body_inner in Ebc. rewrite Eb in Ebc. cbn [b_internal] in Ebc.
    rewrite Hb in Ebc.
    assert (Hu : utf8_decode (CRLF ++ line ++ CRLF) = Some ([13; 10] ++ cs ++ [13; 10])%N).
    { apply utf8_exact. split.
      - assert (Hcr : Forall scalar [13; 10]%N) by (constructor; [left; lia|constructor; [left; lia|constructor]]).
        rewrite !Forall_app. auto.
      - unfold utf8. rewrite !map_app, !concat_app. rewrite Ht. reflexivity. }
    change (length (CRLF ++ line ++ CRLF) =? 0) with false in Ebc. cbv iota beta in Ebc. cbn [obind] in Ebc.
    rewrite Hu in Ebc. apply ret_inj in Ebc as <-. reflexivity. }
  intros fmt rd t s Hs. apply in_rendered in Hs as (x & y & ->).
  assert (Em : i_msg (item_of (record_of t b)) = call_msg b).
  { unfold item_of, record_of. cbn [lr_kvs lr_msg]. destruct (visit_all (call_kvs b) [] 0%N). reflexivity. }
  rewrite Em, Hm.
  exists (x ++ B "PrintableBody:" ++ CRLF ++ rule ++ CRLF), (CRLF ++ rule ++ y).
  rewrite <- !app_assoc. reflexivity.
Qed.

Lemma vchar_no_lf s : Forall vchar s -> ~ In LF s.
Proof. intros H Hi. rewrite Forall_forall in H. apply H in Hi. unfold vchar in Hi. cbn in Hi. lia. Qed.
Lemma printable_no_lf s : forallb is_printable s = true -> ~ In LF s.
Proof. intros H Hi. rewrite forallb_forall in H. apply H in Hi. discriminate. Qed.
Ltac nolf := repeat match goal with
  | |- ~ In LF (_ ++ _) => let H := fresh in intros H; apply in_app_or in H as [H|H]; revert H
  | |- In LF (_ ++ _) -> False => let H := fresh in intros H; apply in_app_or in H as [H|H]; revert H
  end.
Lemma version_no_lf v : ~ In LF (version_debug v).
Proof.
  destruct v as [[a b]|]; cbn [version_debug]; nolf; try (intros H; cbn in H; intuition discriminate);
    apply printable_no_lf, dec_printable.
Qed.

Lemma one_line_calls : forall fuel cfg caps ho (svc : service K) r w req d addr idx calls call, order_ok ho ->
  In (req, d) (cr_log (serve fuel cfg caps ho svc r w)) -> ~ In LF addr ->
  hello_calls addr idx ho req = Ret calls -> In call calls ->
  (exists body, b_internal (mbody req) = Some body /\ body <> [] /\ utf8_text body
     /\ call_msg call = B "PrintableBody:" ++ CRLF ++ rule ++ CRLF ++ body ++ CRLF ++ rule)
  \/ forall fmt rd t s, (forall x, shown_time fmt (r_timelayout rd) (item_of (record_of t call)) x -> ~ In LF x) ->
     render fmt rd (item_of (record_of t call)) = Ret s -> exists l, s = l ++ CRLF /\ ~ In LF l.
Proof.
  intros fuel cfg caps ho svc r w req d addr idx calls call Hho Hi Ha E Hc.
  apply logged_head in Hi as ((A0 & _) & (A1 & _) & _ & Hw & He).
  pose proof (calls_service _ _ _ _ _ _ E Hc) as (_ & Hf & Hk).
  assert (G : ~ In LF (call_msg call) -> forall fmt rd t s,
    (forall x, shown_time fmt (r_timelayout rd) (item_of (record_of t call)) x -> ~ In LF x) ->
     render fmt rd (item_of (record_of t call)) = Ret s -> exists l, s = l ++ CRLF /\ ~ In LF l).
  { intros Hm fmt rd t s Ht Hs. eapply one_line; eauto.
    destruct call as [f ln lv m kvs]. cbn [call_kvs call_msg call_file] in *. subst f.
    assert (Ek : i_kvs (item_of (record_of t (LogCall hello_file ln lv m kvs))) = []
      /\ i_msg (item_of (record_of t (LogCall hello_file ln lv m kvs))) = m
      /\ i_file (item_of (record_of t (LogCall hello_file ln lv m kvs))) = hello_file).
    { destruct Hk as [->|[-> _]]; auto. }
    destruct Ek as (-> & -> & ->). cbn [flat_map]. repeat constructor; auto.
    intros H; cbn in H; intuition discriminate. }
  apply calls_inv in E as (l & b & -> & Eb & Hl). destruct Hc as [<-|[<-|Hc]].
  - right. apply G. cbn [call_msg from_call hello_call]. nolf; [|exact Ha]. intros H; cbn in H; intuition discriminate.
  - right. apply G. cbn [call_msg line_call hello_call]. nolf; try now apply vchar_no_lf.
    + intros H; cbn in H; intuition discriminate.
    + intros H; cbn in H; intuition discriminate.
    + apply version_no_lf.
  - apply in_app_or in Hc as [Hc|[<-|[]]].
    + apply in_value_calls in Hc as (k & vs & v & H1 & H2 & ->). right. apply G. cbn [call_msg hello_call].
      apply (Hl Hho) in H1. apply He in H1 as [[H3 _] H4]. rewrite Forall_forall in H4. apply H4 in H2 as [H5 _].
      nolf; try now apply vchar_no_lf. intros H; cbn in H; intuition discriminate.
    + destruct (body_call_ret idx (mbody req)) as (b' & Eb' & Hsb & _).
      assert (b' = b) as -> by congruence. destruct Hsb as [[_ Hm]|[(H1 & H2 & H3)|[_ Hm]]].
      * right. apply G. rewrite Hm. intros H; cbn in H; intuition discriminate.
      * left. destruct (b_internal (mbody req)) as [s|]; [|contradiction]. exists s. auto.
      * right. apply G. rewrite Hm, <- dec_shown. nolf; [|apply printable_no_lf, dec_printable].
        intros H; cbn in H; intuition discriminate.
Qed.

(** ** C111 *)
Lemma run_lower fs : forall a k, lower k <> k -> (a k = None) -> a_run (fields_added fs) a k = None.
Proof.
  induction fs as [|f fs IH]; intros a k Hk Ha; [exact Ha|].
  change (a_run (fields_added (f :: fs)) a) with (a_run (fields_added fs) (a_step a (OAppend (lower (fst f)) (strip (snd f))))).
  apply IH; [exact Hk|].
  cbn [a_step]. unfold a_update. destruct (bytes_same k (lower (fst f))) as [E|E]; [|exact Ha]. exfalso. apply Hk. rewrite E.
  apply lower_idem.
Qed.
Lemma table_grouped ho m ls h idx : order_ok ho -> table_of ls h -> same m h -> Forall named_line ls ->
  exists l, grouped (all_fields ls) l /\ mm_each ho m (header_calls idx) [] = Ret (visit (header_calls idx) l []).
Proof.
  intros Hho Ht Hs Hn. pose proof (named_fields ls Hn) as Hf. unfold table_of in Ht.
  assert (Hc : S_MultiMap.clean (fields_added (all_fields ls))).
  { unfold fields_added, S_MultiMap.clean. apply Forall_map. eapply Forall_impl; [|exact Hf]. intros f H. cbn.
    split; [now apply lower_nonempty|easy]. }
  destruct (clean_run (fun l => l) _ _ (fun l => Permutation_refl l) Hc Ht) as (Hok & Hv).
  destruct (each_spec ho h (header_calls idx) Hho Hok) as (l & H1 & H2 & H3).
  exists l. split; [|rewrite (same_each ho m h); auto].
  split; [exact H1|]. intros k vs. rewrite H2, Hv.
  destruct (bytes_same (lower k) k) as [E|E].
  - rewrite <- E at 1. change (fields_added (all_fields ls)) with (map field_op (all_fields ls)). rewrite a_run_fields.
    unfold a_empty. split.
    + destruct (values_of k (all_fields ls)) as [|v vs'] eqn:Ev; [discriminate|]. intros [= <-]. splits; auto. discriminate.
    + intros (_ & -> & Hne). destruct vs; [contradiction|reflexivity].
  - rewrite run_lower by (auto; reflexivity). split; [discriminate|tauto].
Qed.

Lemma sgot_traced addr idx ho q (req : message) : order_ok ho -> wf (headers req) -> sgot K q req ->
  exists calls before, hello_calls addr idx ho req = Ret calls /\ traced addr before q (map call_msg calls).
Proof.
  intros Hho Hw [(M0 & M1 & M2 & _ & Hb) (h & Ht & Hs)].
  destruct (calls_ret addr idx ho req Hw) as (calls & E). exists calls.
  assert (Hex : exists before, g_body q <> [] -> b_internal (mbody req) = Some (before ++ g_body q)).
  { destruct (g_body q) as [|x s]; [exists []; easy|]. destruct Hb as (before & Hb); [easy|]. eauto. }
  destruct Hex as (before & Hbody). exists before. split; [exact E|].
  unfold hello_calls in E. destruct (mm_each ho (headers req) (header_calls idx) []) as [hs| | | |] eqn:Eh; try discriminate.
  cbn [obind] in E. destruct (body_call idx (mbody req)) as [b| | | |] eqn:Eb; try discriminate. cbn [obind] in E.
  injection E as <-. cbn [map call_msg hello_call]. rewrite map_app. cbn [map]. rewrite M0, M1.
  eexists _, _, _. split; [reflexivity|]. split.
  - intros Hn. destruct (table_grouped ho _ _ _ idx Hho Ht Hs Hn) as (l & Hl & El). exists l. split; [exact Hl|].
    rewrite El in Eh. injection Eh as <-. rewrite each_calls. cbn [app]. unfold header_texts. rewrite concat_map, map_map.
    f_equal. apply map_ext. intros [k vs]. cbn [fst snd]. rewrite map_map. reflexivity.
  - intros Hne. destruct (body_call_ret idx (mbody req)) as (b' & Eb' & Hsb & _).
    assert (b' = b) as -> by congruence. rewrite (Hbody Hne) in Hsb. exact Hsb.
Qed.

Lemma all_traced : forall fuel cfg caps ho (svc : service K) r w addr idx, order_ok ho ->
  (forall k, 0 < caps k)%N -> enough fuel r ->
  exists qs rest, requests_at (fin r) cfg (flat r) qs rest
    /\ Forall2 (fun q req => exists calls before, hello_calls addr idx ho req = Ret calls
                             /\ traced addr before q (map call_msg calls))
         qs (map fst (cr_log (serve fuel cfg caps ho svc r w))).
Proof.
  intros fuel cfg caps ho svc r w addr idx Hho Hcap Hf.
  destruct (tables_from_stream K fuel cfg caps ho svc r w Hcap Hf) as (qs & rest & H1 & H2).
  exists qs, rest. split; [exact H1|].
  assert (Hl : forall req, In req (map fst (cr_log (serve fuel cfg caps ho svc r w))) -> wf (headers req)).
  { intros req Hi. apply in_map_iff in Hi as ([req' d] & <- & Hi). now apply logged_head in Hi. }
  clear H1. revert Hl. induction H2 as [|q req qs' l Hq _ IH]; intros Hl; constructor; auto.
  - apply sgot_traced; auto. apply Hl. now left.
  - apply IH. intros x Hx. apply Hl. now right.
Qed.

Lemma bodies_shown : forall fuel cfg caps ho qs r w addr idx,
  (1 <= h_max_headers_count cfg)%N -> (forall k, 0 < caps k)%N -> enough fuel r ->
  Forall (request_ok cfg) qs -> (forall v, In v (versions qs) -> ~ zero_major v) ->
  w_budget w = None -> flat r = wires qs ->
  length (cr_log (serve fuel cfg caps ho (@hello_http K) r w)) = length qs /\
  forall k req d, nth_error (cr_log (serve fuel cfg caps ho (@hello_http K) r w)) k = Some (req, d) ->
  exists calls b, hello_calls addr idx ho req = Ret (calls ++ [b])
    /\ shows_body (concat (map rq_body (firstn (S k) qs))) (call_msg b).
Proof.
  intros fuel cfg caps ho qs r w addr idx Hc Hcap Hf Hq Hv Hw Hr.
  destruct (bodies_accumulate K fuel cfg caps ho hello_http qs r w Hc Hcap Hf Hq (hello_answers_major K ho _ Hv)
    (hello_leaves K) Hw Hr) as (H1 & H2).
  split; [exact H1|]. intros k req d Hn. pose proof (H2 k req d Hn) as Hb. apply nth_error_In in Hn.
  apply logged_head in Hn as (_ & _ & _ & Hwf & _).
  destruct (calls_ret addr idx ho req Hwf) as (calls & E). pose proof (calls_inv _ _ _ _ _ E) as (l & b & -> & Eb & _).
  eexists (_ :: _ :: _), b. split; [exact E|].
  destruct (body_call_ret idx (mbody req)) as (b' & Eb' & Hsb & _).
  assert (b' = b) as -> by congruence. rewrite Hb in Hsb. exact Hsb.
Qed.

Lemma version_shown addr idx ho (req : message) calls name major minor a : hello_calls addr idx ho req = Ret calls ->
  fl2 req = version_text name major minor -> lower name = B "http" -> numeral major a -> (a < 256)%N ->
  exists call, nth_error calls 1 = Some call
    /\ call_msg call = fl0 req ++ [SP] ++ fl1 req ++ [SP] ++ B "Ok((" ++ shown a ++ B ", " ++ shown a ++ B "))".
Proof.
  intros E Hv Hn Hm Ha. apply calls_inv in E as (l & b & -> & _). eexists. split; [reflexivity|].
  unfold line_call. cbn [call_msg hello_call]. rewrite Hv.
  rewrite (proj2 (version_of_exact (version_text name major minor) a a)).
  - cbn [version_debug]. now rewrite !dec_shown.
  - split; [reflexivity|]. exists name, major, minor. splits; auto.
Qed.
Lemma quiet max addr idx ho (req : message) calls : hello_calls addr idx ho req = Ret calls -> max <> Trace ->
  enabled_calls max calls = [].
Proof.
  intros E Hm. assert (H : forall c, In c calls -> call_level c = Trace).
  { intros c Hi. now apply (calls_service _ _ _ _ _ _ E) in Hi. }
  clear E. induction calls as [|c calls IH]; [reflexivity|]. cbn [enabled_calls filter].
  rewrite (H c) by now left. destruct max; try contradiction; cbn; apply IH; intros; apply H; now right.
Qed.
End Trace.
