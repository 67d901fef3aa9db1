(** The built-in services, exactly. *)
From Verif Require Export F_Extend.

(** ** versions (C22) *)
Lemma no_in_forallb c s : ~ In c s -> forallb (fun y => negb (Ascii.eqb c y)) s = true.
Proof.
  intros H. apply forallb_forall. intros y Hy. apply negb_true_iff, Ascii.eqb_neq. intros <-. auto.
Qed.
Lemma version_of_exact s a b : version_of s = Some (a, b) <->
  b = a /\ exists name major minor, s = version_text name major minor
    /\ lower name = B "http"
    /\ (a < 256)%N /\ (numeral major a \/ exists t, major = PLUS :: t /\ numeral t a).
Proof.
  unfold version_of, version_text. split.
  - destruct (position (Ascii.eqb SLASH) s) as [i|] eqn:Ei; [|easy].
    apply position_some in Ei as (n & x & rest & Hs & Hi & Hx & Hn). apply Ascii.eqb_eq in Hx. subst x.
    subst s i. rewrite firstn_app, Nat.sub_diag, firstn_all. cbn [firstn]. rewrite app_nil_r.
    destruct (eq_ignore_case n (B "http")) eqn:Ec; [|easy]. cbn [negb].
    rewrite skipn_app, skipn_all2 by lia. replace (length n + 1 - length n) with 1 by lia. cbn [skipn app].
    destruct (position (Ascii.eqb DOT) rest) as [j|] eqn:Ej; [|easy].
    apply position_some in Ej as (m & x & minor & Hs & Hj & Hx & Hm). apply Ascii.eqb_eq in Hx. subst x.
    subst rest j. rewrite firstn_app, Nat.sub_diag, firstn_all. cbn [firstn]. rewrite app_nil_r.
    destruct (parse_uint_b u8max m) as [v|] eqn:Ep; [|easy]. intros [= <- <-]. split; [reflexivity|].
    exists n, m, minor. apply parse_numeral in Ep as [Hle Hp]. change u8max with 255%N in Hle. splits.
    + reflexivity.
    + unfold eq_ignore_case in Ec. now apply bytes_eqb_eq in Ec.
    + lia.
    + exact Hp.
  - intros (-> & name & major & minor & -> & Hl & Ha & Hp).
    assert (Hn : ~ In SLASH name).
    { intros Hin. apply (in_map to_lower) in Hin. unfold lower in Hl. rewrite Hl in Hin.
      cbn in Hin. repeat destruct Hin as [Hin|Hin]; try discriminate Hin. exact Hin. }
    assert (Hm : ~ In DOT major).
    { intros Hin. assert (~ digit DOT) by (unfold digit; vm_compute; intros [H _]; now apply H).
      destruct Hp as [(_ & Hp & _)|(t & -> & (_ & Hp & _))]; rewrite Forall_forall in Hp.
      - auto.
      - destruct Hin as [Hin|Hin]; [discriminate Hin|auto]. }
    assert (Hpa : parse_uint_b u8max major = Some a).
    { destruct Hp as [Hp|(t & -> & Hp)].
      - apply numeral_parse; [exact Hp|]. change u8max with 255%N. lia.
      - apply parse_uint_spec. exists (map code t). destruct Hp as (H1 & H2 & H3). splits.
        + now right.
        + destruct t; [congruence|discriminate].
        + now apply digits_bool.
        + now rewrite <- decimal_dvalue.
        + change u8max with 255%N. lia. }
    change (B "/") with [SLASH]. change (B ".") with [DOT]. cbn [app].
    rewrite position_app; [|now apply no_in_forallb|reflexivity].
    rewrite firstn_app, Nat.sub_diag, firstn_all. cbn [firstn]. rewrite app_nil_r.
    assert (eq_ignore_case name (B "http") = true) as ->.
    { unfold eq_ignore_case. apply bytes_eqb_eq. now rewrite Hl. }
    cbn [negb]. rewrite skipn_app, skipn_all2 by lia. replace (length name + 1 - length name) with 1 by lia.
    cbn [skipn app]. rewrite position_app; [|now apply no_in_forallb|reflexivity].
    rewrite firstn_app, Nat.sub_diag, firstn_all. cbn [firstn]. rewrite app_nil_r, Hpa. reflexivity.
Qed.

Lemma minor_lost name major minor a b : lower name = B "http" ->
  numeral major a -> (a < 256)%N -> numeral minor b -> (b < 256)%N -> a <> b ->
  version_of (version_text name major minor) = Some (a, a)
  /\ version_of (version_text name major minor) <> Some (a, b).
Proof.
  intros Hl Ha Ha2 Hb Hb2 Hne.
  assert (H : version_of (version_text name major minor) = Some (a, a)).
  { apply version_of_exact. split; [reflexivity|]. exists name, major, minor. auto. }
  split; [exact H|]. rewrite H. intros [= E]. contradiction.
Qed.

Section Hello.
Variable K : codec.
Notation message := (message K).

Definition HW : bytes := B "Hello world!".
Definition hellos (n : nat) : bytes := concat (repeat HW n).
Lemma hellos_S n : hellos n ++ HW = hellos (S n).
Proof.
  unfold hellos. induction n as [|n IH]; [reflexivity|].
  cbn [repeat concat] in *. rewrite <- app_assoc, IH. reflexivity.
Qed.

(** the response to the (n+1)-th request *)
Definition hello_status (version : bytes) : bytes :=
  B "HTTP/1.1"
  ++ match version_of version with
     | Some (a, b) => B "HTTP/" ++ dec a ++ B "." ++ dec b
     | None => []
     end ++ B " 200 OK".
Definition hello_response (version : bytes) (n : nat) : bytes :=
  response (hello_status version)
    [(B "server", B "httpd.rs"); (B "content-length", dec (N.of_nat (length (hellos (S n)))))]
    (hellos (S n)).

(** the response message between requests *)
Definition idle (n : nat) (resp : message) : Prop :=
  fl0 resp = [] /\ fl1 resp = [] /\ fl2 resp = []
  /\ mm_ismap (headers resp) = false /\ mm_vec (headers resp) = []
  /\ mbody resp = Body (Some (hellos n)) None.

Definition keeps (version : bytes) : bool :=
  match version_of version with Some (a, b) => (1 <=? a)%N && (1 <=? b)%N | None => true end.

Lemma idle_body n (resp : message) : idle n resp -> mbody resp = Body (Some (hellos n)) None.
Proof. intros H. apply H. Qed.

Lemma hello_step ho req (resp : message) n : idle n resp ->
  exists resp3 resp4, hello_http req resp = Ret (Some (Current (keeps (fl2 req))), req, resp3)
    /\ usable (mbody resp3)
    /\ serialize ho resp3 = Ret (Some (hello_response (fl2 req) n), resp4)
    /\ idle (S n) (msg_clear resp4).
Proof.
  intros (H0 & H1 & H2 & H3 & H4 & H5).
  destruct resp as [f0 f1 f2 [ism vec mp] bd]. cbn [fl0 fl1 fl2 headers mbody mm_ismap mm_vec] in *. subst.
  unfold hello_http, req_version, keeps, hello_response, hello_status.
  unfold rw_header, rw_code, rw_version, with_headers. cbn [headers fl0 fl1 fl2 mbody].
  unfold mm_append. cbn [mm_ismap mm_vec mm_map length Nat.leb vec_find_or_empty position obind app].
  assert (Hs : forall f0 f1 f2, exists resp4,
    serialize ho (Msg f0 f1 f2 (MM false [(B "server", [B "httpd.rs"])] mp)
       (@Body K (Some (hellos (S n))) None))
    = Ret (Some (response (f0 ++ [SP] ++ f1 ++ [SP] ++ f2)
        [(B "server", B "httpd.rs"); (B "content-length", dec (N.of_nat (length (hellos (S n)))))]
        (hellos (S n))), resp4) /\ idle (S n) (msg_clear resp4)).
  { intros f0 f1 f2. unfold serialize. cbn [fl0 fl1 fl2 mbody body_end b_cw headers].
    unfold body_size. cbn [b_internal].
    unfold mm_set. cbn [mm_ismap mm_vec].
    change (vec_find_or_empty [(B "server", [B "httpd.rs"])] (B "content-length")) with (@None nat).
    cbv iota. cbn [obind app mm_map].
    unfold mm_each. cbn [mm_ismap mm_vec each_list header_visitor map concat obind].
    change (Nat.ltb 0 (length (hellos (S n)))) with true. cbv iota.
    unfold body_inner. cbn [b_internal obind]. eexists. split.
    - unfold response. cbn [map concat]. unfold response_line, header_line. cbn [fst snd].
      do 2 f_equal. f_equal. rewrite <- ?app_assoc, ?app_nil_r, ?app_nil_l. cbn [app].
      rewrite <- ?app_assoc. cbn [app]. rewrite <- ?app_assoc. reflexivity.
    - unfold idle, msg_clear. cbn. splits; reflexivity. }
  destruct (version_of (fl2 req)) as [[a b]|].
  - unfold with_body. cbn [mbody body_write_all_to_internal b_internal obind b_cw fl0 fl1 fl2 headers].
    rewrite hellos_S.
    match goal with |- context [Msg ?a ?b ?c _ _] =>
      destruct (Hs a b c) as (resp4 & E1 & E2) end. eexists _, resp4. split; [reflexivity|].
    split; [left; discriminate|]. rewrite E1. split; [|exact E2].
    do 3 f_equal.
  - unfold with_body. cbn [mbody body_write_all_to_internal b_internal obind b_cw fl0 fl1 fl2 headers].
    rewrite hellos_S.
    match goal with |- context [Msg ?a ?b ?c _ _] =>
      destruct (Hs a b c) as (resp4 & E1 & E2) end. eexists _, resp4. split; [reflexivity|].
    split; [left; discriminate|]. rewrite E1. split; [|exact E2].
    do 3 f_equal.
Qed.

(** every response of a HelloWorld connection *)
Definition hello_log (log : list (message * option bytes)) : Prop :=
  forall k req d, nth_error log k = Some (req, d) -> d = Some (hello_response (fl2 req) k).
Lemma hello_log_snoc log req : hello_log log ->
  hello_log (log ++ [(req, Some (hello_response (fl2 req) (length log)))]).
Proof.
  intros H k q d E. destruct (Nat.ltb_spec k (length log)) as [Hk|Hk].
  - rewrite nth_error_app1 in E by lia. eauto.
  - rewrite nth_error_app2 in E by lia. destruct (k - length log) as [|j] eqn:Ej.
    + cbn in E. injection E as <- <-. now replace k with (length log) by lia.
    + destruct j; discriminate E.
Qed.
Lemma hello_loop fuel : forall inner cfg caps ho k r w req (resp : message) log,
  idle (length log) resp -> hello_log log ->
  hello_log (cr_log (serve_loop fuel inner cfg caps ho hello_http k r w req resp log)).
Proof.
  induction fuel as [|f IH]; intros inner cfg caps ho k r w req resp log Hi Hl; [exact Hl|].
  cbn [serve_loop].
  destruct (read_headers inner cfg r req) as [[[c req1] r1]| | | |]; try exact Hl.
  destruct c; try exact Hl.
  destruct (read_const_length_body inner (caps k) r1 req1) as [[[c req2] r2]| | | |]; try exact Hl.
  destruct c; try exact Hl.
  destruct (hello_step ho req2 _ _ Hi) as (resp3 & resp4 & E1 & _ & E2 & E3).
  rewrite E1, E2. cbn [end_of].
  assert (Hl2 := hello_log_snoc log req2 Hl).
  destruct (w_write _ w) as [w' ok]. destruct ok; [|exact Hl2].
  destruct (keeps (fl2 req2)); cbn [negb]; [|exact Hl2].
  apply IH; [|exact Hl2]. rewrite app_length, Nat.add_comm. exact E3.
Qed.
Lemma idle_default : idle 0 (@msg_default K).
Proof. unfold idle. cbn. splits; reflexivity. Qed.
Lemma hello_serves fuel cfg caps ho r w :
  hello_log (cr_log (serve fuel cfg caps ho (@hello_http K) r w)).
Proof.
  apply hello_loop; [exact idle_default|]. intros [|k] q d; discriminate.
Qed.

(** ** what a file system service answers *)
Definition fs_response : bytes :=
  response [SP; SP] [(B "content-length", B "0")] [].
Definition hushed (resp : message) : Prop :=
  fl0 resp = [] /\ fl1 resp = [] /\ fl2 resp = []
  /\ mm_ismap (headers resp) = false /\ mm_vec (headers resp) = []
  /\ mbody resp = Body (Some []) None.
Lemma fs_step ho (resp : message) : hushed resp ->
  exists resp4, serialize ho resp = Ret (Some fs_response, resp4) /\ hushed (msg_clear resp4).
Proof.
  intros (H0 & H1 & H2 & H3 & H4 & H5).
  destruct resp as [f0 f1 f2 [ism vec mp] bd]. cbn [fl0 fl1 fl2 headers mbody mm_ismap mm_vec] in *. subst.
  eexists. split; [reflexivity|]. unfold hushed. cbn. splits; reflexivity.
Qed.
Definition fs_log (log : list (message * option bytes)) : Prop :=
  Forall (fun p => snd p = Some fs_response) log.
Lemma fs_loop fuel : forall inner cfg caps ho k r w req (resp : message) log,
  hushed resp -> fs_log log ->
  fs_log (cr_log (serve_loop fuel inner cfg caps ho fs_http k r w req resp log)).
Proof.
  induction fuel as [|f IH]; intros inner cfg caps ho k r w req resp log Hi Hl; [exact Hl|].
  cbn [serve_loop].
  destruct (read_headers inner cfg r req) as [[[c req1] r1]| | | |]; try exact Hl.
  destruct c; try exact Hl.
  destruct (read_const_length_body inner (caps k) r1 req1) as [[[c req2] r2]| | | |]; try exact Hl.
  destruct c; try exact Hl.
  unfold fs_http at 1. destruct (fs_step ho _ Hi) as (resp4 & E2 & E3). rewrite E2.
  assert (Hl2 : fs_log (log ++ [(req2, Some fs_response)])).
  { apply Forall_app. split; [exact Hl|]. now constructor. }
  destruct (w_write _ w) as [w' ok]. destruct ok; [|exact Hl2]. cbn [negb].
  apply IH; [exact E3|exact Hl2].
Qed.
Lemma fs_serves fuel cfg caps ho r w :
  fs_log (cr_log (serve fuel cfg caps ho (@fs_http K) r w)).
Proof. apply fs_loop; [|constructor]. unfold hushed. cbn. splits; reflexivity. Qed.

(** ** C18: the built-in responses frame their bodies *)
Lemma one_lineb s : forallb (fun c => negb (Ascii.eqb c CR) && negb (Ascii.eqb c LF)) s = true -> one_line s.
Proof.
  intros H. rewrite forallb_forall in H. split; intros Hi; apply H in Hi; discriminate Hi.
Qed.
Lemma printable_one_line s : forallb is_printable s = true -> one_line s.
Proof.
  intros H. rewrite forallb_forall in H. split; intros Hi; apply H in Hi; discriminate Hi.
Qed.
Lemma hello_status_printable v : forallb is_printable (hello_status v) = true.
Proof.
  unfold hello_status. rewrite !forallb_app. destruct (version_of v) as [[a b]|]; [|reflexivity].
  rewrite !forallb_app, !dec_printable. reflexivity.
Qed.
Lemma hello_truthful v n : truthful (hello_response v n).
Proof.
  unfold truthful, hello_response. eexists _, _, _. split; [reflexivity|]. splits.
  - apply printable_one_line, hello_status_printable.
  - repeat constructor; cbn [fst snd].
    all: try (apply printable_one_line; try apply dec_printable; reflexivity).
    all: try (intros Hc; apply (fun c => in_map N_of_ascii _ c) in Hc; vm_compute in Hc;
              repeat destruct Hc as [Hc|Hc]; try discriminate Hc; exact Hc).
  - exists (B "content-length"), (dec (N.of_nat (length (hellos (S n))))). split; [reflexivity|].
    apply numeral_dec.
Qed.
Lemma fs_truthful : truthful fs_response.
Proof.
  unfold truthful, fs_response. eexists _, _, _. split; [reflexivity|]. splits.
  - now apply printable_one_line.
  - repeat constructor; cbn [fst snd].
    all: try (apply printable_one_line; try apply dec_printable; reflexivity).
    all: try (intros Hc; apply (fun c => in_map N_of_ascii _ c) in Hc; vm_compute in Hc;
              repeat destruct Hc as [Hc|Hc]; try discriminate Hc; exact Hc).
  - exists (B "content-length"), (B "0"). split; [reflexivity|]. apply (numeral_dec 0).
Qed.

(** ** C20 *)
Lemma hello_status_bad v a b : version_of v = Some (a, b) -> ~ status_line (hello_status v).
Proof.
  unfold hello_status. intros -> (x & y & c1 & c2 & c3 & reason & E & _).
  apply (f_equal (fun l => nth_error l 8)) in E. cbn in E. discriminate E.
Qed.
Lemma hello_status_good v : version_of v = None -> status_line (hello_status v).
Proof.
  unfold hello_status. intros ->. exists "1"%char, "1"%char, "2"%char, "0"%char, "0"%char, (B "OK").
  split; [reflexivity|]. unfold digit. cbn. splits; lia.
Qed.
Lemma fs_status_bad : ~ status_line [SP; SP].
Proof. intros (x & y & c1 & c2 & c3 & reason & E & _). discriminate E. Qed.

(** ** C23: when HelloWorld keeps the connection *)
Lemma keeps_exact v : keeps v = false <->
  exists name major minor, v = version_text name major minor /\ lower name = B "http"
    /\ (numeral major 0 \/ exists t, major = PLUS :: t /\ numeral t 0).
Proof.
  unfold keeps. split.
  - destruct (version_of v) as [[a b]|] eqn:E; [|easy]. intros H.
    apply version_of_exact in E as (-> & name & major & minor & -> & Hl & Ha & Hp).
    assert (a = 0%N) as -> by (destruct (1 <=? a)%N eqn:E; [discriminate H|lia]). eauto 8.
  - intros (name & major & minor & -> & Hl & Hp).
    assert (version_of (version_text name major minor) = Some (0, 0)%N) as ->.
    { apply version_of_exact. split; [reflexivity|]. exists name, major, minor. splits; auto. lia. }
    reflexivity.
Qed.

Lemma blank_table (m : message) : blank m ->
  (mm_ismap (headers m) = false /\ mm_vec (headers m) = [])
  \/ (mm_ismap (headers m) = true /\ mm_map (headers m) = Some []).
Proof.
  intros (_ & _ & _ & H & _). destruct m as [f0 f1 f2 [ism vec mp] bd]. cbn in *.
  unfold mm_getall in H. cbn [mm_ismap mm_vec mm_map] in H. destruct ism.
  - right. split; [reflexivity|]. destruct mp as [[|[k vs] mp]|]; [reflexivity| |].
    + specialize (H k). cbn in H. rewrite (proj2 (bytes_eqb_eq k k) eq_refl) in H. discriminate H.
    + specialize (H []). discriminate H.
  - left. split; [reflexivity|]. destruct vec as [|[k vs] vec]; [reflexivity|].
    specialize (H k). cbn in H. rewrite (proj2 (bytes_eqb_eq k k) eq_refl) in H. discriminate H.
Qed.

Lemma hello_leaves : leaves_request (@hello_http K).
Proof.
  intros req resp p req' resp'. unfold hello_http, rw_header.
  destruct (mm_append _ _ _) as [h| | | |]; cbn [obind]; try easy.
  destruct (req_version req) as [[a b]|];
    destruct (body_write_all_to_internal _ _) as [x| | | |]; cbn [obind]; try easy; now intros [= _ <- _].
Qed.
Lemma hello_total ho req (resp : message) : blank resp ->
  exists resp' data resp'', hello_http req resp = Ret (Some (Current (keeps (fl2 req))), req, resp')
    /\ usable (mbody resp') /\ serialize ho resp' = Ret (Some data, resp'').
Proof.
  intros Hb.
  assert (Ht := blank_table _ Hb). destruct Hb as (H0 & H1 & H2 & _ & buf & H5).
  destruct resp as [f0 f1 f2 [ism vec mp] bd]. cbn [fl0 fl1 fl2 headers mbody mm_ismap mm_vec mm_map] in *. subst.
  assert (Hh : exists h, mm_append (MM ism vec mp) (B "server") (B "httpd.rs") = Ret h
    /\ forall x, exists h', mm_set h (B "content-length") x = Ret h'
       /\ exists y, mm_each ho h' header_visitor [] = Ret y).
  { unfold mm_append. cbn [mm_ismap mm_vec mm_map]. destruct Ht as [[-> ->]|[-> ->]].
    - eexists. split; [reflexivity|]. intros x. eexists. split; [reflexivity|].
      eexists. reflexivity.
    - eexists. split; [reflexivity|]. intros x. eexists. split; [reflexivity|].
      eexists. reflexivity. }
  destruct Hh as (h & Hh & Hset).
  assert (Hs : forall f0 f1 f2 b',
    exists data resp'', serialize ho (Msg f0 f1 f2 h (@Body K (Some b') None)) = Ret (Some data, resp'')).
  { intros f0 f1 f2 b'. unfold serialize. cbn [mbody body_end b_cw headers].
    unfold body_size, body_inner. cbn [b_internal obind].
    destruct (Hset (dec (N.of_nat (length b')))) as (h' & -> & y & E). cbn [obind]. rewrite E. cbn [obind].
    destruct (Nat.ltb 0 _); eauto. }
  unfold hello_http, rw_header, rw_code, rw_version, with_headers. cbn [headers fl0 fl1 fl2 mbody].
  rewrite Hh. cbn [obind]. unfold keeps, req_version.
  destruct (version_of (fl2 req)) as [[a b]|];
    unfold with_body; cbn [mbody body_write_all_to_internal b_internal obind b_cw fl0 fl1 fl2 headers].
  - match goal with |- context [Msg ?a ?b ?c _ (Body (Some ?d) _)] =>
      destruct (Hs a b c d) as (data & resp4 & E1) end.
    eexists _, data, resp4. split; [reflexivity|]. splits; auto. left. discriminate.
  - match goal with |- context [Msg ?a ?b ?c _ (Body (Some ?d) _)] =>
      destruct (Hs a b c d) as (data & resp4 & E1) end.
    eexists _, data, resp4. split; [reflexivity|]. splits; auto. left. discriminate.
Qed.
Lemma hello_answers ho vs : (forall v, In v vs -> keeps v = true) -> answers ho (@hello_http K) vs.
Proof.
  intros Hv req resp Hin (rb & Hrb) Hb. specialize (Hv _ Hin).
  destruct (hello_total ho req resp Hb) as (resp' & data & resp'' & E1 & E2 & E3). rewrite Hv in E1.
  exists req, resp', data, resp''. splits; auto. left. rewrite Hrb. discriminate.
Qed.
Lemma fs_leaves : leaves_request (@fs_http K).
Proof. intros req resp p req' resp'. now intros [= _ <- _]. Qed.
Lemma fs_answers ho vs : answers ho (@fs_http K) vs.
Proof.
  intros req resp _ (rb & Hrb) Hb.
  assert (Ht := blank_table _ Hb). destruct Hb as (H0 & H1 & H2 & _ & buf & H5).
  assert (Hset : forall x, exists h', mm_set (headers resp) (B "content-length") x = Ret h'
       /\ exists y, mm_each ho h' header_visitor [] = Ret y).
  { intros x. destruct (headers resp) as [ism vec mp]. cbn [mm_ismap mm_vec mm_map] in Ht.
    destruct Ht as [[-> ->]|[-> ->]]; eexists; (split; [reflexivity|]); eexists; reflexivity. }
  unfold fs_http. exists req, resp.
  assert (exists data resp'', serialize ho resp = Ret (Some data, resp'')) as (data & resp4 & E).
  { unfold serialize. rewrite H5. cbn [body_end b_cw].
    unfold body_size, body_inner. cbn [b_internal obind].
    destruct (Hset (dec (N.of_nat (length buf)))) as (h' & -> & y & E). cbn [obind]. rewrite E. cbn [obind].
    destruct (Nat.ltb 0 _); eauto. }
  exists data, resp4. splits; auto; left; [rewrite Hrb|rewrite H5]; discriminate.
Qed.

(** the request whose version starts with HTTP/0 is the last one answered *)
Lemma hello_last fuel cfg caps ho qs q suffix r w :
  (1 <= h_max_headers_count cfg)%N -> (forall k, 0 < caps k)%N -> enough fuel r ->
  Forall (request_ok cfg) qs -> (forall v, In v (versions qs) -> keeps v = true) ->
  request_ok cfg q -> keeps (hd_version (rq_head q)) = false ->
  w_budget w = None -> flat r = wires qs ++ request_wire q ++ suffix ->
  let res := serve fuel cfg caps ho (@hello_http K) r w in
  length (cr_log res) = S (length qs) /\ cr_end res = EndClosed.
Proof.
  intros Hc Hcap Hf Hq Hv Hq1 Hk Hw Hr res. unfold res.
  destruct (pipelined_then K fuel cfg caps ho hello_http qs _ r w Hc Hcap Hf Hq (hello_answers ho _ Hv) Hw Hr)
    as (fuel' & req' & resp' & log' & E & Hran & Hl & F1 & (buf & F2) & F3 & F4).
  rewrite E. destruct fuel' as [|f]; [lia|].
  destruct (fl_request K cfg q suffix (fin r) req' buf F1 F2 Hq1 Hc) as (req1 & req2 & E1 & E2 & Hh & Hb).
  cbn [fl_serve]. rewrite E1, E2.
  destruct (hello_total ho req2 resp') as (resp3 & data & resp4 & E3 & U2 & E4).
  { now apply fresh_blank. }
  assert (fl2 req2 = hd_version (rq_head q)) as Hver by apply Hh.
  rewrite E3, E4, w_write_open by easy. cbn [fst snd]. rewrite Hver, Hk. cbn [negb cr_log cr_end].
  split; [|reflexivity]. rewrite app_length. cbn [length].
  apply ran_handled in Hran. clear -Hran. rewrite Nat.add_1_r. f_equal. induction Hran; cbn [length]; congruence.
Qed.

(** ... and the others are all answered: in particular those of HTTP/1.0 *)
Lemma hello_keeps fuel cfg caps ho qs r w :
  (1 <= h_max_headers_count cfg)%N -> (forall k, 0 < caps k)%N -> enough fuel r ->
  Forall (request_ok cfg) qs -> (forall v, In v (versions qs) -> keeps v = true) ->
  w_budget w = None -> flat r = wires qs ->
  let res := serve fuel cfg caps ho (@hello_http K) r w in
  length (cr_log res) = length qs
  /\ cr_end res = match fin r with Stall => EndBlocked | _ => EndClosed end.
Proof.
  intros Hc Hcap Hf Hq Hv Hw Hr res.
  destruct (pipelined K fuel cfg caps ho hello_http qs r w Hc Hcap Hf Hq (hello_answers ho _ Hv) Hw Hr)
    as (H1 & _ & H3). split; [|exact H3]. fold res in H1. clear -H1. induction H1; cbn [length]; congruence.
Qed.
End Hello.
