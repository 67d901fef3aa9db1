(** Serialised responses. *)
From Verif Require Export F_Hello S_Resp.

(** ** responses can be read in one way only *)
Lemma cut_cr s s' x x' : ~ In CR s -> ~ In CR s' -> s ++ CR :: x = s' ++ CR :: x' -> s = s' /\ x = x'.
Proof.
  revert s'; induction s as [|c s IH]; intros [|c' s'] H H' E; cbn in E.
  - injection E as ->. auto.
  - injection E as E0 _. exfalso. apply H'. left. exact (eq_sym E0).
  - injection E as E0 _. exfalso. apply H. left. exact E0.
  - injection E as <- E. apply IH in E as [-> ->]; [auto| |]; intros Hi; [apply H|apply H']; now right.
Qed.
Lemma cut_colon_eq s s' x x' : ~ In COLON s -> ~ In COLON s' -> s ++ COLON :: x = s' ++ COLON :: x' -> s = s' /\ x = x'.
Proof.
  revert s'; induction s as [|c s IH]; intros [|c' s'] H H' E; cbn in E.
  - injection E as ->. auto.
  - injection E as E0 _. exfalso. apply H'. left. exact (eq_sym E0).
  - injection E as E0 _. exfalso. apply H. left. exact E0.
  - injection E as <- E. apply IH in E as [-> ->]; [auto| |]; intros Hi; [apply H|apply H']; now right.
Qed.
Definition field_fine (f : field) : Prop := one_line (fst f) /\ ~ In COLON (fst f) /\ one_line (snd f).
Lemma fields_inj fs : forall fs' x x', Forall field_fine fs -> Forall field_fine fs' ->
  concat (map response_line fs) ++ CRLF ++ x = concat (map response_line fs') ++ CRLF ++ x' ->
  fs = fs' /\ x = x'.
Proof.
  assert (Hno : forall f l x x', field_fine f ->
    CRLF ++ x = concat (map response_line (f :: l)) ++ CRLF ++ x' -> False).
  { intros [n v] l x x' ((H1 & _) & _) E. cbn [map concat] in E. unfold response_line in E.
    cbn [fst snd] in *. destruct n as [|c n]; cbn in E; injection E; intros; subst; try discriminate.
    apply H1. now left. }
  induction fs as [|f fs IH]; intros [|f' fs'] x x' H H' E.
  - cbn in E. injection E as ->. split; reflexivity.
  - inversion H'; subst. exfalso. exact (Hno f' fs' x x' ltac:(assumption) E).
  - inversion H; subst. exfalso. exact (Hno f fs x' x ltac:(assumption) (eq_sym E)).
  - inversion H as [|? ? (A1 & A2 & A3) A4]; inversion H' as [|? ? (B1 & B2 & B3) B4]; subst.
    cbn [map concat] in E. unfold response_line in E at 1 3. rewrite <- !app_assoc in E.
    change (B ": ") with [COLON; SP] in E. change CRLF with [CR; LF] in E at 1 3. cbn [app] in E.
    apply cut_colon_eq in E as [E1 E]; auto. injection E as E. cbn [app] in E.
    apply cut_cr in E as [E2 E]; [|apply A3|apply B3]. injection E as E.
    apply IH in E as [-> ->]; auto. split; [|reflexivity]. f_equal.
    destruct f, f'; cbn in *; congruence.
Qed.
Lemma response_inj line line' fs fs' b b' : one_line line -> one_line line' ->
  Forall field_fine fs -> Forall field_fine fs' ->
  response line fs b = response line' fs' b' -> line = line' /\ fs = fs' /\ b = b'.
Proof.
  unfold response. intros H1 H2 H3 H4 E. change CRLF with [CR; LF] in E at 1 3. cbn [app] in E.
  apply cut_cr in E as [-> E]; [|apply H1|apply H2]. injection E as E.
  apply fields_inj in E as [-> ->]; auto.
Qed.
Lemma truthful_exact line fs b : one_line line -> Forall field_fine fs ->
  (truthful (response line fs b) <->
   exists n v, filter (fun f => same_name (B "content-length") (fst f)) fs = [(n, v)]
       /\ numeral v (N.of_nat (length b))).
Proof.
  intros H1 H2. split.
  - intros (line' & fs' & b' & E & H3 & H4 & H5). apply response_inj in E as (_ & -> & ->); auto.
  - intros H. exists line, fs, b. splits; auto.
Qed.

(** ** what serialisation gives *)
Definition spread (es : list entry) : list field :=
  concat (map (fun e => map (pair (fst e)) (snd e)) es).
Lemma visit_header es : forall acc,
  visit header_visitor es acc = acc ++ concat (map response_line (spread es)).
Proof.
  induction es as [|[k vs] es IH]; intros acc; cbn [visit].
  - cbn. now rewrite app_nil_r.
  - unfold header_visitor at 1. cbn [fst snd]. rewrite IH. unfold header_visitor. cbn [fst].
    unfold spread. cbn [map concat fst snd]. rewrite map_app, concat_app, <- app_assoc. do 2 f_equal.
    rewrite map_map. f_equal.
Qed.
Lemma spread_in k v es : In (k, v) (spread es) <-> exists vs, In (k, vs) es /\ In v vs.
Proof.
  unfold spread. rewrite in_concat. split.
  - intros (l & Hl & Hi). apply in_map_iff in Hl as ([k' vs] & <- & He). cbn in Hi.
    apply in_map_iff in Hi as (v' & [= -> ->] & Hv). eauto.
  - intros (vs & He & Hv). exists (map (pair k) vs). split; [|now apply in_map].
    apply in_map_iff. exists (k, vs). auto.
Qed.

Section Serialize.
Variable K : codec.
Notation message := (message K).

Definition final_body (m : message) : bytes :=
  match b_internal (fst (body_end (mbody m))) with Some b => b | None => [] end.
Definition first_line (m : message) : bytes := fl0 m ++ [SP] ++ fl1 m ++ [SP] ++ fl2 m.
Definition final_view (m : message) (k : bytes) : option (list bytes) :=
  if bytes_same k (B "content-length")
  then Some [dec (N.of_nat (length (final_body m)))] else view (headers m) k.

Lemma serialize_total ho (m : message) : order_ok ho -> ok false (headers m) ->
  exists es, NoDup (map fst es) /\ (forall k vs, In (k, vs) es <-> final_view m k = Some vs)
    /\ serialize ho m = if snd (body_end (mbody m))
         then Ret (Some (response (first_line m) (spread es) (final_body m)),
                   Msg (fl0 m) (fl1 m) (fl2 m)
                       match mm_set (headers m) (B "content-length") (dec (N.of_nat (length (final_body m)))) with
                       | Ret h => h | _ => headers m end
                       (fst (body_end (mbody m))))
         else Ret (None, with_body m (fst (body_end (mbody m)))).
Proof.
  intros Hho Hok.
  destruct (set_ok (headers m) (B "content-length") (dec (N.of_nat (length (final_body m)))) Hok) as (h & E1 & Hok2 & Hv);
    [discriminate|].
  destruct (each_spec ho h header_visitor Hho Hok2) as (es & Hnd & Hin & He).
  exists es. splits; auto.
  { intros k vs. rewrite Hin, Hv. unfold final_view. reflexivity. }
  unfold serialize. unfold final_body in *. destruct (body_end (mbody m)) as [b ok]. cbn [fst snd] in *.
  destruct ok; [|reflexivity].
  assert (Hsz : body_size b = length (match b_internal b with Some b => b | None => [] end)).
  { unfold body_size. destruct (b_internal b); reflexivity. }
  rewrite Hsz, E1. cbn [obind]. rewrite He, visit_header. cbn [obind app].
  assert (Hfin : forall x, (fl0 m ++ [SP] ++ fl1 m ++ [SP] ++ fl2 m ++ CRLF) ++
       concat (map response_line (spread es)) ++ CRLF ++ x = response (first_line m) (spread es) x).
  { intros x. unfold response, first_line. rewrite <- !app_assoc. cbn [app]. rewrite <- ?app_assoc. reflexivity. }
  unfold body_inner. destruct (b_internal b) as [buf|].
  - destruct buf as [|c buf].
    + cbn [length Nat.ltb Nat.leb obind]. rewrite <- Hfin, app_nil_r. reflexivity.
    + change (Nat.ltb 0 (length (c :: buf))) with true. cbn [obind]. cbv iota.
      rewrite <- Hfin. cbn [app]. rewrite <- !app_assoc. cbn [app]. rewrite <- !app_assoc. cbn [app].
      rewrite <- ?app_assoc. reflexivity.
  - cbn [length Nat.ltb Nat.leb obind]. rewrite <- Hfin, app_nil_r. reflexivity.
Qed.

Lemma serialize_shape ho (m : message) data m' : order_ok ho -> ok false (headers m) ->
  serialize ho m = Ret (Some data, m') ->
  exists es, NoDup (map fst es) /\ (forall k vs, In (k, vs) es <-> final_view m k = Some vs)
    /\ data = response (first_line m) (spread es) (final_body m).
Proof.
  intros Hho Hok E. destruct (serialize_total ho m Hho Hok) as (es & H1 & H2 & H3).
  rewrite E in H3. destruct (snd (body_end (mbody m))); [|discriminate].
  injection H3 as -> _. eauto.
Qed.

(** ** fine responses *)
Definition fine (m : message) : Prop :=
  one_line (fl0 m) /\ one_line (fl1 m) /\ one_line (fl2 m) /\ ok false (headers m)
  /\ forall k vs, view (headers m) k = Some vs -> name_fine k /\ Forall one_line vs.

Lemma one_line_app a b : one_line a -> one_line b -> one_line (a ++ b).
Proof. intros [H1 H2] [H3 H4]. split; rewrite in_app_iff; tauto. Qed.
Lemma dec_one_line n : one_line (dec n).
Proof. apply printable_one_line, dec_printable. Qed.
Lemma one_line_nil : one_line [].
Proof. split; easy. Qed.

Lemma filter_absent (p : field -> bool) k vs : p (k, []) = false -> (forall v, p (k, v) = p (k, [])) ->
  filter p (map (pair k) vs) = [].
Proof.
  intros H H2. induction vs as [|v vs IH]; cbn [map filter]; [reflexivity|]. now rewrite H2, H.
Qed.

Lemma one_content_length es v :
  NoDup (map fst es) -> In (B "content-length", [v]) es ->
  (forall k vs, In (k, vs) es -> same_name (B "content-length") k = true -> k = B "content-length") ->
  filter (fun f => same_name (B "content-length") (fst f)) (spread es) = [(B "content-length", v)].
Proof.
  induction es as [|[k vs] es IH]; intros Hnd Hin Hn; [easy|].
  cbn [map fst] in Hnd. inversion Hnd as [|? ? Hk Hnd']; subst.
  unfold spread. cbn [map concat fst snd]. rewrite filter_app. fold (spread es).
  destruct Hin as [Hin|Hin].
  - assert (k = B "content-length") by congruence. assert (vs = [v]) by congruence. subst k vs. clear Hin.
    cbn [map filter fst].
    assert (same_name (B "content-length") (B "content-length") = true) as -> by reflexivity.
    cbn [app]. f_equal.
    assert (Hall : forall k' vs', In (k', vs') es -> same_name (B "content-length") k' = false).
    { intros k' vs' Hi. destruct (same_name (B "content-length") k') eqn:E; [|reflexivity].
      assert (k' = B "content-length") by (eapply Hn; [right; eauto|exact E]). subst k'.
      exfalso. apply Hk. apply in_map_iff. exists (B "content-length", vs'). auto. }
    clear -Hall. induction es as [|[k vs] es IH]; [reflexivity|].
    unfold spread. cbn [map concat fst snd]. rewrite filter_app. fold (spread es).
    rewrite IH by (intros; eapply Hall; right; eauto). rewrite app_nil_r.
    apply (filter_absent (fun f => same_name (B "content-length") (fst f))); cbn [fst]; auto.
    eapply Hall. now left.
  - rewrite IH; auto; [|intros; eapply Hn; [right; eauto|auto]].
    rewrite (filter_absent (fun f => same_name (B "content-length") (fst f))); cbn [fst]; auto.
    destruct (same_name (B "content-length") k) eqn:E; [|reflexivity].
    assert (k = B "content-length") by (eapply Hn; [now left|exact E]). subst k.
    exfalso. apply Hk. apply in_map_iff. exists (B "content-length", [v]). auto.
Qed.

Lemma content_length_fine : name_fine (B "content-length").
Proof.
  unfold name_fine. splits; auto; [discriminate|now apply printable_one_line|].
  intros Hc; apply (fun c => in_map N_of_ascii _ c) in Hc; vm_compute in Hc;
    repeat destruct Hc as [Hc|Hc]; try discriminate Hc; exact Hc.
Qed.

Lemma fine_truthful ho (m : message) data m' : order_ok ho -> fine m ->
  serialize ho m = Ret (Some data, m') -> truthful data.
Proof.
  intros Hho (H0 & H1 & H2 & Hok & Hv) E.
  destruct (serialize_shape ho m data m' Hho Hok E) as (es & Hnd & Hin & ->).
  assert (Hes : forall k vs, In (k, vs) es -> name_fine k /\ Forall one_line vs).
  { intros k vs Hi. apply Hin in Hi. unfold final_view in Hi.
    destruct (bytes_same k (B "content-length")) as [->|N]; [|auto].
    injection Hi as <-. split; [exact content_length_fine|]. constructor; [apply dec_one_line|constructor]. }
  apply truthful_exact.
  - unfold first_line. repeat apply one_line_app; auto; now apply printable_one_line.
  - apply Forall_forall. intros [k v] Hi. apply spread_in in Hi as (vs & Hi & Hvi).
    apply Hes in Hi as ((_ & A & B & _) & C). unfold field_fine. cbn [fst snd]. splits; auto.
    rewrite Forall_forall in C. auto.
  - exists (B "content-length"), (dec (N.of_nat (length (final_body m)))). split; [|apply numeral_dec].
    apply one_content_length; auto.
    + apply Hin. unfold final_view. destruct (bytes_same _ _); [reflexivity|congruence].
    + intros k vs Hi. apply Hes in Hi as ((_ & _ & _ & D) & _). exact D.
Qed.

(** ** every logged response was serialised from a response the handler got clean *)
Definition clean_slate (m : message) : Prop :=
  fl0 m = [] /\ fl1 m = [] /\ fl2 m = [] /\ mm_ismap (headers m) = false /\ mm_vec (headers m) = []
  /\ (mm_map (headers m) = None \/ mm_map (headers m) = Some []).
Lemma slate_default : clean_slate msg_default.
Proof. unfold clean_slate. cbn. splits; auto. Qed.
Lemma slate_clear (m : message) : clean_slate (msg_clear m).
Proof. unfold clean_slate. cbn. splits; auto. destruct (mm_map (headers m)); auto. Qed.
Lemma slate_fine (m : message) : clean_slate m -> fine m.
Proof.
  intros (H0 & H1 & H2 & H3 & H4 & H5). unfold fine. rewrite H0, H1, H2. splits; auto using one_line_nil.
  - split; [unfold wf; rewrite H3; exact H5|]. rewrite H3, H4. cbn. split; [constructor|easy].
  - intros k vs. unfold view, content. rewrite H3, H4. easy.
Qed.

Definition served (ho : hash_order) (svc : service K) (p : message * option bytes) : Prop :=
  forall d, snd p = Some d -> exists resp pr req' resp' resp'', clean_slate resp
    /\ svc (fst p) resp = Ret (Some pr, req', resp') /\ serialize ho resp' = Ret (Some d, resp'').
Lemma serve_loop_served fuel : forall inner cfg caps ho (svc : service K) k r w req resp log,
  clean_slate resp -> Forall (served ho svc) log ->
  Forall (served ho svc) (cr_log (serve_loop fuel inner cfg caps ho svc k r w req resp log)).
Proof.
  induction fuel as [|f IH]; intros inner cfg caps ho svc k r w req resp log Hi Hl; [exact Hl|].
  cbn [serve_loop].
  destruct (read_headers inner cfg r req) as [[[c req1] r1]| | | |]; try exact Hl.
  destruct c; try exact Hl.
  destruct (read_const_length_body inner (caps k) r1 req1) as [[[c req2] r2]| | | |]; try exact Hl.
  destruct c; try exact Hl.
  assert (HN : Forall (served ho svc) (log ++ [(req2, None)])).
  { apply Forall_app. split; [exact Hl|]. constructor; [|constructor]. intros d; discriminate. }
  destruct (svc req2 resp) as [[[[p|] req3] resp3]| | | |] eqn:E1; try exact HN.
  destruct (serialize ho resp3) as [[[data|] resp4]| | | |] eqn:E2; try exact HN.
  assert (Hl2 : Forall (served ho svc) (log ++ [(req2, Some data)])).
  { apply Forall_app. split; [exact Hl|]. constructor; [|constructor].
    intros d [= <-]. exists resp, p, req3, resp3, resp4. cbn [fst]. auto. }
  destruct (w_write _ w) as [w' ok]. destruct ok; [|exact Hl2].
  destruct p as [ka| |]; try exact Hl2. destruct ka; cbn [negb]; [|exact Hl2].
  apply IH; [apply slate_clear|exact Hl2].
Qed.
Lemma serve_served fuel cfg caps ho (svc : service K) r w req d :
  In (req, Some d) (cr_log (serve fuel cfg caps ho svc r w)) ->
  exists resp p req' resp' resp'', clean_slate resp
    /\ svc req resp = Ret (Some p, req', resp') /\ serialize ho resp' = Ret (Some d, resp'').
Proof.
  intros Hi. unfold serve in Hi.
  pose proof (serve_loop_served fuel fuel cfg caps ho svc 0 r w msg_default msg_default []
                slate_default (Forall_nil _)) as H.
  rewrite Forall_forall in H. apply (H _ Hi). reflexivity.
Qed.

(** ** C19 *)
(** *** scripts that do spoil the framing *)
Lemma script_served fuel cfg caps ho ops p r w req d :
  In (req, Some d) (cr_log (serve fuel cfg caps ho (@scripted K (fun _ => (ops, p))) r w)) ->
  exists resp m resp'', clean_slate resp /\ rw_run resp ops = Ret m /\ serialize ho m = Ret (Some d, resp'').
Proof.
  intros Hi. apply serve_served in Hi as (resp & pr & req' & resp' & resp'' & H1 & H2 & H3).
  unfold scripted in H2. cbn [fst snd] in H2.
  destruct (rw_run resp ops) as [m| | | |] eqn:E; cbn [obind] in H2; try discriminate.
  injection H2 as <- <- <-. eauto 8.
Qed.

(** serialisation of a message whose table is a vector with these slots *)
Lemma serialize_vec ho (m : message) vec mp pos d m' : headers m = MM false vec mp ->
  vec_find_or_empty vec (B "content-length") = pos ->
  serialize ho m = Ret (Some d, m') ->
  d = response (first_line m)
        (spread match pos with
                | Some i => update_nth i (fun e => (fst e, [dec (N.of_nat (length (final_body m)))])) vec
                | None => vec ++ [(B "content-length", [dec (N.of_nat (length (final_body m)))])]
                end) (final_body m).
Proof.
  intros Hh Hp. unfold serialize, final_body. destruct (body_end (mbody m)) as [b okb]. cbn [fst].
  destruct okb; [|discriminate].
  assert (Hsz : body_size b = length (match b_internal b with Some b => b | None => [] end)).
  { unfold body_size. destruct (b_internal b); reflexivity. }
  rewrite Hsz, Hh. unfold mm_set. cbn [mm_ismap mm_vec mm_map]. rewrite Hp.
  set (v := dec _). 
  assert (Hgo : forall l, (h <- Ret (MM false l mp) ;; hs <- mm_each ho h header_visitor [] ;;
     (let head := (fl0 m ++ [SP] ++ fl1 m ++ [SP] ++ fl2 m ++ CRLF) ++ hs ++ CRLF in
      let m'0 := Msg (fl0 m) (fl1 m) (fl2 m) h b in
      if Nat.ltb 0 (length (match b_internal b with Some b => b | None => [] end)) then
        inner <- body_inner b ;; Ret (Some (head ++ inner), m'0)
      else Ret (Some head, m'0))) = Ret (Some d, m') ->
     d = response (first_line m) (spread l) (match b_internal b with Some b => b | None => [] end)).
  { intros l. cbn [obind]. unfold mm_each. cbn [mm_ismap mm_vec]. rewrite each_list_visit, visit_header.
    cbn [obind app]. unfold body_inner, response, first_line. destruct (b_internal b) as [[|c buf]|].
    - cbn [length Nat.ltb Nat.leb obind]. intros [= <- _]. rewrite <- ?app_assoc. cbn [app].
      rewrite <- ?app_assoc. cbn [app]. rewrite <- ?app_assoc. now rewrite ?app_nil_r.
    - change (Nat.ltb 0 (length (c :: buf))) with true. cbn [obind]. intros [= <- _].
      cbn [app]. rewrite <- ?app_assoc. cbn [app]. rewrite <- ?app_assoc. cbn [app]. rewrite <- ?app_assoc. reflexivity.
    - cbn [length Nat.ltb Nat.leb obind]. intros [= <- _]. rewrite <- ?app_assoc. cbn [app].
      rewrite <- ?app_assoc. cbn [app]. rewrite <- ?app_assoc. now rewrite ?app_nil_r. }
  destruct pos as [i|]; apply Hgo.
Qed.

Lemma lower_keeps c k : to_lower c = c -> In c k -> In c (lower k).
Proof. intros H Hi. apply (in_map to_lower) in Hi. now rewrite H in Hi. Qed.
Lemma content_length_name k : same_name (B "content-length") k = true -> one_line k /\ ~ In COLON k /\ k <> [].
Proof.
  unfold same_name. intros H. apply bytes_eqb_eq in H.
  assert (Hno : forall c, to_lower c = c -> ~ In c (B "content-length") -> ~ In c k).
  { intros c Hc Hn Hi. apply Hn. change (B "content-length") with (lower (B "content-length")). rewrite H.
    now apply lower_keeps. }
  unfold one_line. splits.
  - apply Hno; [reflexivity|]. intros Hi. apply (in_map N_of_ascii) in Hi. vm_compute in Hi.
    repeat destruct Hi as [Hi|Hi]; try discriminate Hi; exact Hi.
  - apply Hno; [reflexivity|]. intros Hi. apply (in_map N_of_ascii) in Hi. vm_compute in Hi.
    repeat destruct Hi as [Hi|Hi]; try discriminate Hi; exact Hi.
  - apply Hno; [reflexivity|]. intros Hi. apply (in_map N_of_ascii) in Hi. vm_compute in Hi.
    repeat destruct Hi as [Hi|Hi]; try discriminate Hi; exact Hi.
  - intros ->. discriminate H.
Qed.

Lemma slate_first (m : message) : clean_slate m -> first_line m = [SP; SP].
Proof. intros (H0 & H1 & H2 & _). unfold first_line. now rewrite H0, H1, H2. Qed.
Lemma spaces_one_line : one_line [SP; SP].
Proof. now apply printable_one_line. Qed.

Lemma delete_spoils fuel cfg caps ho k v p r w req d : k <> [] ->
  In (req, Some d) (cr_log (serve fuel cfg caps ho
       (@scripted K (fun _ => ([RHeader k v; RDelHeader k], p))) r w)) ->
  ~ truthful d.
Proof.
  intros Hk Hi. apply script_served in Hi as (resp & m & resp'' & Hs & E & Ed).
  pose proof (slate_first _ Hs) as Hfl. destruct Hs as (H0 & H1 & H2 & H3 & H4 & H5).
  destruct (headers resp) as [ism vec mp] eqn:Eh. cbn [mm_ismap mm_vec mm_map] in *. subst ism vec.
  cbn [rw_run rw_step] in E. unfold rw_header, rw_delheader in E. rewrite Eh in E.
  unfold mm_append in E. cbn [mm_ismap mm_vec length Nat.leb vec_find_or_empty position obind app mm_map with_headers headers] in E.
  unfold mm_delete in E. cbn [mm_ismap mm_vec mm_map] in E.
  unfold vec_find in E. cbn [position fst] in E. rewrite bytes_eqb_refl in E. cbn [option_map obind update_nth] in E.
  injection E as <-.
  eapply serialize_vec in Ed; [|reflexivity|reflexivity]. rewrite Ed.
  match goal with |- ~ truthful (response ?a _ ?b) => change a with (first_line resp); set (bd := b) end.
  rewrite Hfl. rewrite truthful_exact.
  - cbn. intros (n & x & E & _). discriminate E.
  - exact spaces_one_line.
  - constructor; [|constructor]. unfold field_fine. cbn [fst snd]. splits;
      [apply one_line_nil|easy|apply dec_one_line].
Qed.

Lemma case_spoils fuel cfg caps ho k v p r w req d :
  same_name (B "content-length") k = true -> k <> B "content-length" -> one_line v ->
  In (req, Some d) (cr_log (serve fuel cfg caps ho (@scripted K (fun _ => ([RHeader k v], p))) r w)) ->
  ~ truthful d.
Proof.
  intros Hn Hne Hv Hi. apply script_served in Hi as (resp & m & resp'' & Hs & E & Ed).
  pose proof (slate_first _ Hs) as Hfl. destruct Hs as (H0 & H1 & H2 & H3 & H4 & H5).
  destruct (content_length_name k Hn) as (Hk1 & Hk2 & Hk3).
  destruct (headers resp) as [ism vec mp] eqn:Eh. cbn [mm_ismap mm_vec mm_map] in *. subst ism vec.
  cbn [rw_run rw_step] in E. unfold rw_header in E. rewrite Eh in E.
  unfold mm_append in E. cbn [mm_ismap mm_vec length Nat.leb vec_find_or_empty position obind app mm_map] in E.
  injection E as <-.
  eapply (serialize_vec _ _ _ _ None) in Ed; [|reflexivity|].
  2:{ unfold vec_find_or_empty. cbn [position fst].
      rewrite (proj2 (bytes_eqb_neq k (B "content-length")) Hne).
      assert (is_nil k = false) as -> by now destruct k. reflexivity. }
  rewrite Ed. match goal with |- ~ truthful (response ?a _ ?b) => change a with (first_line resp); set (bd := b) end.
  rewrite Hfl. rewrite truthful_exact.
  - unfold spread. cbn [app map concat fst snd filter]. rewrite Hn.
    assert (same_name (B "content-length") (B "content-length") = true) as -> by reflexivity.
    intros (n & x & E & _). discriminate E.
  - exact spaces_one_line.
  - unfold spread. cbn [app map concat fst snd].
    repeat constructor; cbn [fst snd]; auto; try (apply dec_one_line); try apply content_length_fine.
    all: try apply Hk1; try apply Hv.
Qed.

(** a line break in a value starts a new header *)
Lemma break_spoils fuel cfg caps ho k v1 n v2 p r w req d :
  name_fine k -> k <> B "content-length" -> one_line v1 ->
  same_name (B "content-length") n = true -> one_line v2 ->
  In (req, Some d) (cr_log (serve fuel cfg caps ho
       (@scripted K (fun _ => ([RHeader k (v1 ++ CRLF ++ n ++ B ": " ++ v2)], p))) r w)) ->
  ~ truthful d.
Proof.
  intros (Hk0 & Hk1 & Hk2 & Hk3) Hne Hv1 Hn Hv2 Hi. apply script_served in Hi as (resp & m & resp'' & Hs & E & Ed).
  pose proof (slate_first _ Hs) as Hfl. destruct Hs as (H0 & H1 & H2 & H3 & H4 & H5).
  destruct (content_length_name n Hn) as (Hn1 & Hn2 & Hn3).
  destruct (headers resp) as [ism vec mp] eqn:Eh. cbn [mm_ismap mm_vec mm_map] in *. subst ism vec.
  cbn [rw_run rw_step] in E. unfold rw_header in E. rewrite Eh in E.
  unfold mm_append in E. cbn [mm_ismap mm_vec length Nat.leb vec_find_or_empty position obind mm_map] in E.
  injection E as <-.
  eapply (serialize_vec _ _ _ _ None) in Ed; [|reflexivity|].
  2:{ unfold vec_find_or_empty. cbn [position fst app].
      rewrite (proj2 (bytes_eqb_neq k (B "content-length")) Hne).
      assert (is_nil k = false) as -> by now destruct k. reflexivity. }
  rewrite Ed. match goal with |- ~ truthful (response ?a _ ?b) => change a with (first_line resp); set (bd := b) end.
  rewrite Hfl.
  assert (Hsame : forall L x, response L (spread ([] ++ [(k, [v1 ++ CRLF ++ n ++ B ": " ++ v2])] ++ [(B "content-length", [x])])) bd
    = response L [(k, v1); (n, v2); (B "content-length", x)] bd).
  { intros L x. unfold response, spread. cbn [app map concat fst snd]. unfold response_line. cbn [fst snd].
    rewrite <- !app_assoc. reflexivity. }
  cbn [app] in Hsame. cbn [app]. rewrite Hsame. rewrite truthful_exact.
  - cbn [filter fst]. rewrite Hn.
    assert (same_name (B "content-length") (B "content-length") = true) as -> by reflexivity.
    intros (n' & x & E & _). destruct (same_name (B "content-length") k); discriminate E.
  - exact spaces_one_line.
  - repeat constructor; cbn [fst snd]; auto; try (apply dec_one_line); try apply content_length_fine.
    all: try apply Hk1; try apply Hn1; try apply Hv1; try apply Hv2.
Qed.
End Serialize.
