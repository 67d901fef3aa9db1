(** Histories of a body with a streaming encoder, and encoders that fail. *)
From Verif Require Export F_Served.

Lemma level_used_ok ct level : enc_level ct level = level_used ct level.
Proof.
  unfold enc_level, level_used, as_i32. change (2 ^ 31)%N with 2147483648%N. change (2 ^ 32)%Z with 4294967296%Z.
  destruct ct.
  - destruct (N.ltb_spec level 2147483648), (N.leb_spec 2147483648 level); try lia; reflexivity.
  - destruct (N.ltb_spec 9 level); lia.
  - destruct (N.ltb_spec 9 level); lia.
Qed.

Section History.
Variable K : codec.
Notation message := (message K).
Notation body := (body K).

Lemma history enc : streams K enc -> forall l plain, Forall encodes_only l ->
  match body_after enc l plain None with
  | Some d => exists b : body, b_run (Body (Some plain) None) l = Ret b
      /\ body_end b = (Body (Some d) None, true)
  | None => b_run (Body (Some plain) None : body) l = Panic
  end.
Proof.
  intros (st & H1 & H2 & H3).
  set (rel := fun (b : body) plain (cur : option (ctype * N * bytes)) =>
    match cur with
    | None => b = Body (Some plain) None
    | Some (ct, level, x) => exists c, b = Body None (Some c) /\ st c = (plain, ct, level_used ct level, x)
    end).
  assert (Hend : forall b plain cur, rel b plain cur -> body_end b = (Body (Some (whole enc plain cur)) None, true)).
  { intros b plain [[[ct level] x]|]; cbn [rel whole].
    - intros (c & -> & Hc). unfold body_end. cbn [b_cw]. now rewrite (H3 _ _ _ _ _ Hc).
    - intros ->. reflexivity. }
  assert (G : forall l b plain cur, Forall encodes_only l -> rel b plain cur ->
    match body_after enc l plain cur with
    | Some d => exists b', b_run b l = Ret b' /\ body_end b' = (Body (Some d) None, true)
    | None => b_run b l = Panic
    end).
  2:{ intros l plain Hl. now apply G. }
  induction l as [|o l IH]; intros b plain cur Hl Hr.
  - cbn [body_after b_run]. eauto.
  - inversion Hl as [|? ? Ho Hl']; subst. cbn [b_run]. destruct o as [d|ct level|ct| |]; cbn [body_after b_step].
    + destruct cur as [[[ct level] x]|]; cbn [rel] in Hr.
      * destruct Hr as (c & -> & Hc). unfold body_write. cbn [b_internal b_cw].
        destruct (H2 c d _ _ _ _ Hc) as [_ Hd]. destruct (c_append K c d) as [c' n]. cbn [obind fst] in *.
        apply IH; [exact Hl'|]. cbn [rel]. eauto.
      * subst b. unfold body_write. cbn [b_internal b_cw obind fst]. now apply IH.
    + destruct cur as [[[ct' level'] x]|]; cbn [rel] in Hr.
      * destruct Hr as (c & -> & Hc). reflexivity.
      * subst b. unfold body_compression. cbn [b_internal obind]. apply IH; [exact Hl'|]. cbn [rel].
        eexists. split; [reflexivity|]. rewrite H1. now rewrite level_used_ok.
    + destruct Ho.
    + rewrite (Hend _ _ _ Hr). cbn [fst obind]. now apply IH.
    + unfold body_clear. rewrite (Hend _ _ _ Hr). cbn [obind]. now apply IH.
Qed.

Lemma history_response : forall enc, streams K enc -> forall ho ops (m : message) pre l,
  order_ok ho -> clean ops -> mm_run ho mm_new ops = Ret (headers m) -> mbody m = Body (Some pre) None ->
  Forall encodes_only l ->
  match body_after enc l pre None with
  | None => b_run (mbody m) l = Panic
  | Some body => exists b fs m', b_run (mbody m) l = Ret b
      /\ serialize ho (with_body m b)
         = Ret (Some (response (fl0 m ++ [SP] ++ fl1 m ++ [SP] ++ fl2 m) fs body), m')
      /\ In (B "content-length", dec (N.of_nat (length body))) fs
  end.
Proof.
  intros enc Henc ho ops m pre l Hho Hcl Hrun Hb Hl.
  destruct (clean_run ho ops (headers m) Hho Hcl Hrun) as (Hok & _).
  pose proof (history enc Henc l pre Hl) as H. rewrite Hb.
  destruct (body_after enc l pre None) as [d|]; [|exact H]. destruct H as (b & E1 & E2).
  destruct (serialize_total K ho (with_body m b) Hho) as (es & _ & Hin & Es); [exact Hok|].
  unfold final_view, final_body in *. cbn [mbody with_body fl0 fl1 fl2] in *. rewrite E2 in *.
  cbn [fst snd b_internal] in *.
  eexists b, (spread es), _. split; [exact E1|]. split; [exact Es|].
  apply spread_in. exists [dec (N.of_nat (length d))].
  split; [|now left]. apply Hin. destruct (bytes_same _ _); [reflexivity|congruence].
Qed.

Lemma accumulates : forall enc, streams K enc -> forall fuel cfg caps ho ct level d r w k req o,
  order_ok ho ->
  nth_error (cr_log (serve fuel cfg caps ho (@zipper K ct level d) r w)) k = Some (req, o) ->
  let body := concat (repeat (enc ct (level_used ct level) d) (S k)) in
  o = Some (response [SP; SP] [(B "content-length", dec (N.of_nat (length body)))] body).
Proof. intros enc He fuel cfg caps ho ct level d r w k req o. rewrite <- level_used_ok. now apply compressed_accumulates. Qed.

Lemma clear_after_failure (b : body) c d : b_cw b = Some c -> c_expose K c = None ->
  b_internal (body_clear b) = Some []
  /\ body_write (body_clear b) d = Ret (Body (Some d) None, Some (length d)).
Proof.
  intros Hc He. unfold body_clear, body_end. rewrite Hc, He. split; reflexivity.
Qed.

(** ** C92 *)
Lemma failed_not_sent fuel cfg caps ho (svc : service K) qs q suffix r w :
  (1 <= h_max_headers_count cfg)%N -> (forall k, 0 < caps k)%N -> enough fuel r ->
  Forall (request_ok cfg) qs -> answers ho svc (versions qs) -> w_budget w = None ->
  request_ok cfg q -> leaves_failed svc q ->
  flat r = wires qs ++ request_wire q ++ suffix ->
  let res := serve fuel cfg caps ho svc r w in
  exists log req, cr_log res = log ++ [(req, None)] /\ Forall2 (handled ho svc) qs log
    /\ has_head (rq_head q) req
    /\ w_out (cr_writer res) = w_out w ++ concat (map sent log) /\ cr_end res = EndClosed.
Proof.
  intros Hc Hcap Hf Hq Ha Hw Hq1 Hs Hr res. unfold res.
  destruct (pipelined_then K fuel cfg caps ho svc qs _ r w Hc Hcap Hf Hq Ha Hw Hr)
    as (f & req' & resp' & log' & E & Hran & Hl & Fq & (buf & Lq) & Fp & Lp). rewrite E.
  destruct f as [|f]; [lia|]. cbn [fl_serve].
  destruct (fl_request K cfg q suffix (fin r) req' buf Fq Lq Hq1 Hc) as (req1 & req2 & E1 & E2 & Hh & Hb).
  rewrite E1, E2. destruct (Hs req2 resp' Hh (fresh_blank _ _ Fp Lp)) as (p & a & b & c & E3 & Hcw & He).
  rewrite E3. unfold serialize, body_end. rewrite Hcw, He. cbn [cr_log cr_end cr_writer w_out].
  exists log', req2. splits; auto. now apply ran_handled in Hran.
Qed.

Lemma slate_serialize ho (m : message) : order_ok ho -> clean_slate K m -> snd (body_end (mbody m)) = true ->
  exists m', serialize ho m
    = Ret (Some (response [SP; SP] [(B "content-length", dec (N.of_nat (length (final_body K m))))] (final_body K m)), m').
Proof.
  intros Hho Hs He. destruct (serialize_total K ho m Hho (slate_ok _ _ Hs)) as (es & Hnd & Hin & Es).
  rewrite He in Es. rewrite Es, (slate_first _ _ Hs). set (out := final_body K m) in *.
  assert (es = [(B "content-length", [dec (N.of_nat (length out))])]) as ->; [|eexists; reflexivity].
  assert (Hall : forall k vs, In (k, vs) es <-> (k, vs) = (B "content-length", [dec (N.of_nat (length out))])).
  { intros k vs. rewrite Hin. unfold final_view. fold out. destruct (bytes_same k (B "content-length")) as [->|N].
    - split; [now intros [= <-]|]. intros E. assert (vs = [dec (N.of_nat (length out))]) by congruence. now subst.
    - split; [|congruence]. destruct Hs as (_ & _ & _ & H3 & H4 & _). unfold view, content. now rewrite H3, H4. }
  destruct es as [|[k vs] [|[k2 vs2] es]].
  - exfalso. apply (proj2 (Hall (B "content-length") _) eq_refl).
  - f_equal. apply Hall. now left.
  - exfalso. assert (E3 := proj1 (Hall k vs) (or_introl eq_refl)).
    assert (E4 := proj1 (Hall k2 vs2) (or_intror (or_introl eq_refl))).
    cbn [map fst] in Hnd. inversion Hnd as [|? ? Hnn _]; subst. apply Hnn. left. congruence.
Qed.

Lemma failed_sent_empty : never_finishes K ->
  forall fuel cfg caps ho ct level d q suffix r w,
  order_ok ho -> (1 <= h_max_headers_count cfg)%N -> (forall k, 0 < caps k)%N -> enough fuel r ->
  request_ok cfg q -> w_budget w = None -> flat r = request_wire q ++ suffix ->
  let svc := @scripted K (fun _ => ([RBody (BCompress ct level); RBody (BWrite d); RBody BEnd], Current false)) in
  let res := serve fuel cfg caps ho svc r w in
  w_out (cr_writer res) = w_out w ++ response [SP; SP] [(B "content-length", B "0")] []
  /\ cr_end res = EndClosed.
Proof.
  intros Hn fuel cfg caps ho ct level d q suffix r w Hho Hc Hcap Hf Hq Hw Hr svc res. unfold res, serve.
  rewrite serve_flat by easy. rewrite Hr. unfold enough in Hf. rewrite Hr in Hf.
  destruct fuel as [|f]; [lia|].
  destruct (fl_request K cfg q suffix (fin r) msg_default [] (fresh_default K) eq_refl Hq Hc)
    as (req1 & req2 & E1 & E2 & _).
  cbn [fl_serve]. rewrite E1, E2.
  assert (Es : exists m, svc req2 msg_default = Ret (Some (Current false), req2, m)
    /\ clean_slate K m /\ mbody m = Body None None).
  { unfold svc, scripted. cbn [fst snd rw_run rw_step b_step].
    change (mbody msg_default) with (Body (Some []) None : body). unfold body_compression.
    cbn [b_internal obind mbody with_body]. unfold body_write. cbn [b_internal b_cw].
    destruct (c_append K (c_enc K ct (enc_level ct level) []) d) as [c n]. cbn [obind fst mbody with_body].
    unfold body_end. cbn [b_cw]. rewrite Hn. cbn [fst obind].
    eexists. split; [reflexivity|]. split; [|reflexivity]. exact (slate_default K). }
  destruct Es as (m & -> & Hs & Hb).
  destruct (slate_serialize ho m Hho Hs) as (m' & ->); [now rewrite Hb|].
  unfold final_body. rewrite Hb. cbn [body_end b_cw fst b_internal].
  rewrite w_write_open by easy. cbn [fst snd negb cr_end cr_writer w_out]. split; reflexivity.
Qed.
End History.
