(** No byte stream crashes a connection. *)
From Coq Require Import Permutation.
From Verif Require F_Trace.
From Verif Require Import S_Ends F_Got F_Hello.

Lemma fu_safe d lim s e : match fu d lim s e with Ret x => snd (snd x) = e | Blocked => e = Stall | _ => False end.
Proof.
  unfold fu. destruct (M_Reader.scan d lim s) as [[[t rest] l] found]. destruct (found || (l =? 0)%N); [reflexivity|].
  destruct e; reflexivity.
Qed.
Lemma fl_line_safe lim s e : match fl_line lim s e with Ret x => snd (snd x) = e | Blocked => e = Stall | _ => False end.
Proof.
  unfold fl_line. pose proof (fu_safe LF lim s e) as H. destruct (fu LF lim s e) as [[[t|] [r e']]| | | |]; cbn [obind fst snd] in *; auto.
  destruct (utf8_decode t); auto.
Qed.
Lemma fl_lines_safe cfg e : forall f s h, wf h -> length s < f ->
  match fl_lines f cfg s e h with Ret (_, _, x) => snd x = e | Blocked => e = Stall | _ => False end.
Proof.
  induction f as [|f IH]; intros s h Hw Hf; [lia|]. cbn [fl_lines].
  pose proof (fu_safe LF (h_max_header_line_size cfg) s e) as H.
  destruct (fu LF (h_max_header_line_size cfg) s e) as [[o [r e']]| | | |] eqn:E; cbn [obind fst snd] in *; auto.
  subst e'. apply fu_inv in E as (_ & E). destruct o as [t|]; [|reflexivity]. destruct E as (-> & _).
  rewrite app_length in Hf.
  destruct (Nat.ltb_spec (length t) 2); [reflexivity|]. destruct (Nat.eqb (length t) 2); [reflexivity|].
  destruct (scan_line [] 0 (firstn (length t - 2) t)) as [| |k v]; [reflexivity| |].
  - apply IH; [exact Hw|lia].
  - destruct (step_wf (fun l => l) h (OAppend k v) (fun l => Permutation_refl l) Hw) as (h1 & E1 & W1).
    cbn [mm_step] in E1. rewrite E1. cbn [obind]. destruct (_ <? _)%N; [reflexivity|]. apply IH; [exact W1|lia].
Qed.

Definition kept (h : mmap) : Prop := h = mm_new \/ exists h', h = mm_clear h'.
Section Ends.
Variable K : codec.
Notation message := (message K).

Lemma fl_headers_safe cfg s e f (m : message) : wf (headers m) -> length s < f ->
  match fl_headers f cfg s e m with Ret (_, _, x) => snd x = e | Blocked => e = Stall | _ => False end.
Proof.
  intros Hw Hf. unfold fl_headers.
  pose proof (fu_safe SP 128 s e) as H. destruct (fu SP 128 s e) as [[o0 [s0 e0]]| | | |] eqn:E0; cbn [obind fst snd] in *; auto.
  subst e0. apply fu_inv in E0 as (_ & E0). destruct o0 as [t0|]; [|reflexivity].
  destruct (Nat.ltb (length t0) 1); [reflexivity|]. destruct (negb _); [reflexivity|].
  pose proof (fu_safe SP (h_max_url_size cfg) s0 e) as H.
  destruct (fu SP (h_max_url_size cfg) s0 e) as [[o1 [s1 e1]]| | | |] eqn:E1; cbn [obind fst snd] in *; auto.
  subst e1. apply fu_inv in E1 as (_ & E1). destruct o1 as [t1|]; [|reflexivity].
  destruct (Nat.ltb (length t1) 1); [reflexivity|]. destruct (negb _); [reflexivity|].
  pose proof (fl_line_safe 128 s1 e) as H.
  destruct (fl_line 128 s1 e) as [[o2 [s2 e2]]| | | |] eqn:E2; cbn [obind fst snd] in *; auto.
  subst e2. destruct o2 as [t2|]; [|reflexivity].
  destruct (Nat.ltb (length t2) 3); [reflexivity|]. destruct (negb _); [reflexivity|].
  assert (L : length s2 < f).
  { unfold fl_line in E2. destruct (fu LF 128 s1 e) as [[o3 [s3 e3]]| | | |] eqn:E3; try easy. apply fu_inv in E3 as (_ & E3).
    destruct o3 as [t3|]; [|easy]. cbn [obind fst snd] in E2. destruct (utf8_decode t3); [|easy]. injection E2 as -> -> _.
    destruct E0 as (-> & _), E1 as (-> & _), E3 as (-> & _). rewrite !app_length in Hf. lia. }
  pose proof (fl_lines_safe cfg e f s2 (headers m) Hw L) as H.
  destruct (fl_lines f cfg s2 e (headers m)) as [[[c h] r']| | | |]; cbn [obind]; auto.
Qed.

(** reading a body: as announced, or the stream ends within it *)
Lemma body_safe cfg s s1 e (m0 m1 : message) buf f : empty_head K m0 -> mbody m0 = Body (Some buf) None ->
  fl_headers f cfg s e m0 = Ret (RcOk, m1, (s1, e)) ->
  match fl_const_body s1 e m1 with
  | Ret (RcOk, m2, x) => snd x = e /\ exists b, mbody m2 = Body (Some b) None
  | Ret _ => True
  | Blocked => e = Stall
  | NoFuel => e = Eof /\ unfinished e cfg s
  | _ => False
  end.
Proof.
  intros (M0 & M1 & M2 & Hw & Hs) Hb E1. apply fl_accepted in E1 as (_ & Hb1 & ls & Hh & Hr); auto.
  destruct (same_run_table _ _ _ Hs Hr) as (h & Ht & Hsh).
  assert (Hwh : wf h).
  { destruct (run_wf (fun l => l) (fields_added (all_fields ls)) (fun l => Permutation_refl l) mm_new new_wf) as (h' & E & W).
    unfold table_of in Ht. congruence. }
  unfold fl_const_body, get_content_length. rewrite (same_get _ _ _ Hsh).
  destruct (mm_get h (B "content-length")) as [o| | | |] eqn:Eg;
    try (rewrite get_view in Eg by exact Hwh; discriminate).
  cbn [obind].
  assert (Hgo : forall n, announces ls n ->
    match fl_length_raw s1 e m1 n with
    | Ret (RcOk, m2, x) => snd x = e /\ exists b, mbody m2 = Body (Some b) None
    | Ret _ => True
    | Blocked => e = Stall
    | NoFuel => e = Eof /\ unfinished e cfg s
    | _ => False
    end).
  { intros n Hn. unfold fl_length_raw, fl_raw. rewrite Hb1, Hb. cbn [b_internal b_cw].
    destruct (n <? 1)%N eqn:En; cbn [obind]; [split; [reflexivity|]; unfold with_body; cbn [mbody]; eauto|].
    destruct (n <=? lenN s1)%N eqn:El; cbn [obind]; [split; [reflexivity|]; unfold with_body; cbn [mbody]; eauto|].
    destruct e; cbn [obind]; auto. split; [reflexivity|]. unfold unfinished. exists (fl0 m1), (fl1 m1), (fl2 m1), ls, s1, n.
    split; [exact Hh|]. split; [exact Hn|]. unfold lenN in El. lia. }
  destruct o as [v|].
  - destruct (parse_uint_b u64max v) as [n|] eqn:Ep; cbn [obind]; [|exact I]. apply parse_content in Ep as [Hlt Ep].
    apply Hgo. exists h. split; [exact Ht|]. right. exists v. auto.
  - cbn [obind]. apply Hgo. exists h. split; [exact Ht|]. left. auto.
Qed.

Lemma fl_serve_ends cfg ho svc e : sturdy ho svc -> forall fuel s w req resp log,
  empty_head K req -> live K req -> fresh resp -> live K resp -> kept (headers resp) -> length s < fuel ->
  exists log' qs rest, cr_log (fl_serve fuel cfg ho svc s e w req resp log) = log ++ log'
    /\ requests_at e cfg s qs rest /\ Forall2 (sgot K) qs (map fst log')
    /\ no_crash e cfg rest (cr_end (fl_serve fuel cfg ho svc s e w req resp log)).
Proof.
  intros Hsvc. induction fuel as [|f IH]; intros s w req resp log He Hl Hfr Hlr Hk Hf; [lia|].
  assert (Hnil : forall res : conn_result K, cr_log res = log -> no_crash e cfg s (cr_end res) ->
    exists log' qs rest, cr_log res = log ++ log' /\ requests_at e cfg s qs rest /\ Forall2 (sgot K) qs (map fst log')
      /\ no_crash e cfg rest (cr_end res)).
  { intros res H H'. exists [], [], s. rewrite app_nil_r. splits; auto; constructor. }
  cbn [fl_serve].
  pose proof (fl_headers_safe cfg s e (S (length s)) req (proj1 (proj2 (proj2 (proj2 He)))) (Nat.lt_succ_diag_r _)) as S1.
  destruct (fl_headers (S (length s)) cfg s e req) as [[[c req1] [s1 e1]]| | | |] eqn:E1; try easy; [|now apply Hnil].
  cbn [snd] in S1. subst e1.
  destruct c; try (now apply Hnil). destruct Hl as (buf & Hb).
  pose proof (body_safe cfg s s1 e req req1 buf _ He Hb E1) as S2.
  destruct (fl_const_body s1 e req1) as [[[c req2] [s2 e2]]| | | |] eqn:E2; try easy; [|now apply Hnil|now apply Hnil].
  destruct c; try (now apply Hnil). destruct S2 as (S2 & b2 & Hb2). cbn [snd] in S2. subst e2.
  destruct (got_one K cfg s e req req1 req2 s1 s2 e e _ He E1 E2) as (_ & _ & q & Hq & Ha & Hh).
  assert (Hone : forall (res : conn_result K) d, cr_log res = log ++ [(req2, d)] -> cr_end res = EndClosed ->
    exists log' qs rest, cr_log res = log ++ log' /\ requests_at e cfg s qs rest /\ Forall2 (sgot K) qs (map fst log')
      /\ no_crash e cfg rest (cr_end res)).
  { intros res d H H'. exists [(req2, d)], [q], s2. rewrite H'. splits; auto.
    - econstructor; eauto. constructor.
    - cbn. constructor; [exact Hq|constructor].
    - exact I. }
  destruct (Hsvc req2 resp (ex_intro _ b2 Hb2) (conj (fresh_blank _ _ Hfr Hlr) Hk)) as (o & req3 & resp3 & -> & Ho).
  destruct o as [p|]; [|eapply Hone; reflexivity].
  assert (Hp : p <> Http2 /\ (exists d resp'', serialize ho resp3 = Ret (d, resp''))
               /\ (p = Current true -> usable (mbody req3) /\ usable (mbody resp3))) by (destruct p; [split; [easy|exact Ho]|split; [easy|exact Ho]|easy]).
  destruct Hp as (Hn & (d & resp4 & Es) & Hu). rewrite Es. destruct d as [data|]; [|eapply Hone; reflexivity].
  destruct (snd (w_write data w)); [|eapply Hone; reflexivity].
  destruct p as [ka| |]; try easy; try (eapply Hone; reflexivity). destruct ka; cbn [negb]; [|eapply Hone; reflexivity].
  destruct (Hu eq_refl) as [U1 U2].
  apply fl_headers_shrink in E1 as (_ & L1). apply fl_const_body_shrink in E2 as (_ & L2).
  destruct (IH s2 (fst (w_write data w)) (msg_clear req3) (msg_clear resp4) (log ++ [(req2, Some data)]))
    as (log' & qs & rest & H1 & H2 & H3 & H4).
  - apply empty_head_clear.
  - now apply clear_live.
  - apply fresh_clear.
  - apply clear_live. eapply serialize_usable; eauto.
  - right. eexists. reflexivity.
  - lia.
  - exists ((req2, Some data) :: log'), (q :: qs), rest. rewrite H1, <- app_assoc. splits; auto.
    + econstructor; eauto.
    + cbn [map fst]. now constructor.
Qed.

Lemma crash_free : forall fuel cfg caps ho (svc : service K) r w,
  (forall k, 0 < caps k)%N -> enough fuel r -> sturdy ho svc ->
  exists qs rest, requests_at (fin r) cfg (flat r) qs rest
    /\ Forall2 is_got qs (map fst (cr_log (serve fuel cfg caps ho svc r w)))
    /\ no_crash (fin r) cfg rest (cr_end (serve fuel cfg caps ho svc r w)).
Proof.
  intros fuel cfg caps ho svc r w Hcap Hf Hs. unfold serve. rewrite serve_flat by easy.
  destruct (fl_serve_ends cfg ho svc (fin r) Hs fuel (flat r) w msg_default msg_default [] (empty_head_default K) (live_default K)
    (fresh_default K) (live_default K) (or_introl eq_refl) Hf) as (log' & qs & rest & H1 & H2 & H3 & H4).
  exists qs, rest. rewrite H1. split; [exact H2|]. split; [now apply sgot_got|exact H4].
Qed.

Lemma hello_sturdy ho : sturdy ho (@hello_http K).
Proof.
  intros req resp (rb & Hrb) [Hb _]. destruct (hello_total K ho req resp Hb) as (resp' & data & resp'' & E1 & E2 & E3).
  eexists _, req, resp'. split; [exact E1|]. cbn. split; [eauto|]. intros _. split; [left; rewrite Hrb; discriminate|exact E2].
Qed.
Lemma fs_sturdy ho : sturdy ho (@fs_http K).
Proof.
  intros req resp Hr [Hb _]. destruct (fs_answers K ho [fl2 req] req resp (or_introl eq_refl) Hr Hb) as (req' & resp' & d & resp'' & E1 & E2 & E3 & E4).
  eexists _, req', resp'. split; [exact E1|]. cbn. split; eauto.
Qed.

(** scripts of steps *)
Lemma kept_wf h : kept h -> wf h.
Proof. intros [->|(h' & ->)]; [apply new_wf|]. destruct (clear_ok h') as [[Hw _] _]. exact Hw. Qed.
Lemma b_step_usable (b b' : body K) o : no_failure K -> usable b -> b_step b o = Ret b' -> usable b'.
Proof.
  intros Hn Hu. unfold usable, b_step, body_write, body_compression, body_decompression, body_clear, body_end.
  destruct b as [[i|] [c|]], o; cbn [b_internal b_cw obind fst]; intros E;
    try (destruct (c_append K c d) as [c' n] eqn:Ea); try (destruct (c_expose K c) eqn:Ec; [|now apply Hn in Ec]);
    cbn [obind fst] in E; try discriminate E; apply F_Trace.ret_inj in E; subst b'; cbn; try (left; discriminate); try (right; discriminate).
  all: destruct Hu as [Hu|Hu]; now cbn in Hu.
Qed.
Lemma rw_run_total (l : list rop) : no_failure K -> forall m : message, wf (headers m) -> usable (mbody m) ->
  (exists b, b_run (mbody m) (body_steps l) = Ret b) ->
  exists m', rw_run m l = Ret m' /\ wf (headers m') /\ usable (mbody m').
Proof.
  intros Hn. induction l as [|o l IH]; intros m Hw Hu (b & Hb); [exists m; auto|]. cbn [rw_run].
  assert (Hh : forall op : mop, (match op with OAppend _ _ | OSet _ _ | ODelete _ => True | _ => False end) ->
    exists h, mm_step (fun l => l) (headers m) op = Ret h /\ wf h).
  { intros op _. apply step_wf; [intros x; apply Permutation_refl|exact Hw]. }
  unfold body_steps in Hb. cbn [map concat] in Hb.
  destruct o as [a c|c r|k v|k v|k|o]; cbn [rw_step app] in *.
  - cbn [obind]. apply IH; auto. eauto.
  - cbn [obind]. apply IH; auto. eauto.
  - unfold rw_header. destruct (Hh (OAppend k v) I) as (h & E & W). cbn [mm_step] in E. rewrite E. cbn [obind]. apply IH; auto. eauto.
  - unfold rw_setheader. destruct (Hh (OSet k v) I) as (h & E & W). cbn [mm_step] in E. rewrite E. cbn [obind]. apply IH; auto. eauto.
  - unfold rw_delheader. destruct (Hh (ODelete k) I) as (h & E & W). cbn [mm_step] in E. rewrite E. cbn [obind]. apply IH; auto. eauto.
  - cbn [b_run] in Hb. destruct (b_step (mbody m) o) as [b1| | | |] eqn:E; cbn [obind] in *; try discriminate.
    apply IH; [exact Hw| |cbn [mbody with_body]; eauto]. cbn [mbody with_body]. eapply b_step_usable; eauto.
Qed.
Lemma serialize_total ho (m : message) : no_failure K -> wf (headers m) -> usable (mbody m) ->
  exists d m', serialize ho m = Ret (Some d, m').
Proof.
  intros Hn Hw Hu.
  assert (Hs : forall x, exists h, mm_set (headers m) (B "content-length") x = Ret h /\ exists y, mm_each ho h header_visitor [] = Ret y).
  { intros x. destruct (step_wf (fun l => l) (headers m) (OSet (B "content-length") x) (fun l => Permutation_refl l) Hw) as (h & E & W).
    exists h. split; [exact E|]. now apply F_Trace.each_ret. }
  assert (He : exists buf, body_end (mbody m) = (Body (Some buf) None, true) \/ exists c, body_end (mbody m) = (Body (Some buf) c, true)).
  { unfold body_end. destruct (mbody m) as [i [c|]]; cbn [b_cw b_internal].
    - destruct (c_expose K c) as [buf|] eqn:Ec; [|now apply Hn in Ec]. eauto.
    - destruct i as [buf|]; [eauto|]. destruct Hu as [Hu|Hu]; now cbn in Hu. }
  destruct He as (buf & He). assert (Hc : exists c, body_end (mbody m) = (Body (Some buf) c, true)) by (destruct He as [He|He]; eauto).
  destruct Hc as (c & Ee). unfold serialize. rewrite Ee. unfold body_size, body_inner. cbn [b_internal].
  destruct (Hs (dec (N.of_nat (length buf)))) as (h & -> & y & Ey). cbn [obind]. rewrite Ey. cbn [obind].
  destruct (Nat.ltb 0 _); eauto.
Qed.
Lemma scripts_sturdy ho f : no_failure K ->
  (forall req, snd (f req) <> Http2) ->
  (forall req buf, exists b, b_run (K := K) (Body (Some buf) None) (body_steps (fst (f req))) = Ret b) ->
  sturdy ho (@scripted K f).
Proof.
  intros Hn Hp Hb req resp (rb & Hrb) [(_ & _ & _ & _ & buf & Hm) Hk]. unfold scripted.
  destruct (rw_run_total (fst (f req)) Hn resp (kept_wf _ Hk)) as (m' & E & W & U).
  - rewrite Hm. left. discriminate.
  - rewrite Hm. apply Hb.
  - rewrite E. cbn [obind]. eexists _, req, m'. split; [reflexivity|]. specialize (Hp req).
    destruct (serialize_total ho m' Hn W U) as (d & m2 & Es).
    assert (X : (exists d resp'', serialize ho m' = Ret (d, resp'')) /\ (snd (f req) = Current true -> usable (mbody req) /\ usable (mbody m'))).
    { split; [eauto|]. intros _. split; [left; rewrite Hrb; discriminate|exact U]. }
    destruct (snd (f req)); auto.
Qed.
End Ends.
