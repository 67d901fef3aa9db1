(** What the calls of a handler leave in the response (C97). *)
From Verif Require Export F_Deletes.

Section Written.
Variable K : codec.
Notation message := (message K).
Notation body := (body K).

Lemma spread_lists es a : NoDup (map fst es) -> (forall k vs, In (k, vs) es <-> a k = Some vs) -> lists (spread es) a.
Proof.
  intros Hnd Hin k.
  assert (G : forall es, NoDup (map fst es) ->
    map snd (filter (fun f : field => if bytes_same (fst f) k then true else false) (spread es))
    = match h_get k es with Some vs => vs | None => [] end).
  { clear. induction es as [|[x vs] es IH]; intros Hnd; [reflexivity|].
    cbn [map fst] in Hnd. inversion Hnd as [|? ? Hn Hnd']; subst.
    unfold spread. cbn [map concat fst snd]. rewrite filter_app, map_app. fold (spread es).
    refine (eq_trans (f_equal (app _) (IH Hnd')) _).
    cbn [h_get]. destruct (bytes_eqb_spec x k) as [->|N].
    - assert (h_get k es = None) as ->.
      { destruct (h_get k es) eqn:E; [|reflexivity]. exfalso. apply Hn. apply h_get_in in E. now apply (in_map fst) in E. }
      rewrite app_nil_r. clear. induction vs as [|v vs IH]; [reflexivity|].
      cbn [map filter fst]. destruct (bytes_same k k); [|easy]. cbn [map snd]. now rewrite IH.
    - rewrite filter_absent; [reflexivity|cbn [fst]; destruct (bytes_same x k); easy|reflexivity]. }
  rewrite G by easy. f_equal. destruct (h_get k es) as [vs|] eqn:E.
  - apply h_get_in in E. apply Hin in E. now rewrite E.
  - destruct (a k) as [vs|] eqn:Ea; [|reflexivity]. apply Hin in Ea. apply h_get_nodup in Ea; [congruence|easy].
Qed.

Lemma body_after_over enc r l : forall plain cur,
  body_after enc ((l ++ [BEnd; BClear]) ++ r) plain cur
  = match body_after enc l plain cur with Some d => body_after enc r d None | None => None end.
Proof.
  induction l as [|o l IH]; intros plain cur; [reflexivity|].
  cbn [app]. destruct o; cbn [body_after]; try (destruct cur as [[[ct' level'] x]|]); auto.
Qed.

Definition sent_line (l : list rop) : bytes :=
  all_of says_version l ++ [SP] ++ all_of says_code l ++ [SP] ++ all_of says_reason l.
Definition told (l : list rop) (body : bytes) : amap :=
  a_update (a_run (all_of says_header l) a_empty) (B "content-length") (Some [dec (N.of_nat (length body))]).

Lemma says_body_encodes l : Forall writes l -> Forall encodes_only (all_of says_body l).
Proof.
  unfold all_of. induction 1 as [|o l Ho _ IH]; [constructor|]. cbn [map concat]. apply Forall_app. split; [|exact IH].
  destruct o; cbn; auto.
Qed.

Lemma sound_nil ops : forall L a, all_sound L ops -> a [] = None -> a_run ops a [] = None.
Proof.
  induction ops as [|o ops IH]; intros L a Hs Ha; [exact Ha|].
  destruct Hs as [H1 H2]. apply (IH _ _ H2). destruct o as [k v|k v|k v|k| |f]; cbn [a_step]; unfold a_update.
  - destruct (bytes_same [] k) as [<-|]; [|easy]. destruct L; cbn in H1; tauto.
  - destruct (bytes_same [] k) as [<-|]; [|easy]. destruct L; cbn in H1; tauto.
  - destruct (bytes_same [] k); [|easy]. subst. now rewrite Ha.
  - now destruct (bytes_same [] k).
  - reflexivity.
  - now rewrite Ha.
Qed.

Lemma written_step enc (f : message -> list rop * protocol) ho req resp pre : streams K enc -> order_ok ho ->
  Forall writes (fst (f req)) /\ headers_sound (fst (f req)) -> clean_slate K resp -> mbody resp = Body (Some pre) None ->
  match body_after enc (all_of says_body (fst (f req))) pre None with
  | None => scripted f req resp = Panic
  | Some body => exists m fs m', scripted f req resp = Ret (Some (snd (f req)), req, m)
      /\ serialize ho m = Ret (Some (response (sent_line (fst (f req))) fs body), m')
      /\ lists fs (told (fst (f req)) body) /\ mbody (msg_clear m') = Body (Some body) None
  end.
Proof.
  intros He Hho [Hw Hsound] Hs Hb. set (l := fst (f req)) in *.
  unfold headers_sound in Hsound. apply all_sound_app in Hsound as [Hs1 [Hs2 _]].
  pose proof (history K enc He (all_of says_body l) pre (says_body_encodes l Hw)) as H.
  destruct (slate_fits K resp Hs) as (F1 & F2 & F3).
  pose proof (rw_split K l resp a_empty (Row []) F1 F2 F3 Hs1) as Hr. rewrite Hb in Hr.
  unfold scripted. fold l. destruct (body_after enc (all_of says_body l) pre None) as [d|].
  2:{ rewrite H in Hr. now rewrite Hr. }
  destruct H as (b & E1 & E2). rewrite E1 in Hr.
  destruct Hr as (m & E & G0 & G1 & G2 & Hf & Hq & Hvw & Hm). rewrite E. cbn [obind].
  destruct (serialize_live K ho m _ [] Hho Hf Hq Hs2) as (es & m' & Hnd & Hin & Es & Hm').
  unfold final_body in *. rewrite Hm, E2 in *. cbn [fst snd b_internal] in *.
  assert (L : first_line K m = sent_line l).
  { unfold first_line, sent_line. destruct Hs as (S0 & S1 & S2 & _). now rewrite G0, G1, G2, S0, S1, S2. }
  rewrite L in Es. eexists m, (spread es), _. split; [reflexivity|]. split; [exact Es|]. split.
  - apply spread_lists; [exact Hnd|]. intros k vs. rewrite Hin. unfold last_view, told, a_update, final_body.
    rewrite Hm, E2. cbn [fst b_internal]. destruct (bytes_same k (B "content-length")); [reflexivity|].
    destruct k as [|c k]; [now rewrite (sound_nil _ (Row []) a_empty Hs1)|]. now rewrite Hvw.
  - unfold msg_clear. cbn [mbody]. now rewrite Hm'.
Qed.

Lemma runs_written enc f ho : streams K enc -> order_ok ho -> (forall req, Forall writes (fst (f req)) /\ headers_sound (fst (f req))) ->
  forall w resp log e, runs K ho (scripted f) w resp log e ->
  forall pre before req o after, clean_slate K resp -> mbody resp = Body (Some pre) None ->
  log = before ++ (req, o) :: after ->
  match body_after enc (body_so_far f before ++ all_of says_body (fst (f req))) pre None with
  | None => o = None
  | Some body => exists fs, o = Some (response (sent_line (fst (f req))) fs body) /\ lists fs (told (fst (f req)) body)
  end.
Proof.
  intros He Hho Hw w resp log e Hr.
  assert (One : forall (x : message * option bytes) before req o after, [x] = before ++ (req, o) :: after ->
    before = [] /\ x = (req, o)).
  { intros x [|y [|z before]] req o after; cbn [app]; intros E; try discriminate. injection E as -> _. auto. }
  induction Hr as [w resp e|w resp r r' p' E|w resp r E|w resp r p r' p' p'' E E2|w resp r p r' p' E E2
    |w resp r p r' p' data p'' E E2 E3|w resp r p r' p' data p'' E E2 E3 E4|w resp r r' p' data p'' l e E E2 E3 Hr IH];
    intros pre before req o after Hs Hb El.
  - destruct before; discriminate.
  - apply One in El as [-> [= <- <-]]. cbn [body_so_far map concat app].
    pose proof (written_step enc f ho r resp pre He Hho (Hw r) Hs Hb) as H.
    destruct (body_after enc _ pre None); [|reflexivity]. destruct H as (m & fs & m' & H & _). rewrite E in H. discriminate.
  - apply One in El as [-> [= <- <-]]. cbn [body_so_far map concat app].
    pose proof (written_step enc f ho r resp pre He Hho (Hw r) Hs Hb) as H.
    destruct (body_after enc _ pre None); [|reflexivity]. destruct H as (m & fs & m' & H & _). now apply E in H.
  - apply One in El as [-> [= <- <-]]. cbn [body_so_far map concat app].
    pose proof (written_step enc f ho r resp pre He Hho (Hw r) Hs Hb) as H.
    destruct (body_after enc _ pre None); [|reflexivity]. destruct H as (m & fs & m' & H & H2 & _). rewrite E in H.
    injection H as -> _ ->. rewrite E2 in H2. discriminate.
  - apply One in El as [-> [= <- <-]]. cbn [body_so_far map concat app].
    pose proof (written_step enc f ho r resp pre He Hho (Hw r) Hs Hb) as H.
    destruct (body_after enc _ pre None); [|reflexivity]. destruct H as (m & fs & m' & H & H2 & _). rewrite E in H.
    injection H as -> _ ->. now apply E2 in H2.
  - apply One in El as [-> [= <- <-]]. cbn [body_so_far map concat app].
    pose proof (written_step enc f ho r resp pre He Hho (Hw r) Hs Hb) as H.
    destruct (body_after enc _ pre None); [|congruence]. destruct H as (m & fs & m' & H & H2 & H3 & _). rewrite E in H.
    injection H as -> _ ->. rewrite E2 in H2. injection H2 as -> _. eauto.
  - apply One in El as [-> [= <- <-]]. cbn [body_so_far map concat app].
    pose proof (written_step enc f ho r resp pre He Hho (Hw r) Hs Hb) as H.
    destruct (body_after enc _ pre None); [|congruence]. destruct H as (m & fs & m' & H & H2 & H3 & _). rewrite E in H.
    injection H as -> _ ->. rewrite E2 in H2. injection H2 as -> _. eauto.
  - pose proof (written_step enc f ho r resp pre He Hho (Hw r) Hs Hb) as H.
    destruct (body_after enc (all_of says_body (fst (f r))) pre None) as [body1|] eqn:Eb; [|congruence].
    destruct H as (m & fs & m' & H & H2 & H3 & H4). rewrite E in H.
    injection H as Hp _ ->. rewrite E2 in H2. injection H2 as -> ->.
    destruct before as [|x before]; cbn [app] in El.
    + injection El as <- <- <-. cbn [body_so_far map concat app]. rewrite Eb. eauto.
    + injection El as <- El. unfold body_so_far. cbn [map concat fst]. rewrite <- app_assoc, body_after_over, Eb.
      apply (IH body1 before req o after); auto using slate_clear.
Qed.

Lemma written enc : streams K enc -> forall fuel cfg caps ho f r w before req o after, order_ok ho ->
  (forall req, Forall writes (fst (f req)) /\ headers_sound (fst (f req))) ->
  cr_log (serve fuel cfg caps ho (@scripted K f) r w) = before ++ (req, o) :: after ->
  let ops := fst (f req) in
  match body_after enc (body_so_far f before ++ all_of says_body ops) [] None with
  | None => o = None
  | Some body => exists fs,
      o = Some (response (all_of says_version ops ++ [SP] ++ all_of says_code ops ++ [SP] ++ all_of says_reason ops) fs body)
      /\ lists fs (a_update (a_run (all_of says_header ops) a_empty)
                            (B "content-length") (Some [dec (N.of_nat (length body))]))
  end.
Proof.
  intros He fuel cfg caps ho f r w before req o after Hho Hw E ops. unfold serve in E.
  destruct (serve_loop_runs K ho (scripted f) cfg caps fuel fuel 0 r w msg_default msg_default []) as (log & E1 & Hr).
  cbn [app] in E1. rewrite E1 in E.
  exact (runs_written enc f ho He Hho Hw _ _ _ _ Hr [] before req o after (slate_default K) eq_refl E).
Qed.

Lemma silent_bodies {M : Type} enc (f : M -> list rop * protocol) before : (forall req, all_of says_body (fst (f req)) = []) ->
  body_after enc (body_so_far f before ++ []) [] None = Some [].
Proof.
  intros H. rewrite app_nil_r. unfold body_so_far. induction before as [|x before IH]; [reflexivity|].
  cbn [map concat]. rewrite H. cbn [app body_after whole]. exact IH.
Qed.

Lemma said_twice enc : streams K enc -> forall fuel cfg caps ho a1 b1 a2 b2 c1 r1 c2 r2 p r w req o, order_ok ho ->
  In (req, o) (cr_log (serve fuel cfg caps ho
       (@scripted K (fun _ => ([RVersion a1 b1; RVersion a2 b2; RCode c1 r1; RCode c2 r2], p))) r w)) ->
  exists fs, o = Some (response (B "HTTP/" ++ dec a1 ++ B "." ++ dec b1 ++ B "HTTP/" ++ dec a2 ++ B "." ++ dec b2
                                 ++ [SP] ++ dec c1 ++ dec c2 ++ [SP] ++ r1 ++ r2) fs []).
Proof.
  intros He fuel cfg caps ho a1 b1 a2 b2 c1 r1 c2 r2 p r w req o Hho Hi.
  apply in_split in Hi as (before & after & E).
  set (f := fun _ : message => _) in E.
  assert (Hw : forall q, Forall writes (fst (f q)) /\ headers_sound (fst (f q))).
  { intros q. split; [repeat (constructor; [exact I|]); constructor|].
    apply none_deleted. repeat (constructor; [exact I|]); constructor. }
  pose proof (written enc He fuel cfg caps ho f r w before req o after Hho Hw E) as H.
  change (all_of says_body _) with (@nil bop) in H. rewrite silent_bodies in H by reflexivity.
  destruct H as (fs & H & _). exists fs. rewrite H. f_equal. f_equal.
  unfold f, all_of. cbn [fst map concat says_version says_code says_reason]. rewrite !app_nil_r, <- !app_assoc. reflexivity.
Qed.
End Written.
