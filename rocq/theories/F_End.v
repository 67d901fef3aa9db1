(** How a connection ends (C93), and what comes before. *)
From Verif Require Export F_Served.

Section End.
Variable K : codec.
Variable ho : hash_order.
Variable svc : service K.
Notation message := (message K).

(** the exchanges of a connection from a point on: the writer and the response at that point, the
    entries added to the log, the ending *)
Inductive runs : writer -> message -> list (message * option bytes) -> conn_end -> Prop :=
| runs_nil w resp e : runs w resp [] e
| runs_err w resp req req' resp' :
    svc req resp = Ret (None, req', resp') -> runs w resp [(req, None)] EndClosed
| runs_out w resp req : (forall x, svc req resp <> Ret x) -> runs w resp [(req, None)] (end_of (svc req resp))
| runs_fail w resp req p req' resp' resp'' :
    svc req resp = Ret (Some p, req', resp') -> serialize ho resp' = Ret (None, resp'') ->
    runs w resp [(req, None)] EndClosed
| runs_crash w resp req p req' resp' :
    svc req resp = Ret (Some p, req', resp') -> (forall x, serialize ho resp' <> Ret x) ->
    runs w resp [(req, None)] (end_of (serialize ho resp'))
| runs_cut w resp req p req' resp' data resp'' :
    svc req resp = Ret (Some p, req', resp') -> serialize ho resp' = Ret (Some data, resp'') ->
    snd (w_write data w) = false -> runs w resp [(req, Some data)] EndClosed
| runs_stop w resp req p req' resp' data resp'' :
    svc req resp = Ret (Some p, req', resp') -> serialize ho resp' = Ret (Some data, resp'') ->
    snd (w_write data w) = true -> p <> Current true ->
    runs w resp [(req, Some data)] (match p with Http2 => EndPanic | _ => EndClosed end)
| runs_next w resp req req' resp' data resp'' l e :
    svc req resp = Ret (Some (Current true), req', resp') -> serialize ho resp' = Ret (Some data, resp'') ->
    snd (w_write data w) = true -> runs (fst (w_write data w)) (msg_clear resp'') l e ->
    runs w resp ((req, Some data) :: l) e.

Lemma serve_loop_runs cfg caps inner : forall fuel k r w req resp log,
  let res := serve_loop fuel inner cfg caps ho svc k r w req resp log in
  exists log', cr_log res = log ++ log' /\ runs w resp log' (cr_end res).
Proof.
  induction fuel as [|f IH]; intros k r w req resp log; cbn [serve_loop].
  { exists []. rewrite app_nil_r. split; [reflexivity|constructor]. }
  assert (Hnil : forall res : conn_result K, cr_log res = log ->
    exists log', cr_log res = log ++ log' /\ runs w resp log' (cr_end res)).
  { intros res H. exists []. rewrite app_nil_r. split; [exact H|constructor]. }
  destruct (read_headers inner cfg r req) as [[[c req1] r1]| | | |]; try (apply Hnil; reflexivity).
  destruct c; try (apply Hnil; reflexivity).
  destruct (read_const_length_body inner (caps k) r1 req1) as [[[c req2] r2]| | | |]; try (apply Hnil; reflexivity).
  destruct c; try (apply Hnil; reflexivity).
  destruct (svc req2 resp) as [[[[p|] req3] resp3]| | | |] eqn:Es.
  2:{ exists [(req2, None)]. split; [reflexivity|]. eapply runs_err. exact Es. }
  2-5: exists [(req2, None)]; split; [reflexivity|]; cbn [cr_end];
    rewrite <- Es; apply runs_out; rewrite Es; discriminate.
  destruct (serialize ho resp3) as [[[data|] resp4]| | | |] eqn:Ez.
  2:{ exists [(req2, None)]. split; [reflexivity|]. eapply runs_fail; eauto. }
  2-5: exists [(req2, None)]; split; [reflexivity|]; cbn [cr_end];
    rewrite <- Ez; eapply runs_crash; [exact Es|rewrite Ez; discriminate].
  pose proof (runs_cut w resp req2 p req3 resp3 data resp4 Es Ez) as Hcut.
  pose proof (runs_stop w resp req2 p req3 resp3 data resp4 Es Ez) as Hstop.
  pose proof (fun l e => runs_next w resp req2 req3 resp3 data resp4 l e) as Hnext.
  destruct (w_write data w) as [w' okw]. cbn [fst snd] in *.
  destruct okw; [|exists [(req2, Some data)]; split; [reflexivity|auto]].
  destruct p as [ka| |].
  - destruct ka; cbn [negb].
    + destruct (IH (S k) r2 w' (msg_clear req3) (msg_clear resp4) (log ++ [(req2, Some data)])) as (log' & H1 & H2).
      exists ((req2, Some data) :: log'). rewrite H1, <- app_assoc. split; [reflexivity|]. auto.
    + exists [(req2, Some data)]. split; [reflexivity|]. apply Hstop; [reflexivity|discriminate].
  - exists [(req2, Some data)]. split; [reflexivity|]. apply Hstop; [reflexivity|discriminate].
  - exists [(req2, Some data)]. split; [reflexivity|]. apply Hstop; [reflexivity|discriminate].
Qed.

Lemma bare_clear (m : message) : bare (msg_clear m).
Proof.
  unfold bare, msg_clear. cbn [fl0 fl1 fl2 headers]. splits; auto.
Qed.
Lemma bare_default : bare (@msg_default K).
Proof. unfold bare. cbn. splits; auto. Qed.

Lemma room_write data w n : snd (w_write data w) = true -> room_for (fst (w_write data w)) n -> room_for w (length data + n).
Proof.
  unfold room_for, w_write. destruct (w_budget w) as [b|] eqn:Ew; [|auto].
  destruct (lenN data <=? b)%N eqn:El; cbn [fst snd w_budget]; [|discriminate]. unfold lenN in *. lia.
Qed.
Lemma room_whole data w : snd (w_write data w) = true -> room_for w (length data).
Proof.
  unfold room_for, w_write. destruct (w_budget w) as [b|]; [|auto].
  destruct (lenN data <=? b)%N eqn:El; cbn [fst snd w_budget]; [|discriminate]. unfold lenN in *. lia.
Qed.

Lemma runs_continue w resp l e : runs w resp l e -> bare resp ->
  forall before req d next after, l = before ++ (req, d) :: next :: after ->
  exists resp0 req' resp' data resp'', bare resp0 /\ svc req resp0 = Ret (Some (Current true), req', resp')
    /\ serialize ho resp' = Ret (Some data, resp'') /\ d = Some data
    /\ room_for w (length (concat (map sent (before ++ [(req, d)])))).
Proof.
  induction 1 as [| | | | | | |w resp req0 req1 resp1 data resp2 l e Es Ez Hw Hr IH]; intros Hb before q d next after E.
  - now destruct before.
  - destruct before as [|x [|]]; discriminate E.
  - destruct before as [|x [|]]; discriminate E.
  - destruct before as [|x [|]]; discriminate E.
  - destruct before as [|x [|]]; discriminate E.
  - destruct before as [|x [|]]; discriminate E.
  - destruct before as [|x [|]]; discriminate E.
  - destruct before as [|x before].
    + injection E as <- <- ->. exists resp, req1, resp1, data, resp2. splits; auto.
      cbn [app map concat sent snd]. rewrite app_nil_r. now apply room_whole.
    + injection E as <- ->. destruct (IH (bare_clear _) before q d next after eq_refl)
        as (resp0 & req' & resp' & data' & resp'' & H1 & H2 & H3 & H4 & H5).
      exists resp0, req', resp', data', resp''. splits; auto.
      cbn [app map concat sent snd]. rewrite app_length. now apply room_write.
Qed.

Lemma runs_last w resp l e : runs w resp l e -> bare resp ->
  forall req d, In (req, d) l -> gives_up ho svc req ->
  (exists before, l = before ++ [(req, d)]) /\ e = EndClosed.
Proof.
  induction 1 as [w resp e|w resp req req' resp' Es|w resp req Ho|w resp req p req' resp' resp'' Es Ez
      |w resp req p req' resp' Es Ho|w resp req p req' resp' data resp'' Es Ez Hw
      |w resp req p req' resp' data resp'' Es Ez Hw Hp|w resp req req' resp' data resp'' l e Es Ez Hw Hr IH];
    intros Hb q d Hin Hg.
  - destruct Hin.
  - destruct Hin as [[= <- <-]|[]]. split; [exists []; reflexivity|reflexivity].
  - destruct Hin as [[= <- <-]|[]]. exfalso. destruct (Hg resp Hb) as [(a & b & E)|(p & a & b & x & y & E & _)]; eapply Ho; exact E.
  - destruct Hin as [[= <- <-]|[]]. split; [exists []; reflexivity|reflexivity].
  - destruct Hin as [[= <- <-]|[]]. exfalso.
    destruct (Hg resp Hb) as [(a & b & E)|(p' & a & b & x & y & E & E2 & _)]; [congruence|].
    rewrite Es in E. injection E as <- <- <-. eapply Ho; exact E2.
  - destruct Hin as [[= <- <-]|[]]. split; [exists []; reflexivity|reflexivity].
  - destruct Hin as [[= <- <-]|[]]. split; [exists []; reflexivity|].
    destruct (Hg resp Hb) as [(a & b & E)|(p' & a & b & x & y & E & E2 & E3)]; [congruence|].
    rewrite Es in E. injection E as <- <- <-. rewrite Ez in E2. injection E2 as <- <-.
    destruct E3 as [E3|[-> | ->]]; [discriminate E3|reflexivity|reflexivity].
  - destruct Hin as [[= <- <-]|Hin].
    + exfalso. destruct (Hg resp Hb) as [(a & b & E)|(p' & a & b & x & y & E & E2 & E3)]; [congruence|].
      rewrite Es in E. injection E as <- <- <-. rewrite Ez in E2. injection E2 as <- <-.
      destruct E3 as [E3|[E3|E3]]; discriminate E3.
    + destruct (IH (bare_clear _) q d Hin Hg) as ((before & ->) & ->). split; [|reflexivity].
      now exists ((req, Some data) :: before).
Qed.

Lemma runs_panics w resp l e : runs w resp l e -> bare resp ->
  forall req d, In (req, d) l -> (forall resp, bare resp -> svc req resp = Panic) ->
  (exists before, l = before ++ [(req, d)]) /\ d = None /\ e = EndPanic.
Proof.
  induction 1 as [w resp e|w resp req req' resp' Es|w resp req Ho|w resp req p req' resp' resp'' Es Ez
      |w resp req p req' resp' Es Ho|w resp req p req' resp' data resp'' Es Ez Hw
      |w resp req p req' resp' data resp'' Es Ez Hw Hp|w resp req req' resp' data resp'' l e Es Ez Hw Hr IH];
    intros Hb q d Hin Hg.
  - destruct Hin.
  - destruct Hin as [[= <- <-]|[]]. rewrite Hg in Es by exact Hb. discriminate Es.
  - destruct Hin as [[= <- <-]|[]]. rewrite Hg by exact Hb. split; [exists []; reflexivity|auto].
  - destruct Hin as [[= <- <-]|[]]. rewrite Hg in Es by exact Hb. discriminate Es.
  - destruct Hin as [[= <- <-]|[]]. rewrite Hg in Es by exact Hb. discriminate Es.
  - destruct Hin as [[= <- <-]|[]]. rewrite Hg in Es by exact Hb. discriminate Es.
  - destruct Hin as [[= <- <-]|[]]. rewrite Hg in Es by exact Hb. discriminate Es.
  - destruct Hin as [[= <- <-]|Hin].
    + rewrite Hg in Es by exact Hb. discriminate Es.
    + destruct (IH (bare_clear _) q d Hin Hg) as ((before & ->) & -> & ->). split; [|auto].
      now exists ((req, Some data) :: before).
Qed.

(** switching protocols *)
Lemma runs_switch p w resp l e : runs w resp l e -> bare resp -> p <> Current true ->
  forall req d, In (req, d) l -> switches ho svc p req ->
  exists before data, l = before ++ [(req, d)] /\ d = Some data
    /\ (room_for w (length (concat (map sent l))) -> e = match p with Http2 => EndPanic | _ => EndClosed end).
Proof.
  intros H. induction H as [w resp e|w resp req req' resp' Es|w resp req Ho|w resp req p' req' resp' resp'' Es Ez
      |w resp req p' req' resp' Es Ho|w resp req p' req' resp' data resp'' Es Ez Hw
      |w resp req p' req' resp' data resp'' Es Ez Hw Hp|w resp req req' resp' data resp'' l e Es Ez Hw Hr IH];
    intros Hb Hne q d Hin Hg.
  - destruct Hin.
  - destruct Hin as [[= <- <-]|[]]. destruct (Hg resp Hb) as (a & b & x & y & E & _). congruence.
  - destruct Hin as [[= <- <-]|[]]. destruct (Hg resp Hb) as (a & b & x & y & E & _). now apply Ho in E.
  - destruct Hin as [[= <- <-]|[]]. destruct (Hg resp Hb) as (a & b & x & y & E & E2). congruence.
  - destruct Hin as [[= <- <-]|[]]. destruct (Hg resp Hb) as (a & b & x & y & E & E2).
    rewrite Es in E. injection E as <- <- <-. now apply Ho in E2.
  - destruct Hin as [[= <- <-]|[]]. exists [], data. splits; auto. cbn [map concat sent snd]. rewrite app_nil_r.
    intros Hroom. exfalso. revert Hw Hroom. unfold room_for, w_write. destruct (w_budget w) as [b|]; [|easy].
    destruct (lenN data <=? b)%N eqn:El; [easy|]. unfold lenN in El. lia.
  - destruct Hin as [[= <- <-]|[]]. exists [], data. splits; auto. intros _.
    destruct (Hg resp Hb) as (a & b & x & y & E & E2). rewrite Es in E. now injection E as -> _ _.
  - destruct Hin as [[= <- <-]|Hin].
    + destruct (Hg resp Hb) as (a & b & x & y & E & E2). rewrite Es in E. now injection E as <- _ _.
    + destruct (IH (bare_clear _) Hne q d Hin Hg) as (before & data' & -> & -> & H).
      exists ((req, Some data) :: before), data'. splits; auto. intros Hroom. apply H.
      cbn [map concat sent snd] in Hroom. rewrite app_length in Hroom. revert Hw Hroom. clear.
      unfold room_for, w_write. destruct (w_budget w) as [b|]; [|easy].
      destruct (lenN data <=? b)%N eqn:El; cbn [fst snd w_budget]; [|easy]. unfold lenN in *. lia.
Qed.

Lemma runs_cut_short w resp l e : runs w resp l e ->
  ~ room_for w (length (concat (map sent l))) -> e = EndClosed.
Proof.
  assert (T0 : forall x, room_for x 0) by (intros x; unfold room_for; destruct (w_budget x); [lia|auto]).
  induction 1 as [w resp e|w resp req req' resp' Es|w resp req Ho|w resp req p req' resp' resp'' Es Ez
      |w resp req p req' resp' Es Ho|w resp req p req' resp' data resp'' Es Ez Hw
      |w resp req p req' resp' data resp'' Es Ez Hw Hp|w resp req req' resp' data resp'' l e Es Ez Hw Hr IH]; intros Ht.
  1-5: try reflexivity; exfalso; apply Ht; apply T0.
  - reflexivity.
  - exfalso. apply Ht. cbn. rewrite app_nil_r. now apply room_whole.
  - apply IH. intros H. apply Ht. cbn [map concat sent snd]. rewrite app_length. now apply room_write.
Qed.

Section Serve.
Variables (fuel : nat) (cfg : http_config) (caps : nat -> N) (r : reader) (w : writer).
Let res := serve fuel cfg caps ho svc r w.
Lemma serve_runs : runs w msg_default (cr_log res) (cr_end res).
Proof.
  destruct (serve_loop_runs cfg caps fuel fuel 0 r w msg_default msg_default []) as (log' & H1 & H2).
  unfold res, serve. now rewrite H1.
Qed.
Lemma only_continues before req d next after : cr_log res = before ++ (req, d) :: next :: after ->
  exists resp req' resp' data resp'', bare resp /\ svc req resp = Ret (Some (Current true), req', resp')
    /\ serialize ho resp' = Ret (Some data, resp'') /\ d = Some data
    /\ room_for w (length (concat (map sent (before ++ [(req, d)])))).
Proof. intros E. exact (runs_continue _ _ _ _ serve_runs bare_default before req d next after E). Qed.
Lemma last_exchange req d : In (req, d) (cr_log res) -> gives_up ho svc req ->
  (exists before, cr_log res = before ++ [(req, d)]) /\ cr_end res = EndClosed.
Proof. exact (runs_last _ _ _ _ serve_runs bare_default req d). Qed.
Lemma handler_panics req d : In (req, d) (cr_log res) -> (forall resp, bare resp -> svc req resp = Panic) ->
  (exists before, cr_log res = before ++ [(req, d)]) /\ d = None /\ cr_end res = EndPanic.
Proof. exact (runs_panics _ _ _ _ serve_runs bare_default req d). Qed.
Lemma protocol_switch p req d : p <> Current true -> In (req, d) (cr_log res) -> switches ho svc p req ->
  exists before data, cr_log res = before ++ [(req, d)] /\ d = Some data
    /\ (room_for w (length (concat (map sent (cr_log res)))) -> cr_end res = match p with Http2 => EndPanic | _ => EndClosed end).
Proof. intros Hp Hin Hs. exact (runs_switch p _ _ _ _ serve_runs bare_default Hp req d Hin Hs). Qed.
Lemma client_gone : ~ room_for w (length (concat (map sent (cr_log res)))) -> cr_end res = EndClosed.
Proof. exact (runs_cut_short _ _ _ _ serve_runs). Qed.
End Serve.
End End.
