(** C126: what the console appenders put on the standard output. *)
From Verif Require Import S_Console S_Config2 F_Base F_Files F_Console P_Logging.

Definition ex_calls : list console_call :=
  [WriteAll 0 (B "one" ++ [ascii_of_nat 10]); WriteAll 1 (B "two" ++ [ascii_of_nat 10]); FlushAll 0;
   WriteAll 0 (B "three" ++ [ascii_of_nat 10])].
Definition ex_turns : list turn :=
  [GoOn; GoOn; GoOn; Print (B "httpd: shutdown"); GoOn; Land 1 None; Land 0 None; GoOn; GoOn; GoOn; Land 0 None].

(** C126, whatever the size of the lines, as long as no write to the standard output fails: what it
    receives consists of texts of the appenders and of other threads; the bytes of each appender are
    the beginning of what it was asked to write, in that order; a flush that has ended has put out
    all that the appender was asked to write before; no call reports an error. *)
Theorem C126_bytes_partial : forall n calls l t,
  addresses n calls -> output_works l -> turns (consoles n calls) l = Some t ->
  Forall (eq true) (told t) /\
  exists history,
    screen t = whole_screen history
    /\ from_source None history = printed l
    /\ (forall h, is_start (concat (from_source (Some h) history)) (concat (asked_of h calls)))
    /\ forall before h after, calls = before ++ FlushAll h :: after -> length before < length (told t) ->
       is_start (concat (asked_of h before)) (concat (from_source (Some h) history)).
Proof.
  intros n calls l t Ha Hw Hr. destruct (inv_turns n calls Ha l t Hw Hr) as (landed & I).
  split; [exact (i_told _ _ _ _ _ I)|]. exists landed. splits.
  - exact (i_scr _ _ _ _ _ I).
  - exact (i_prt _ _ _ _ _ I).
  - intros h. exists (concat (in_progress t h) ++ concat (asked_of h (todo t))).
    symmetry. exact (i_bytes _ _ _ _ _ I h).
  - exact (i_flush _ _ _ _ _ I).
Qed.
(** C126: lines of a usual size are never torn apart, doubled, invented or put in another order
    within an appender, even when writes fail; without failures none is left out either, but for the
    last ones. *)
Theorem C126_lines_partial : forall n calls l t,
  addresses n calls -> usual_lines calls -> turns (consoles n calls) l = Some t ->
  exists history,
    screen t = whole_screen history
    /\ from_source None history = printed l
    /\ (forall h, exists some rest, asked_of h calls = some ++ rest /\ survives (from_source (Some h) history) some)
    /\ (output_works l -> forall h, is_start (from_source (Some h) history) (asked_of h calls)).
Proof.
  intros n calls l t Ha Hu Hr. destruct (inv2_turns n calls Ha Hu l t Hr) as (landed & I).
  exists landed. splits.
  - exact (j_scr _ _ _ _ _ I).
  - exact (j_prt _ _ _ _ _ I).
  - intros h. destruct (j_hist _ _ _ _ _ I h) as (past & H1 & H2). eexists past, _. split; [symmetry; exact H2|exact H1].
  - intros Hw h. destruct (j_clean _ _ _ _ _ I Hw) as (_ & Hc). eexists. symmetry. exact (Hc h).
Qed.
(** C126: the consumer never gets stuck at the console: at any point the calls left can be finished. *)
Theorem C126_goes_on : forall n calls l t,
  addresses n calls -> turns (consoles n calls) l = Some t ->
  exists more t', output_works more /\ printed more = [] /\ turns t more = Some t' /\ todo t' = [].
Proof.
  intros n calls l t Ha Hr.
  assert (H : length (jobs t) = n /\ addresses n (todo t)).
  { assert (G : forall l0 t0, length (jobs t0) = n -> addresses n (todo t0) -> turns t0 l0 = Some t ->
                length (jobs t) = n /\ addresses n (todo t)).
    { induction l0 as [|x l0 IH]; intros t0 Hl Had H0; [injection H0 as <-; split; assumption|].
      cbn [turns] in H0. destruct (turn_step t0 x) as [t1|] eqn:Es; [|discriminate H0].
      apply (IH t1); [| |exact H0]; clear H0 IH; destruct x as [|h f|text]; cbn [turn_step] in Es.
      - unfold poll in Es. destruct (todo t0) as [|[h x|h] r]; [discriminate Es| |].
        + destruct x; [injection Es as <-; exact Hl|]. destruct (job_of t0 h) as [| |[|]]; try discriminate Es; injection Es as <-;
            unfold call_ends; cbn [jobs]; rewrite length_update; exact Hl.
        + destruct (job_of t0 h); try discriminate Es; injection Es as <-; unfold call_ends; cbn [jobs]; rewrite ?length_update; exact Hl.
      - unfold land in Es. destruct (job_of t0 h); try discriminate Es. injection Es as <-. cbn [jobs]. rewrite length_update. exact Hl.
      - injection Es as <-. exact Hl.
      - unfold poll in Es. destruct (todo t0) as [|[h x|h] r]; [discriminate Es| |]; inversion Had; subst.
        + destruct x; [injection Es as <-; assumption|]. destruct (job_of t0 h) as [| |[|]]; try discriminate Es; injection Es as <-;
            unfold call_ends; cbn [todo]; [constructor; assumption|constructor; assumption|assumption].
        + destruct (job_of t0 h); try discriminate Es; injection Es as <-; assumption.
      - unfold land in Es. destruct (job_of t0 h); try discriminate Es. injection Es as <-. exact Had.
      - injection Es as <-. exact Had. }
    apply (G l (consoles n calls)); [apply repeat_length|exact Ha|exact Hr]. }
  destruct H as (Hl & Had).
  destruct (go_on t (work (todo t)) (le_n _)) as (more & t' & Hf & Hm & He).
  { intros h. rewrite Hl. destruct (lt_dec h n) as [H|H]; [left; exact H|]. right. intros (c & Hc & Hh).
    unfold addresses in Had. rewrite Forall_forall in Had. specialize (Had c Hc). destruct c; lia. }
  exists more, t'. splits; try assumption.
  - intros h k Hin. rewrite Forall_forall in Hf. exact (Hf _ Hin).
  - clear - Hf. induction Hf as [|x r Hx _ IH]; [reflexivity|]. destruct x; [exact IH|exact IH|destruct Hx].
Qed.
(** C126: there are never more reports of errors than failed writes, and when the consumer has ended
    there are exactly as many: no failure goes unreported (but see C126_error_refuted). *)
Theorem C126_reported_partial : forall n wss l t,
  addresses n (session n wss) -> turns (consoles n (session n wss)) l = Some t ->
  length (filter negb (told t)) <= failures l
  /\ (todo t = [] -> length (filter negb (told t)) = failures l).
Proof. exact reported. Qed.
(** C126 fails between appenders: of two lines, the one that was logged later can appear first,
    though nothing fails and both calls report success. *)
Theorem C126_order_refuted : forall a b, a <> [] -> b <> [] ->
  usual_lines [WriteAll 0 a; WriteAll 1 b] ->
  exists l t, output_works l /\ turns (consoles 2 [WriteAll 0 a; WriteAll 1 b]) l = Some t
    /\ told t = [true; true] /\ screen t = b ++ a.
Proof.
  intros a b Hna Hnb Hu. destruct (Forall_inv Hu) as (_ & Ha). destruct (Forall_inv (Forall_inv_tail Hu)) as (_ & Hb).
  rewrite <- max_chunk_is in *.
  eexists [GoOn; GoOn; GoOn; GoOn; Land 1 None; Land 0 None], _. splits.
  - intros h k [H|[H|[H|[H|[H|[H|[]]]]]]]; discriminate H.
  - destruct a as [|a0 a]; [contradiction|]. destruct b as [|b0 b]; [contradiction|].
    cbn [turns turn_step poll consoles todo repeat job_of nth jobs].
    rewrite (chunk_whole (a0 :: a) Ha), skipn_all, firstn_all.
    cbn [update_nth screen told]. cbn [poll todo]. unfold call_ends. cbn [jobs screen told app].
    cbn [poll todo job_of jobs nth]. rewrite (chunk_whole (b0 :: b) Hb), skipn_all, firstn_all.
    cbn [update_nth screen told poll todo job_of jobs nth call_ends]. cbn [land job_of jobs nth update_nth screen todo told].
    reflexivity.
  - reflexivity.
  - reflexivity.
Qed.
(** C126 fails for errors: when the write of a line fails, the call for it has already reported
    success; the error is reported for the next line of the appender, which is dropped though nothing
    stands in its way. *)
Theorem C126_error_refuted : forall a b, a <> [] -> b <> [] ->
  usual_lines [WriteAll 0 a; WriteAll 0 b] ->
  exists l l' t, output_works l /\ output_works l'
    /\ turns (consoles 1 [WriteAll 0 a; WriteAll 0 b; FlushAll 0]) (l ++ Land 0 (Some 0) :: l') = Some t
    /\ todo t = [] /\ told t = [true; false; true] /\ screen t = [].
Proof.
  intros a b Hna Hnb Hu. destruct (Forall_inv Hu) as (_ & Ha). rewrite <- max_chunk_is in *.
  eexists [GoOn; GoOn], [GoOn; GoOn], _. splits.
  - intros h k [H|[H|[]]]; discriminate H.
  - intros h k [H|[H|[]]]; discriminate H.
  - destruct a as [|a0 a]; [contradiction|]. destruct b as [|b0 b]; [contradiction|].
    cbn [app turns turn_step poll consoles todo repeat job_of nth jobs].
    rewrite (chunk_whole (a0 :: a) Ha), skipn_all, firstn_all. reflexivity.
  - reflexivity.
  - reflexivity.
  - reflexivity.
Qed.
(** C126 fails for completeness: a call that reports success has not put anything out yet; without a
    flush the program can end before the line appears. *)
Theorem C126_unflushed_refuted : forall a, a <> [] -> usual_lines [WriteAll 0 a] ->
  exists l t, output_works l /\ turns (consoles 1 [WriteAll 0 a]) l = Some t
    /\ todo t = [] /\ told t = [true] /\ screen t = [].
Proof.
  intros a Hna Hu. destruct (Forall_inv Hu) as (_ & Ha). rewrite <- max_chunk_is in *.
  eexists [GoOn; GoOn], _. splits.
  - intros h k [H|[H|[]]]; discriminate H.
  - destruct a as [|a0 a]; [contradiction|]. cbn [turns turn_step poll consoles todo repeat job_of nth jobs].
    rewrite (chunk_whole (a0 :: a) Ha), skipn_all, firstn_all. reflexivity.
  - reflexivity.
  - reflexivity.
  - reflexivity.
Qed.
(** C126 fails for long lines: one of more than two mebibytes can appear with a line of another
    appender in the middle. *)
Theorem C126_torn_refuted : forall a a' b,
  N.of_nat (length a) = (2 * 1024 * 1024)%N -> a' <> [] -> b <> [] ->
  usual_lines [WriteAll 0 a'; WriteAll 1 b] ->
  exists l t, output_works l /\ turns (consoles 2 [WriteAll 1 b; WriteAll 0 (a ++ a')]) l = Some t
    /\ told t = [true; true] /\ screen t = a ++ b ++ a'.
Proof.
  intros a a' b Hl Hna Hnb Hu. destruct (Forall_inv Hu) as (_ & Ha). destruct (Forall_inv (Forall_inv_tail Hu)) as (_ & Hb).
  rewrite <- max_chunk_is in *.
  assert (Hcut : N.to_nat (N.min (N.of_nat (length (a ++ a'))) max_chunk) = length a).
  { rewrite app_length, N.min_r by lia. lia. }
  assert (Hne : exists x r, a ++ a' = x :: r).
  { destruct a as [|x a]; [|exists x, (a ++ a'); reflexivity]. rewrite max_chunk_is in Hl. cbn in Hl. lia. }
  destruct Hne as (x & r & Hxr).
  eexists [GoOn; GoOn; GoOn; Land 0 None; Land 1 None; GoOn; GoOn; Land 0 None], _. splits.
  - intros h k [H|[H|[H|[H|[H|[H|[H|[H|[]]]]]]]]]; discriminate H.
  - destruct b as [|b0 b]; [contradiction|]. destruct a' as [|c0 a']; [contradiction|].
    rewrite Hxr in *.
    cbn [turns turn_step poll consoles todo repeat job_of nth jobs].
    rewrite (chunk_whole (b0 :: b) Hb), skipn_all, firstn_all.
    cbn [update_nth screen told poll todo]. unfold call_ends. cbn [jobs screen told app].
    cbn [poll todo job_of jobs nth]. rewrite Hcut. rewrite <- Hxr, firstn_app, skipn_app, Nat.sub_diag, firstn_all, skipn_all.
    cbn [firstn skipn app]. rewrite app_nil_r.
    cbn [update_nth screen told land job_of jobs nth todo poll].
    rewrite (chunk_whole (c0 :: a') Ha), skipn_all, firstn_all. cbn [update_nth]. 
    unfold call_ends. cbn [update_nth screen told land job_of jobs nth todo poll]. reflexivity.
  - reflexivity.
  - cbn [screen app]. rewrite <- app_assoc. reflexivity.
Qed.
(** C126, from the configuration to the screen: when all appenders are consoles and nothing fails,
    then once the consumer has ended, the standard output holds, of each appender, exactly the lines
    of the records that belong there, in the order of the records, whatever the threads of the pool
    did; and what other threads printed.  Only the order of lines of different appenders, and of what
    is printed, is open. *)
Theorem C126_records_partial : forall u names_order w arg c lv k fmt, world_ok w ->
  (forall x, Permutation (names_order x) x) -> load_config w arg = Some c ->
  config_logging u names_order w c = Ret (Some (lv, k)) ->
  layout_ok fmt (l_timelayout (c_logging c)) ->
  (forall a, In a (k_appenders k) -> console a) ->
  forall items, exists wss, consume_all fmt k items (empty_bufs k) = Ret wss
  /\ forall l t, output_works l ->
     turns (consoles (length (k_appenders k)) (session (length (k_appenders k)) wss)) l = Some t -> todo t = [] ->
     exists history, screen t = whole_screen history /\ from_source None history = printed l
     /\ (forall i a, nth_error (k_appenders k) i = Some a ->
        exists lines, log_of fmt (l_timelayout (c_logging c)) a items lines
        /\ concat (from_source (Some i) history) = concat lines)
     /\ forall i, nth_error (k_appenders k) i = None -> concat (from_source (Some i) history) = [].
Proof.
  intros u no w arg c lv k fmt Hw Hno Hc Hk Hlay Hcon items.
  destruct (C54_delivery u no w arg c lv k fmt Hw Hno Hc Hk Hlay) with (items := items) as (wss & H1 & H2).
  { intros a b Ha Hb. split; intros _; apply Hcon; assumption. }
  exists wss. split; [exact H1|]. intros l t Hl Hr Ht. exact (session_screen fmt _ _ items wss l t Hlay H2 Hl Hr Ht).
Qed.
Example C126_records_nonvacuous :
  let w := ex_world (ex_config [appender_default] None [(chars "a", [ConsoleCfg (Some (chars "warn"))])]) in
  world_ok w /\ exists c k wss t, load_config w ex_arg = Some c
  /\ config_logging ex_uni (fun l => l) w c = Ret (Some (Info, k))
  /\ (forall a, In a (k_appenders k) -> console a) /\ length (k_appenders k) = 2
  /\ consume_all ex_fmt k [ex_item 0 Info; ex_item 1 Warn; ex_item 1 Info] (empty_bufs k) = Ret wss
  /\ turns (consoles 2 (session 2 wss)) [GoOn; GoOn; GoOn; GoOn; Land 1 None; Land 0 None; GoOn; GoOn] = Some t
  /\ todo t = [] /\ screen t <> [].
Proof.
  cbv zeta. split; [apply ex_world_ok; [|reflexivity]; repeat constructor; cbn; intuition discriminate|].
  eexists. eexists. eexists. eexists. split; [vm_compute; reflexivity|]. split; [vm_compute; reflexivity|].
  split; [cbn; intros a [<-|[<-|[]]]; reflexivity|]. split; [reflexivity|].
  split; [vm_compute; reflexivity|]. split; [vm_compute; reflexivity|]. split; [reflexivity|discriminate].
Qed.
Example C126_nonvacuous : exists t,
  addresses 2 ex_calls /\ usual_lines ex_calls /\ output_works ex_turns
  /\ turns (consoles 2 ex_calls) ex_turns = Some t
  /\ told t = [true; true; true; true]
  /\ screen t = B "httpd: shutdowntwo" ++ [ascii_of_nat 10] ++ B "one" ++ [ascii_of_nat 10] ++ B "three" ++ [ascii_of_nat 10]
  /\ (exists t', turns (consoles 1 (session 1 [[(0, B "x")]; [(0, B "y")]]))
        [GoOn; GoOn; Land 0 (Some 0); GoOn; GoOn] = Some t'
      /\ addresses 1 (session 1 [[(0, B "x")]; [(0, B "y")]]) /\ told t' = [true; false; true] /\ todo t' = [])
  /\ survives [B "a"; B "xy"; B "c"] [B "a"; B "lost"; B "xyz"; B "c"].
Proof.
  eexists. splits.
  - unfold ex_calls, addresses. repeat constructor.
  - unfold ex_calls, usual_lines. repeat (constructor; [first [exact I|split; [discriminate|vm_compute; discriminate]]|]). constructor.
  - intros h k H. cbn in H. repeat (destruct H as [H|H]; [discriminate H|]). exact H.
  - vm_compute. reflexivity.
  - reflexivity.
  - vm_compute. reflexivity.
  - eexists. split; [vm_compute; reflexivity|]. split; [unfold addresses; repeat constructor|]. split; reflexivity.
  - apply sv_whole, sv_lost. apply (sv_cut (B "xyz") 2), sv_whole. constructor.
Qed.

Print Assumptions C126_bytes_partial.
Print Assumptions C126_lines_partial.
Print Assumptions C126_goes_on.
Print Assumptions C126_order_refuted.
Print Assumptions C126_error_refuted.
Print Assumptions C126_unflushed_refuted.
Print Assumptions C126_torn_refuted.
Print Assumptions C126_records_partial.
Print Assumptions C126_reported_partial.
