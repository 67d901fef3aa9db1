(** Proofs about the standard output shared by console appenders. *)
From Verif Require Import S_Console F_Base F_Files.
Local Transparent max_chunk.
Lemma max_chunk_is : max_chunk = (2 * 1024 * 1024)%N.
Proof. reflexivity. Qed.
Local Opaque max_chunk.

Lemma from_app w a b : from_source w (a ++ b) = from_source w a ++ from_source w b.
Proof. unfold from_source. rewrite filter_app, map_app. reflexivity. Qed.
Lemma from_one_same h x : from_source (Some h) [(Some h, x)] = [x].
Proof. unfold from_source. cbn [filter fst]. rewrite Nat.eqb_refl. reflexivity. Qed.
Lemma from_one_other h h' x : h <> h' -> from_source (Some h) [(Some h', x)] = [].
Proof. intros H. unfold from_source. cbn [filter fst]. replace (h' =? h) with false; [reflexivity|]. symmetry. apply Nat.eqb_neq. lia. Qed.
Lemma from_none_some h x : from_source None [(Some h, x)] = [].
Proof. reflexivity. Qed.
Lemma from_some_none h x : from_source (Some h) [(None, x)] = [].
Proof. reflexivity. Qed.
Lemma from_none_none x : from_source None [(None, x)] = [x].
Proof. reflexivity. Qed.
Lemma whole_app a b : whole_screen (a ++ b) = whole_screen a ++ whole_screen b.
Proof. unfold whole_screen. rewrite map_app, concat_app. reflexivity. Qed.
Lemma printed_app a b : printed (a ++ b) = printed a ++ printed b.
Proof. unfold printed. rewrite flat_map_app. reflexivity. Qed.
Lemma asked_app h a b : asked_of h (a ++ b) = asked_of h a ++ asked_of h b.
Proof. unfold asked_of. rewrite flat_map_app. reflexivity. Qed.
Lemma asked_write_same h x r : asked_of h (WriteAll h x :: r) = x :: asked_of h r.
Proof. unfold asked_of. cbn [flat_map]. rewrite Nat.eqb_refl. reflexivity. Qed.
Lemma asked_write_other h h' x r : h <> h' -> asked_of h (WriteAll h' x :: r) = asked_of h r.
Proof. intros H. unfold asked_of. cbn [flat_map]. replace (h' =? h) with false; [reflexivity|]. symmetry. apply Nat.eqb_neq. lia. Qed.
Lemma asked_flush h h' r : asked_of h (FlushAll h' :: r) = asked_of h r.
Proof. reflexivity. Qed.

Lemma turns_app : forall l1 l2 t,
  turns t (l1 ++ l2) = match turns t l1 with Some t' => turns t' l2 | None => None end.
Proof.
  induction l1 as [|x l1 IH]; intros l2 t; [reflexivity|]. cbn [app turns].
  destruct (turn_step t x); [apply IH|reflexivity].
Qed.

(** the piece in progress at an appender *)
Definition in_progress (t : terminal) (h : nat) : list bytes :=
  match job_of t h with Writing p => [p] | _ => [] end.

(** a call and what is left of it *)
Definition left_of (c0 c : console_call) : Prop :=
  match c0, c with
  | WriteAll h x0, WriteAll h' x => h = h' /\ exists p, x0 = p ++ x
  | FlushAll h, FlushAll h' => h = h'
  | _, _ => False
  end.
Definition todo_of (calls : list console_call) (t : terminal) : Prop :=
  length (told t) <= length calls /\
  match todo t with
  | [] => skipn (length (told t)) calls = []
  | c :: rest => exists c0, skipn (length (told t)) calls = c0 :: rest /\ left_of c0 c
  end.

Record inv (n : nat) (calls : list console_call) (l : list turn) (landed : list (option nat * bytes))
    (t : terminal) : Prop := Inv {
  i_len : length (jobs t) = n;
  i_scr : screen t = whole_screen landed;
  i_prt : from_source None landed = printed l;
  i_adr : addresses n (todo t);
  i_todo : todo_of calls t;
  i_job : forall h, job_of t h <> Written false;
  i_told : Forall (eq true) (told t);
  i_bytes : forall h, concat (from_source (Some h) landed) ++ concat (in_progress t h)
                      ++ concat (asked_of h (todo t)) = concat (asked_of h calls);
  i_flush : forall pre h post, calls = pre ++ FlushAll h :: post -> length pre < length (told t) ->
            is_start (concat (asked_of h pre)) (concat (from_source (Some h) landed))
}.

Lemma job_out t h : length (jobs t) <= h -> job_of t h = Resting.
Proof. intros H. unfold job_of. apply nth_overflow. exact H. Qed.

Lemma left_of_refl c : left_of c c.
Proof. destruct c; cbn; [split; [reflexivity|exists []; reflexivity]|reflexivity]. Qed.

(** the call in progress is finished *)
Lemma todo_next calls t c rest ts ok :
  todo t = c :: rest -> todo_of calls t -> todo_of calls (call_ends t ts rest ok).
Proof.
  intros E (Hl & Ht). rewrite E in Ht. destruct Ht as (c0 & Hs & _).
  assert (Hn : skipn (S (length (told t))) calls = rest).
  { revert Hs. generalize (length (told t)). clear. intros n. revert calls.
    induction n as [|n IH]; intros [|x calls] H; cbn in *; try discriminate H; [congruence|apply (IH calls H)]. }
  assert (length (told t) < length calls).
  { assert (length (skipn (length (told t)) calls) = length (c0 :: rest)) by (rewrite Hs; reflexivity).
    rewrite skipn_length in H. cbn [length] in H. lia. }
  unfold todo_of, call_ends. cbn [told todo]. rewrite app_length. cbn [length].
  replace (length (told t) + 1) with (S (length (told t))) by lia. split; [lia|].
  rewrite Hn. destruct rest as [|c' rest']; [reflexivity|]. exists c'. split; [reflexivity|apply left_of_refl].
Qed.

Lemma skipn_split {A} n (l : list A) x r : skipn n l = x :: r -> l = firstn n l ++ x :: r /\ length (firstn n l) = n.
Proof.
  intros H. split; [rewrite <- H; symmetry; apply firstn_skipn|].
  rewrite firstn_length. assert (length (skipn n l) = S (length r)) by (rewrite H; reflexivity).
  rewrite skipn_length in H0. lia.
Qed.

Lemma app_same_length {A} (a a' b b' : list A) : length a = length a' -> a ++ b = a' ++ b' -> a = a' /\ b = b'.
Proof.
  revert a'. induction a as [|x a IH]; intros [|y a'] Hl H; cbn in Hl; try lia.
  - split; [reflexivity|exact H].
  - injection H as -> H. destruct (IH a' ltac:(lia) H) as (-> & ->). split; reflexivity.
Qed.

Lemma is_start_app {A} (a b c : list A) : is_start a b -> is_start a (b ++ c).
Proof. intros (r & ->). exists (r ++ c). rewrite <- app_assoc. reflexivity. Qed.

(** finishing a call that is not a flush, or a flush whose appender is not writing *)
Lemma inv_ends n calls l landed t c rest ts x :
  inv n calls l landed t -> todo t = c :: rest -> x = GoOn ->
  (c = WriteAll (match c with WriteAll h _ => h | FlushAll h => h end) [] /\ ts = jobs t
   \/ exists h, c = FlushAll h /\ in_progress t h = []
      /\ (ts = jobs t \/ ts = update_nth h (fun _ => Resting) (jobs t))) ->
  inv n calls (l ++ [x]) landed (call_ends t ts rest true).
Proof.
  intros I E -> Hc.
  assert (Hts : ts = jobs t \/ exists h, in_progress t h = [] /\ ts = update_nth h (fun _ => Resting) (jobs t)).
  { destruct Hc as [(_ & ->)|(h & _ & Hp & [->| ->])]; [left; reflexivity|left; reflexivity|right; exists h; split; [exact Hp|reflexivity]]. }
  assert (Hj : forall h, in_progress (call_ends t ts rest true) h = in_progress t h
                         /\ job_of (call_ends t ts rest true) h <> Written false).
  { intros h. destruct Hts as [->|(h' & Hp & ->)]; [split; [reflexivity|apply (i_job _ _ _ _ _ I)]|].
    destruct (Nat.eq_dec h h') as [->|Hne].
    - rewrite Hp. destruct (lt_dec h' (length (jobs t))) as [Hlt|Hge].
      + unfold in_progress, job_of, call_ends. cbn [jobs]. rewrite nth_update_same by lia. split; [reflexivity|discriminate].
      + assert (Hr : job_of (call_ends t (update_nth h' (fun _ => Resting) (jobs t)) rest true) h' = Resting).
        { apply job_out. unfold call_ends. cbn [jobs]. rewrite length_update. lia. }
        unfold in_progress. rewrite Hr. split; [reflexivity|discriminate].
    - unfold in_progress, job_of, call_ends. cbn [jobs]. rewrite nth_update_other by exact Hne.
      split; [reflexivity|apply (i_job _ _ _ _ _ I h)]. }
  assert (Ha : forall h, concat (asked_of h (todo t)) = concat (asked_of h rest)).
  { intros h. rewrite E. destruct Hc as [(Hc & _)|(h' & -> & _)]; [|reflexivity].
    rewrite Hc. destruct (Nat.eq_dec h (match c with WriteAll h0 _ => h0 | FlushAll h0 => h0 end)) as [->|Hne].
    - rewrite asked_write_same. reflexivity.
    - rewrite asked_write_other by exact Hne. reflexivity. }
  constructor.
  - unfold call_ends. cbn [jobs]. rewrite <- (i_len _ _ _ _ _ I).
    destruct Hts as [->|(h' & _ & ->)]; [reflexivity|apply length_update].
  - exact (i_scr _ _ _ _ _ I).
  - rewrite printed_app. cbn. rewrite app_nil_r. exact (i_prt _ _ _ _ _ I).
  - unfold call_ends. cbn [todo]. pose proof (i_adr _ _ _ _ _ I) as H. rewrite E in H. inversion H; assumption.
  - exact (todo_next calls t c rest ts true E (i_todo _ _ _ _ _ I)).
  - intros h. apply Hj.
  - unfold call_ends. cbn [told]. apply Forall_app. split; [exact (i_told _ _ _ _ _ I)|constructor; [reflexivity|constructor]].
  - intros h. rewrite (proj1 (Hj h)). unfold call_ends. cbn [todo]. rewrite <- Ha. exact (i_bytes _ _ _ _ _ I h).
  - intros pre h post Hcs Hlt. unfold call_ends in Hlt. cbn [told] in Hlt. rewrite app_length in Hlt. cbn [length] in Hlt.
    destruct (Nat.eq_dec (length pre) (length (told t))) as [He|Hne].
    + destruct (i_todo _ _ _ _ _ I) as (_ & Ht). rewrite E in Ht. destruct Ht as (c0 & Hs & Hleft).
      rewrite <- He, Hcs, skipn_app, Nat.sub_diag, skipn_all2 in Hs by lia. cbn in Hs. injection Hs as <- <-.
      destruct c as [hh xx|hh]; [destruct Hleft|]. cbn in Hleft. subst hh.
      assert (Hp : in_progress t h = []).
      { destruct Hc as [(Hc & _)|(h' & Hc & Hp & _)]; [discriminate Hc|]. injection Hc as <-. exact Hp. }
      pose proof (i_bytes _ _ _ _ _ I h) as Hb. rewrite Hp, Ha, Hcs, asked_app, asked_flush, concat_app in Hb.
      cbn in Hb. apply app_inv_tail in Hb. exists []. rewrite app_nil_r. exact Hb.
    + apply (i_flush _ _ _ _ _ I pre h post Hcs). lia.
Qed.

Lemma inv_start n calls : addresses n calls -> inv n calls [] [] (consoles n calls).
Proof.
  intros Ha. unfold consoles. constructor; cbn [jobs screen todo told].
  - apply repeat_length.
  - reflexivity.
  - reflexivity.
  - exact Ha.
  - split; [cbn [told length]; lia|]. cbn [told length todo skipn]. destruct calls as [|c r]; [reflexivity|].
    exists c. split; [reflexivity|apply left_of_refl].
  - intros h. unfold job_of. cbn [jobs]. intros H. pose proof (nth_In (repeat Resting n) Resting (n := h)) as Hin.
    destruct (lt_dec h n) as [Hlt|Hge].
    + rewrite repeat_length in Hin. specialize (Hin Hlt). rewrite H in Hin. apply repeat_spec in Hin. discriminate Hin.
    + rewrite nth_overflow in H by (rewrite repeat_length; lia). discriminate H.
  - constructor.
  - intros h. assert (Hp : in_progress (Terminal [] (repeat Resting n) calls []) h = []).
    { unfold in_progress, job_of. cbn [jobs]. destruct (lt_dec h n) as [Hlt|Hge].
      - pose proof (nth_In (repeat Resting n) Resting (n := h)) as Hin. rewrite repeat_length in Hin.
        rewrite (repeat_spec n Resting _ (Hin Hlt)). reflexivity.
      - rewrite nth_overflow by (rewrite repeat_length; lia). reflexivity. }
    rewrite Hp. reflexivity.
  - intros pre h post _ H. cbn [length] in H. lia.
Qed.

Lemma inv_step n calls l landed t x t' :
  inv n calls l landed t -> turn_step t x = Some t' -> (forall h k, x <> Land h (Some k)) ->
  exists new, inv n calls (l ++ [x]) (landed ++ new) t'.
Proof.
  intros I Hs Hok. destruct x as [|h failed|text]; cbn [turn_step] in Hs.
  - unfold poll in Hs. destruct (todo t) as [|c rest] eqn:E; [discriminate Hs|].
    destruct c as [h text|h].
    + destruct text as [|b text0].
      * injection Hs as <-. exists []. rewrite app_nil_r. eapply inv_ends; [exact I|exact E|reflexivity|].
        left. split; reflexivity.
      * set (text := b :: text0) in *. pose proof (i_job _ _ _ _ _ I h) as Hj.
        set (m := N.to_nat (N.min (N.of_nat (length text)) max_chunk)) in *.
        assert (Hh : h < n). { pose proof (i_adr _ _ _ _ _ I) as H. rewrite E in H. inversion H; assumption. }
        assert (Hcase : in_progress t h = [] /\
          t' = Terminal (screen t) (update_nth h (fun _ => Writing (firstn m text)) (jobs t))
                        (WriteAll h (skipn m text) :: rest) (told t)).
        { unfold in_progress. destruct (job_of t h) as [|p|[|]]; [|discriminate Hs| |exfalso; apply Hj; reflexivity];
            injection Hs as <-; split; reflexivity. }
        clear Hs. destruct Hcase as (Hp & ->). exists []. rewrite app_nil_r.
        assert (Hjobs : forall h', job_of (Terminal (screen t) (update_nth h (fun _ => Writing (firstn m text)) (jobs t))
                        (WriteAll h (skipn m text) :: rest) (told t)) h'
                        = if h' =? h then Writing (firstn m text) else job_of t h').
        { intros h'. unfold job_of. cbn [jobs]. destruct (Nat.eqb_spec h' h) as [->|Hne].
          - apply nth_update_same. rewrite (i_len _ _ _ _ _ I). exact Hh.
          - apply nth_update_other. exact Hne. }
        constructor.
        -- cbn [jobs]. rewrite length_update. exact (i_len _ _ _ _ _ I).
        -- exact (i_scr _ _ _ _ _ I).
        -- rewrite printed_app. cbn. rewrite app_nil_r. exact (i_prt _ _ _ _ _ I).
        -- cbn [todo]. pose proof (i_adr _ _ _ _ _ I) as H. rewrite E in H. inversion H; subst. constructor; assumption.
        -- destruct (i_todo _ _ _ _ _ I) as (Hl & Ht). rewrite E in Ht. destruct Ht as (c0 & Hs & Hleft).
           split; [exact Hl|]. cbn [todo told]. exists c0. split; [exact Hs|].
           destruct c0 as [h0 x0|h0]; [|destruct Hleft]. destruct Hleft as (-> & p & ->). cbn. split; [reflexivity|].
           exists (p ++ firstn m text). rewrite <- app_assoc, firstn_skipn. reflexivity.
        -- intros h'. rewrite Hjobs. destruct (h' =? h); [discriminate|apply (i_job _ _ _ _ _ I)].
        -- exact (i_told _ _ _ _ _ I).
        -- intros h'. pose proof (i_bytes _ _ _ _ _ I h') as Hb. unfold in_progress in *. rewrite Hjobs. cbn [todo].
           rewrite E in Hb. destruct (Nat.eqb_spec h' h) as [->|Hne].
           ++ rewrite asked_write_same in *. rewrite Hp in Hb. cbn [concat app] in *.
              rewrite <- Hb. rewrite app_nil_r. rewrite (app_assoc (firstn m text)), firstn_skipn. reflexivity.
           ++ rewrite asked_write_other in * by exact Hne. exact Hb.
        -- intros pre h' post Hc Hlt. cbn [told] in Hlt. exact (i_flush _ _ _ _ _ I pre h' post Hc Hlt).
    + pose proof (i_job _ _ _ _ _ I h) as Hj. exists []. rewrite app_nil_r.
      destruct (job_of t h) as [|p|ok] eqn:Ej; [|discriminate Hs|].
      * injection Hs as <-. eapply inv_ends; [exact I|exact E|reflexivity|]. right. exists h.
        unfold in_progress. rewrite Ej. splits; [reflexivity|reflexivity|left; reflexivity].
      * destruct ok; [|exfalso; apply Hj; reflexivity]. injection Hs as <-. eapply inv_ends; [exact I|exact E|reflexivity|].
        right. exists h. unfold in_progress. rewrite Ej. splits; [reflexivity|reflexivity|right; reflexivity].
  - destruct failed as [k|]; [exfalso; exact (Hok h k eq_refl)|]. unfold land in Hs.
    destruct (job_of t h) as [|piece|] eqn:Ej; try discriminate Hs. injection Hs as <-.
    assert (Hh : h < length (jobs t)).
    { destruct (lt_dec h (length (jobs t))) as [Hlt|Hge]; [exact Hlt|]. rewrite job_out in Ej by lia. discriminate Ej. }
    exists [(Some h, piece)].
    assert (Hjobs : forall h', nth h' (update_nth h (fun _ => Written true) (jobs t)) Resting
                    = if h' =? h then Written true else job_of t h').
    { intros h'. destruct (Nat.eqb_spec h' h) as [->|Hne]; [apply nth_update_same; exact Hh|apply nth_update_other; exact Hne]. }
    constructor.
    + cbn [jobs]. rewrite length_update. exact (i_len _ _ _ _ _ I).
    + cbn [screen]. rewrite whole_app, (i_scr _ _ _ _ _ I). unfold whole_screen at 3. cbn. rewrite app_nil_r. reflexivity.
    + rewrite from_app, from_none_some, app_nil_r, printed_app. cbn. rewrite app_nil_r. exact (i_prt _ _ _ _ _ I).
    + exact (i_adr _ _ _ _ _ I).
    + exact (i_todo _ _ _ _ _ I).
    + intros h'. unfold job_of at 1. cbn [jobs]. rewrite Hjobs. destruct (h' =? h); [discriminate|apply (i_job _ _ _ _ _ I)].
    + exact (i_told _ _ _ _ _ I).
    + intros h'. pose proof (i_bytes _ _ _ _ _ I h') as Hb. unfold in_progress in *. unfold job_of at 1. cbn [jobs todo].
      rewrite Hjobs, from_app, concat_app. destruct (Nat.eqb_spec h' h) as [->|Hne].
      * rewrite from_one_same. rewrite Ej in Hb. cbn [concat app] in *. rewrite app_nil_r in *. rewrite <- app_assoc. exact Hb.
      * rewrite from_one_other by exact Hne. cbn [concat]. rewrite app_nil_r. exact Hb.
    + intros pre h' post Hc Hlt. cbn [told] in Hlt. rewrite from_app, concat_app. apply is_start_app.
      exact (i_flush _ _ _ _ _ I pre h' post Hc Hlt).
  - injection Hs as <-. exists [(None, text)]. constructor.
    + exact (i_len _ _ _ _ _ I).
    + cbn [screen]. rewrite whole_app, (i_scr _ _ _ _ _ I). unfold whole_screen at 3. cbn. rewrite app_nil_r. reflexivity.
    + rewrite from_app, from_none_none, printed_app, (i_prt _ _ _ _ _ I). reflexivity.
    + exact (i_adr _ _ _ _ _ I).
    + exact (i_todo _ _ _ _ _ I).
    + exact (i_job _ _ _ _ _ I).
    + exact (i_told _ _ _ _ _ I).
    + intros h'. rewrite from_app, from_some_none, app_nil_r. exact (i_bytes _ _ _ _ _ I h').
    + intros pre h' post Hc Hlt. cbn [told] in Hlt. rewrite from_app, from_some_none, app_nil_r.
      exact (i_flush _ _ _ _ _ I pre h' post Hc Hlt).
Qed.

Lemma inv_turns n calls : addresses n calls -> forall l t,
  output_works l -> turns (consoles n calls) l = Some t -> exists landed, inv n calls l landed t.
Proof.
  intros Ha. induction l as [|x l IH] using rev_ind; intros t Hw Hr.
  - cbn in Hr. injection Hr as <-. exists []. apply inv_start. exact Ha.
  - rewrite turns_app in Hr. destruct (turns (consoles n calls) l) as [t1|] eqn:E; [|discriminate Hr].
    destruct (IH t1) as (landed & I).
    + intros h k Hin. apply (Hw h k). apply in_or_app. left. exact Hin.
    + reflexivity.
    + cbn in Hr. destruct (turn_step t1 x) as [t2|] eqn:Es; [|discriminate Hr]. injection Hr as <-.
      destruct (inv_step n calls l landed t1 x t2 I Es) as (new & I').
      * intros h k ->. apply (Hw h k). apply in_or_app. right. left. reflexivity.
      * exists (landed ++ new). exact I'.
Qed.

(** whole lines, failures allowed *)
Lemma survives_lost l w x : survives l w -> survives l (w ++ [x]).
Proof.
  induction 1; cbn.
  - apply sv_lost. constructor.
  - apply sv_whole. assumption.
  - apply sv_cut. assumption.
  - apply sv_lost. assumption.
Qed.
Lemma survives_whole l w x : survives l w -> survives (l ++ [x]) (w ++ [x]).
Proof.
  induction 1; cbn.
  - apply sv_whole. constructor.
  - apply sv_whole. assumption.
  - apply sv_cut. assumption.
  - apply sv_lost. assumption.
Qed.
Lemma survives_cut l w x k : survives l w -> survives (l ++ [firstn k x]) (w ++ [x]).
Proof.
  induction 1; cbn.
  - apply sv_cut. constructor.
  - apply sv_whole. assumption.
  - apply sv_cut. assumption.
  - apply sv_lost. assumption.
Qed.
Definition filled (l : list bytes) : list bytes := filter (fun x => match x with [] => false | _ => true end) l.
Lemma filled_all l : Forall (fun x => x <> []) l -> filled l = l.
Proof. induction 1 as [|x l Hx _ IH]; [reflexivity|]. cbn. destruct x; [contradiction|]. fold (filled l). rewrite IH. reflexivity. Qed.
Definition short (c : console_call) : Prop :=
  match c with WriteAll _ x => (N.of_nat (length x) <= max_chunk)%N | FlushAll _ => True end.

(** For one appender: [past] are the lines accepted or refused before the piece in progress. *)
Definition hist (calls : list console_call) (landed : list (option nat * bytes)) (t : terminal) (h : nat) : Prop :=
  exists past, survives (from_source (Some h) landed) past
    /\ past ++ in_progress t h ++ filled (asked_of h (todo t)) = asked_of h calls.
Definition clean (calls : list console_call) (landed : list (option nat * bytes)) (t : terminal) (h : nat) : Prop :=
  from_source (Some h) landed ++ in_progress t h ++ filled (asked_of h (todo t)) = asked_of h calls.
Record inv2 (n : nat) (calls : list console_call) (l : list turn) (landed : list (option nat * bytes))
    (t : terminal) : Prop := Inv2 {
  j_len : length (jobs t) = n;
  j_scr : screen t = whole_screen landed;
  j_prt : from_source None landed = printed l;
  j_adr : addresses n (todo t);
  j_short : Forall short (todo t);
  j_hist : forall h, hist calls landed t h;
  j_clean : output_works l -> (forall h, job_of t h <> Written false) /\ forall h, clean calls landed t h
}.

Lemma chunk_whole (text : bytes) : (N.of_nat (length text) <= max_chunk)%N ->
  N.to_nat (N.min (N.of_nat (length text)) max_chunk) = length text.
Proof. intros H. rewrite N.min_l by exact H. apply Nnat.Nat2N.id. Qed.

Lemma works_snoc l x : output_works (l ++ [x]) -> output_works l /\ forall h k, x <> Land h (Some k).
Proof.
  intros H. split.
  - intros h k Hin. apply (H h k). apply in_or_app. left. exact Hin.
  - intros h k ->. apply (H h k). apply in_or_app. right. left. reflexivity.
Qed.

Lemma inv2_start n calls : addresses n calls -> usual_lines calls -> inv2 n calls [] [] (consoles n calls).
Proof.
  intros Ha Hu.
  assert (Hf : forall h, filled (asked_of h calls) = asked_of h calls).
  { intros h. apply filled_all. unfold asked_of. clear Ha. induction Hu as [|c r Hc _ IH]; [constructor|].
    cbn [flat_map]. apply Forall_app. split; [|exact IH]. destruct c as [i x|]; [|constructor].
    destruct (i =? h); constructor; [apply Hc|constructor]. }
  assert (Hj : forall h, job_of (consoles n calls) h = Resting).
  { intros h. unfold job_of, consoles. cbn [jobs]. destruct (lt_dec h n) as [Hlt|Hge].
    - pose proof (nth_In (repeat Resting n) Resting (n := h)) as Hin. rewrite repeat_length in Hin.
      exact (repeat_spec n Resting _ (Hin Hlt)).
    - rewrite nth_overflow by (rewrite repeat_length; lia). reflexivity. }
  assert (Hc : forall h, clean calls [] (consoles n calls) h).
  { intros h. unfold clean, in_progress. rewrite Hj. cbn [app from_source filter map consoles todo]. apply Hf. }
  constructor.
  - apply repeat_length.
  - reflexivity.
  - reflexivity.
  - exact Ha.
  - cbn [consoles todo]. clear - Hu. unfold usual_lines in Hu. eapply Forall_impl; [|exact Hu].
    intros [h x|h]; cbn; [|trivial]. intros (_ & H). rewrite max_chunk_is. exact H.
  - intros h. exists []. split; [constructor|]. exact (Hc h).
  - intros _. split; [|exact Hc]. intros h. rewrite Hj. discriminate.
Qed.

Lemma inv2_step n calls l landed t x t' :
  inv2 n calls l landed t -> turn_step t x = Some t' ->
  exists new, inv2 n calls (l ++ [x]) (landed ++ new) t'.
Proof.
  intros I Hs. pose proof (j_len _ _ _ _ _ I) as Hlen. subst n. destruct x as [|h failed|text]; cbn [turn_step] in Hs.
  - unfold poll in Hs. destruct (todo t) as [|c rest] eqn:E; [discriminate Hs|].
    pose proof (j_adr _ _ _ _ _ I) as Had. rewrite E in Had. inversion Had as [|? ? Hc0 Hrest]; subst. clear Had.
    pose proof (j_short _ _ _ _ _ I) as Hsh. rewrite E in Hsh. inversion Hsh as [|? ? Hsc Hsrest]; subst. clear Hsh.
    exists []. rewrite app_nil_r.
    assert (Hp : from_source None landed = printed (l ++ [GoOn])).
    { rewrite printed_app. cbn. rewrite app_nil_r. exact (j_prt _ _ _ _ _ I). }
    destruct c as [h text|h].
    + destruct text as [|b text0].
      * injection Hs as <-. constructor; try assumption.
        -- reflexivity.
        -- exact (j_scr _ _ _ _ _ I).
        -- intros h'. destruct (j_hist _ _ _ _ _ I h') as (past & H1 & H2). exists past. split; [exact H1|].
           rewrite <- H2, E. unfold call_ends. cbn [todo]. f_equal. f_equal.
           destruct (Nat.eq_dec h' h) as [->|Hne]; [rewrite asked_write_same; reflexivity|].
           rewrite asked_write_other by exact Hne. reflexivity.
        -- intros Hw. destruct (works_snoc _ _ Hw) as (Hw' & _). destruct (j_clean _ _ _ _ _ I Hw') as (Hj & Hcl).
           split; [exact Hj|]. intros h'. specialize (Hcl h'). unfold clean in *. rewrite <- Hcl, E. unfold call_ends.
           cbn [todo]. f_equal. f_equal.
           destruct (Nat.eq_dec h' h) as [->|Hne]; [rewrite asked_write_same; reflexivity|].
           rewrite asked_write_other by exact Hne. reflexivity.
      * set (text := b :: text0) in *. rewrite (chunk_whole text Hsc) in Hs.
        rewrite firstn_all, skipn_all in Hs.
        assert (Hfill : forall h', filled (asked_of h' (WriteAll h text :: rest))
                  = (if h' =? h then [text] else []) ++ filled (asked_of h' rest)).
        { intros h'. destruct (Nat.eqb_spec h' h) as [->|Hne]; [rewrite asked_write_same; reflexivity|].
          rewrite asked_write_other by exact Hne. reflexivity. }
        destruct (job_of t h) as [|p|ok] eqn:Ej; [|discriminate Hs|destruct ok].
        1,2: injection Hs as <-;
          match goal with |- inv2 _ _ _ _ ?t2 => set (t' := t2) end;
          assert (Hjobs : forall h', job_of t' h' = if h' =? h then Writing text else job_of t h')
            by (intros h'; unfold t', job_of; cbn [jobs]; destruct (Nat.eqb_spec h' h) as [->|Hne];
                [apply nth_update_same; exact Hc0|apply nth_update_other; exact Hne]);
          assert (Hip : forall h', in_progress t' h' ++ filled (asked_of h' (todo t'))
                        = in_progress t h' ++ filled (asked_of h' (todo t)))
            by (intros h'; rewrite E, Hfill; unfold in_progress; rewrite Hjobs; unfold t'; cbn [todo];
                destruct (Nat.eqb_spec h' h) as [->|Hne];
                [rewrite Ej, asked_write_same; reflexivity|rewrite asked_write_other by exact Hne; reflexivity]);
          constructor;
          [unfold t'; cbn [jobs]; apply length_update
          |exact (j_scr _ _ _ _ _ I)
          |exact Hp
          |unfold t'; cbn [todo]; constructor; assumption
          |unfold t'; cbn [todo]; constructor; [apply N.le_0_l|assumption]
          |intros h'; destruct (j_hist _ _ _ _ _ I h') as (past & H1 & H2); exists past; split; [exact H1|rewrite Hip; exact H2]
          |intros Hw; destruct (works_snoc _ _ Hw) as (Hw' & _); destruct (j_clean _ _ _ _ _ I Hw') as (Hj & Hcl);
           split; [intros h'; rewrite Hjobs; destruct (h' =? h); [discriminate|apply Hj]
                  |intros h'; unfold clean; rewrite Hip; exact (Hcl h')]].
        injection Hs as <-.
        match goal with |- inv2 _ _ _ _ ?t2 => set (t' := t2) end.
        assert (Hjobs : forall h', job_of t' h' = if h' =? h then Resting else job_of t h').
        { intros h'. unfold t', job_of, call_ends. cbn [jobs]. destruct (Nat.eqb_spec h' h) as [->|Hne];
            [apply nth_update_same; exact Hc0|apply nth_update_other; exact Hne]. }
        constructor.
        -- unfold t', call_ends. cbn [jobs]. apply length_update.
        -- exact (j_scr _ _ _ _ _ I).
        -- exact Hp.
        -- exact Hrest.
        -- exact Hsrest.
        -- intros h'. destruct (j_hist _ _ _ _ _ I h') as (past & H1 & H2). rewrite E, Hfill in H2.
           unfold in_progress in H2. unfold hist, in_progress. rewrite Hjobs. unfold t', call_ends. cbn [todo].
           destruct (Nat.eqb_spec h' h) as [->|Hne].
           ++ exists (past ++ [text]). split; [apply survives_lost; exact H1|]. rewrite Ej in H2. cbn [app] in *.
              rewrite <- app_assoc. exact H2.
           ++ exists past. split; [exact H1|exact H2].
        -- intros Hw. destruct (works_snoc _ _ Hw) as (Hw' & _). destruct (j_clean _ _ _ _ _ I Hw') as (Hj & _).
           exfalso. exact (Hj h Ej).
    + destruct (job_of t h) as [|p|ok] eqn:Ej; [|discriminate Hs|].
      * injection Hs as <-. constructor; try assumption.
        -- reflexivity.
        -- exact (j_scr _ _ _ _ _ I).
        -- intros h'. destruct (j_hist _ _ _ _ _ I h') as (past & H1 & H2). exists past. split; [exact H1|].
           rewrite E, asked_flush in H2. exact H2.
        -- intros Hw. destruct (works_snoc _ _ Hw) as (Hw' & _). destruct (j_clean _ _ _ _ _ I Hw') as (Hj & Hcl).
           split; [exact Hj|]. intros h'. specialize (Hcl h'). unfold clean in *. rewrite E, asked_flush in Hcl. exact Hcl.
      * injection Hs as <-.
        match goal with |- inv2 _ _ _ _ ?t2 => set (t' := t2) end.
        assert (Hjobs : forall h', job_of t' h' = if h' =? h then Resting else job_of t h').
        { intros h'. unfold t', job_of, call_ends. cbn [jobs]. destruct (Nat.eqb_spec h' h) as [->|Hne];
            [apply nth_update_same; exact Hc0|apply nth_update_other; exact Hne]. }
        assert (Hip : forall h', in_progress t' h' = in_progress t h').
        { intros h'. unfold in_progress. rewrite Hjobs. destruct (Nat.eqb_spec h' h) as [->|Hne]; [rewrite Ej|]; reflexivity. }
        constructor.
        -- unfold t', call_ends. cbn [jobs]. apply length_update.
        -- exact (j_scr _ _ _ _ _ I).
        -- exact Hp.
        -- exact Hrest.
        -- exact Hsrest.
        -- intros h'. destruct (j_hist _ _ _ _ _ I h') as (past & H1 & H2). exists past. split; [exact H1|].
           rewrite Hip. rewrite E, asked_flush in H2. exact H2.
        -- intros Hw. destruct (works_snoc _ _ Hw) as (Hw' & _). destruct (j_clean _ _ _ _ _ I Hw') as (Hj & Hcl).
           split; [intros h'; rewrite Hjobs; destruct (h' =? h); [discriminate|apply Hj]|].
           intros h'. specialize (Hcl h'). unfold clean in *. rewrite Hip. rewrite E, asked_flush in Hcl. exact Hcl.
  - unfold land in Hs. destruct (job_of t h) as [|piece|] eqn:Ej; try discriminate Hs. injection Hs as <-.
    assert (Hh : h < length (jobs t)).
    { destruct (lt_dec h (length (jobs t))) as [Hlt|Hge]; [exact Hlt|]. rewrite job_out in Ej by lia. discriminate Ej. }
    set (got := match failed with None => piece | Some k => firstn k piece end).
    match goal with |- exists new, inv2 _ _ _ _ ?t2 => set (t' := t2) end.
    exists [(Some h, got)].
    set (ok := match failed with None => true | Some _ => false end) in *.
    assert (Hjobs : forall h', job_of t' h' = if h' =? h then Written ok else job_of t h').
    { intros h'. unfold t', job_of. cbn [jobs]. destruct (Nat.eqb_spec h' h) as [->|Hne];
        [apply nth_update_same; exact Hh|apply nth_update_other; exact Hne]. }
    constructor.
    + unfold t'. cbn [jobs]. rewrite length_update. exact (j_len _ _ _ _ _ I).
    + unfold t'. cbn [screen]. rewrite whole_app, (j_scr _ _ _ _ _ I). unfold whole_screen at 3. cbn. rewrite app_nil_r. reflexivity.
    + rewrite from_app, from_none_some, app_nil_r, printed_app. cbn. rewrite app_nil_r. exact (j_prt _ _ _ _ _ I).
    + exact (j_adr _ _ _ _ _ I).
    + exact (j_short _ _ _ _ _ I).
    + intros h'. destruct (j_hist _ _ _ _ _ I h') as (past & H1 & H2). unfold hist, in_progress in *. rewrite Hjobs, from_app.
      unfold t'. cbn [todo]. destruct (Nat.eqb_spec h' h) as [->|Hne].
      * rewrite from_one_same. rewrite Ej in H2. exists (past ++ [piece]). split.
        -- unfold got. destruct failed; [apply survives_cut|apply survives_whole]; exact H1.
        -- rewrite <- app_assoc. exact H2.
      * rewrite from_one_other, app_nil_r by exact Hne. exists past. split; [exact H1|exact H2].
    + intros Hw. destruct (works_snoc _ _ Hw) as (Hw' & Hx). destruct (j_clean _ _ _ _ _ I Hw') as (Hj & Hcl).
      destruct failed as [k|]; [exfalso; exact (Hx h k eq_refl)|]. split.
      * intros h'. rewrite Hjobs. destruct (h' =? h); [discriminate|apply Hj].
      * intros h'. specialize (Hcl h'). unfold clean, in_progress in *. rewrite Hjobs, from_app. unfold t'. cbn [todo].
        destruct (Nat.eqb_spec h' h) as [->|Hne].
        -- rewrite from_one_same. rewrite Ej in Hcl. rewrite <- app_assoc. exact Hcl.
        -- rewrite from_one_other, app_nil_r by exact Hne. exact Hcl.
  - injection Hs as <-. exists [(None, text)]. constructor.
    + exact (j_len _ _ _ _ _ I).
    + cbn [screen]. rewrite whole_app, (j_scr _ _ _ _ _ I). unfold whole_screen at 3. cbn. rewrite app_nil_r. reflexivity.
    + rewrite from_app, from_none_none, printed_app, (j_prt _ _ _ _ _ I). reflexivity.
    + exact (j_adr _ _ _ _ _ I).
    + exact (j_short _ _ _ _ _ I).
    + intros h'. destruct (j_hist _ _ _ _ _ I h') as (past & H1 & H2). exists past.
      rewrite from_app, from_some_none, app_nil_r. split; [exact H1|exact H2].
    + intros Hw. destruct (works_snoc _ _ Hw) as (Hw' & _). destruct (j_clean _ _ _ _ _ I Hw') as (Hj & Hcl).
      split; [exact Hj|]. intros h'. specialize (Hcl h'). unfold clean in *. rewrite from_app, from_some_none, app_nil_r. exact Hcl.
Qed.

Lemma inv2_turns n calls : addresses n calls -> usual_lines calls -> forall l t,
  turns (consoles n calls) l = Some t -> exists landed, inv2 n calls l landed t.
Proof.
  intros Ha Hu. induction l as [|x l IH] using rev_ind; intros t Hr.
  - cbn in Hr. injection Hr as <-. exists []. apply inv2_start; assumption.
  - rewrite turns_app in Hr. destruct (turns (consoles n calls) l) as [t1|] eqn:E; [|discriminate Hr].
    destruct (IH t1 eq_refl) as (landed & I).
    cbn in Hr. destruct (turn_step t1 x) as [t2|] eqn:Es; [|discriminate Hr]. injection Hr as <-.
    destruct (inv2_step n calls l landed t1 x t2 I Es) as (new & I'). exists (landed ++ new). exact I'.
Qed.

(** the consumer can always go on *)
Definition work (l : list console_call) : nat :=
  fold_right (fun c a => a + match c with WriteAll _ x => S (length x) | FlushAll _ => 1 end) 0 l.
Lemma go_on t : forall m, work (todo t) <= m -> (forall h, h < length (jobs t) \/ ~ (exists c, In c (todo t) /\ match c with WriteAll i _ => i = h | FlushAll i => i = h end)) ->
  exists l t', Forall (fun x => match x with GoOn => True | Land _ None => True | _ => False end) l
    /\ turns t l = Some t' /\ todo t' = [].
Proof.
  intros m. revert t. induction m as [|m IH]; intros t Hm Hadr.
  - exists [], t. splits; [constructor|reflexivity|]. destruct (todo t) as [|c r]; [reflexivity|].
    cbn in Hm. destruct c; lia.
  - destruct (todo t) as [|c rest] eqn:E; [exists [], t; splits; [constructor|reflexivity|exact E]|].
    set (h := match c with WriteAll i _ => i | FlushAll i => i end).
    assert (Hh : h < length (jobs t)).
    { destruct (Hadr h) as [H|H]; [exact H|]. exfalso. apply H. exists c. split; [left; reflexivity|]. unfold h. destruct c; reflexivity. }
    (* wait for the task *)
    assert (Hready : exists l0 t0, Forall (fun x => match x with GoOn => True | Land _ None => True | _ => False end) l0
              /\ turns t l0 = Some t0 /\ todo t0 = todo t /\ length (jobs t0) = length (jobs t)
              /\ (forall p, job_of t0 h <> Writing p)).
    { destruct (job_of t h) as [|p|ok] eqn:Ej.
      - exists [], t. splits; [constructor|reflexivity|reflexivity|reflexivity|]. intros p. rewrite Ej. discriminate.
      - eexists [Land h None], _. splits.
        + constructor; [exact I|constructor].
        + cbn [turns turn_step]. unfold land. rewrite Ej. reflexivity.
        + reflexivity.
        + cbn [jobs]. apply length_update.
        + intros p'. unfold job_of. cbn [jobs]. rewrite nth_update_same by exact Hh. discriminate.
      - exists [], t. splits; [constructor|reflexivity|reflexivity|reflexivity|]. intros p. rewrite Ej. discriminate. }
    destruct Hready as (l0 & t0 & Hf0 & Hr0 & Ht0 & Hl0 & Hj0).
    assert (Hstep : exists t1, poll t0 = Some t1 /\ work (todo t1) <= m /\ length (jobs t1) = length (jobs t)
              /\ (forall c1, In c1 (todo t1) -> exists c2, In c2 (todo t)
                   /\ match c1 with WriteAll i _ => i | FlushAll i => i end = match c2 with WriteAll i _ => i | FlushAll i => i end)).
    { unfold poll. rewrite Ht0, E. cbn [work fold_right] in Hm. fold (work rest) in Hm. destruct c as [i x|i]; cbn in h.
      - destruct x as [|b x].
        + eexists. splits; [reflexivity|unfold call_ends; cbn [todo]; cbn in Hm; lia|exact Hl0|].
          intros c1 Hin. exists c1. split; [right; exact Hin|reflexivity].
        + subst h. destruct (job_of t0 i) as [|p|[|]] eqn:Ej; [| exfalso; exact (Hj0 p eq_refl)| |].
          1,2: eexists; splits; [reflexivity| |cbn [jobs]; rewrite length_update; exact Hl0
            |intros c1 [<-|Hin]; [exists (WriteAll i (b :: x)); split; [left; reflexivity|reflexivity]
                                 |exists c1; split; [right; exact Hin|reflexivity]]];
            cbn [todo work fold_right]; fold (work rest); rewrite skipn_length;
            assert (Hp : 1 <= N.to_nat (N.min (N.of_nat (length (b :: x))) max_chunk)) by (cbn [length]; rewrite max_chunk_is; lia);
            cbn [length] in *; lia.
          eexists. splits; [reflexivity|unfold call_ends; cbn [todo]; lia|unfold call_ends; cbn [jobs]; rewrite length_update; exact Hl0|].
          intros c1 Hin. exists c1. split; [right; exact Hin|reflexivity].
      - subst h. destruct (job_of t0 i) as [|p|ok] eqn:Ej; [|exfalso; exact (Hj0 p eq_refl)|];
          (eexists; splits; [reflexivity|unfold call_ends; cbn [todo]; lia|unfold call_ends; cbn [jobs]; rewrite ?length_update; exact Hl0|];
           intros c1 Hin; exists c1; split; [right; exact Hin|reflexivity]). }
    destruct Hstep as (t1 & Hp1 & Hw1 & Hl1 & Hin1).
    destruct (IH t1 Hw1) as (l & t' & Hf & Hr & He).
    { intros h'. rewrite Hl1. destruct (Hadr h') as [H|H]; [left; exact H|]. right. intros (c1 & Hc1 & Heq).
      destruct (Hin1 c1 Hc1) as (c2 & Hc2 & Heq2). apply H. exists c2. rewrite E in Hc2. split; [exact Hc2|].
      destruct c1, c2; cbn in *; congruence. }
    exists (l0 ++ GoOn :: l), t'. splits.
    + apply Forall_app. split; [exact Hf0|constructor; [exact Logic.I|exact Hf]].
    + rewrite turns_app, Hr0. cbn [turns turn_step]. rewrite Hp1. exact Hr.
    + exact He.
Qed.

(** histories of records *)
Notation as_call := (fun w : write => WriteAll (fst w) (snd w)).
Lemma asked_none i : forall ws : list write, ~ In i (map fst ws) -> asked_of i (map as_call ws) = [].
Proof.
  induction ws as [|(j, b) ws IH]; intros H; [reflexivity|]. cbn [map fst snd].
  rewrite asked_write_other by (intros ->; apply H; left; reflexivity). apply IH. intros Hin. apply H. right. exact Hin.
Qed.
Lemma asked_one i b : forall ws : list write, NoDup (map fst ws) -> In (i, b) ws -> asked_of i (map as_call ws) = [b].
Proof.
  induction ws as [|(j, c) ws IH]; intros Hnd Hin; [destruct Hin|]. cbn [map fst snd] in *. inversion Hnd as [|? ? Hni Hnd']; subst.
  destruct Hin as [E|Hin].
  - injection E as -> ->. rewrite asked_write_same, asked_none by exact Hni. reflexivity.
  - rewrite asked_write_other; [apply IH; assumption|]. intros ->. apply Hni. apply in_map_iff. exists (j, b). split; [reflexivity|exact Hin].
Qed.
Lemma belongs_dec a it : belongs a it \/ ~ belongs a it.
Proof.
  unfold belongs. destruct (N.eq_dec (N.of_nat (a_service a)) (i_service it)) as [E|E]; [|right; intros (H & _); exact (E H)].
  destruct (filter_accepts (a_filter a) (i_level it)) eqn:Ef; [left; split; [exact E|reflexivity]|right; intros (_ & H); discriminate H].
Qed.
Lemma delivered_log fmt layout aps : layout_ok fmt layout -> forall items wss,
  Forall2 (delivered fmt layout aps) items wss -> forall i a, nth_error aps i = Some a ->
  log_of fmt layout a items (asked_of i (map as_call (concat wss))).
Proof.
  intros Hlay items wss H i a Ha. induction H as [|it ws items wss (Hnd & Hd) _ IH]; [constructor|].
  cbn [concat]. rewrite map_app, asked_app. destruct (belongs_dec a it) as [Hb|Hb].
  - assert (Hline : exists b, line fmt layout a it b).
    { destruct (Hlay (i_time it)) as (txt & Ht). unfold line, shown_time.
      eexists. eexists. split; [exact Ht|reflexivity]. }
    destruct Hline as (b & Hl). rewrite (asked_one i b ws Hnd).
    + cbn [app]. apply log_line; [exact Hb|exact Hl|exact IH].
    + apply Hd. exists a. splits; assumption.
  - rewrite (asked_none i ws).
    + cbn [app]. apply log_other; [exact Hb|exact IH].
    + intros Hin. apply in_map_iff in Hin. destruct Hin as ((j, b) & Hj & Hin). cbn in Hj. subst j.
      apply Hd in Hin. destruct Hin as (a' & Ha' & Hb' & _). rewrite Ha in Ha'. injection Ha' as <-. exact (Hb Hb').
Qed.
Lemma delivered_addresses fmt layout aps items wss :
  Forall2 (delivered fmt layout aps) items wss -> addresses (length aps) (session (length aps) wss).
Proof.
  intros H. unfold addresses, session. apply Forall_app. split.
  - apply Forall_map, Forall_concat. induction H as [|it ws items wss (_ & Hd) _ IH]; [constructor|]. constructor; [|exact IH].
    apply Forall_forall. intros (i, b) Hin. apply Hd in Hin. destruct Hin as (a & Ha & _). cbn.
    apply nth_error_Some. rewrite Ha. discriminate.
  - apply Forall_map, Forall_forall. intros i Hi. apply in_seq in Hi. cbn in Hi. lia.
Qed.
Lemma session_flush n wss i : i < n ->
  exists before after, session n wss = before ++ FlushAll i :: after
    /\ (forall j, asked_of j before = asked_of j (map as_call (concat wss)))
    /\ forall j, asked_of j (session n wss) = asked_of j (map as_call (concat wss)).
Proof.
  intros Hi. assert (Hf : forall j s m, asked_of j (map FlushAll (seq s m)) = []).
  { intros j s m. revert s. induction m as [|m IH]; intros s; [reflexivity|]. cbn [seq map]. rewrite asked_flush. apply IH. }
  exists (map as_call (concat wss) ++ map FlushAll (seq 0 i)), (map FlushAll (seq (S i) (n - S i))). splits.
  - unfold session. rewrite <- app_assoc. f_equal. replace n with (i + S (n - S i)) at 1 by lia.
    rewrite seq_app, map_app. cbn [seq map]. rewrite Nat.add_0_l. reflexivity.
  - intros j. rewrite asked_app, Hf, app_nil_r. reflexivity.
  - intros j. unfold session. rewrite asked_app, Hf, app_nil_r. reflexivity.
Qed.
Lemma starts_both {A} (a b : list A) : is_start a b -> is_start b a -> a = b.
Proof.
  intros (r & ->) (r' & H). rewrite <- app_assoc in H. rewrite <- (app_nil_r a) in H at 1. apply app_inv_head in H.
  symmetry in H. apply app_eq_nil in H. destruct H as (-> & _). symmetry. apply app_nil_r.
Qed.
Lemma told_all n calls l landed t : inv n calls l landed t -> todo t = [] -> length (told t) = length calls.
Proof.
  intros I E. destruct (i_todo _ _ _ _ _ I) as (Hl & H). rewrite E in H.
  assert (length (skipn (length (told t)) calls) = 0) by (rewrite H; reflexivity). rewrite skipn_length in H0. lia.
Qed.
Lemma session_screen fmt layout aps items wss l t :
  layout_ok fmt layout -> Forall2 (delivered fmt layout aps) items wss -> output_works l ->
  turns (consoles (length aps) (session (length aps) wss)) l = Some t -> todo t = [] ->
  exists history, screen t = whole_screen history /\ from_source None history = printed l
    /\ (forall i a, nth_error aps i = Some a ->
       exists lines, log_of fmt layout a items lines /\ concat (from_source (Some i) history) = concat lines)
    /\ forall i, nth_error aps i = None -> concat (from_source (Some i) history) = [].
Proof.
  intros Hlay Hd Hw Hr Ht. destruct (inv_turns _ _ (delivered_addresses _ _ _ _ _ Hd) l t Hw Hr) as (landed & I).
  exists landed. splits.
  - exact (i_scr _ _ _ _ _ I).
  - exact (i_prt _ _ _ _ _ I).
  - intros i a Ha. exists (asked_of i (map as_call (concat wss))).
    split; [exact (delivered_log fmt layout aps Hlay items wss Hd i a Ha)|].
    assert (Hi : i < length aps) by (apply nth_error_Some; rewrite Ha; discriminate).
    destruct (session_flush (length aps) wss i Hi) as (before & after & Hs & Hb & Hall).
    apply starts_both.
    + rewrite <- Hall. exists (concat (in_progress t i) ++ concat (asked_of i (todo t))). symmetry. exact (i_bytes _ _ _ _ _ I i).
    + rewrite <- Hb. apply (i_flush _ _ _ _ _ I before i after Hs). rewrite (told_all _ _ _ _ _ I Ht), Hs, app_length.
      cbn [length]. lia.
  - intros i Hi. apply nth_error_None in Hi. pose proof (i_bytes _ _ _ _ _ I i) as Hb.
    assert (Hz : forall l0, addresses (length aps) l0 -> asked_of i l0 = []).
    { induction 1 as [|c0 l0 Hc _ IH]; [reflexivity|]. destruct c0 as [j x|j]; [|exact IH].
      rewrite asked_write_other by lia. exact IH. }
    rewrite (Hz _ (delivered_addresses _ _ _ _ _ Hd)) in Hb. apply app_eq_nil in Hb. apply Hb.
Qed.

(** failures and reports *)
Definition bad (j : job) : nat := match j with Written false => 1 | _ => 0 end.
Definition bads (l : list job) : nat := list_sum (map bad l).
Definition falses (l : list bool) : nat := length (filter negb l).
Lemma bads_update l : forall h j j0, nth_error l h = Some j0 -> bads (update_nth h (fun _ => j) l) + bad j0 = bads l + bad j.
Proof.
  unfold bads. induction l as [|x l IH]; intros [|h] j j0 H; try discriminate H.
  - injection H as ->. cbn. lia.
  - cbn [nth_error] in H. specialize (IH h j j0 H). unfold list_sum in *. cbn. lia.
Qed.
Lemma bads_none l : (forall h, nth h l Resting = Resting) -> bads l = 0.
Proof.
  unfold bads. induction l as [|x l IH]; intros H; [reflexivity|]. pose proof (H 0) as H0. cbn in H0. subst x.
  unfold list_sum in *. cbn. apply IH. intros h. exact (H (S h)).
Qed.
Lemma job_nth t h : h < length (jobs t) -> nth_error (jobs t) h = Some (job_of t h).
Proof. intros H. unfold job_of. apply nth_error_nth'. exact H. Qed.
Lemma falses_app a b : falses (a ++ b) = falses a + falses b.
Proof. unfold falses. rewrite filter_app, app_length. reflexivity. Qed.
Lemma failures_app a b : failures (a ++ b) = failures a + failures b.
Proof. unfold failures. rewrite filter_app, app_length. reflexivity. Qed.
Definition is_write (c : console_call) : Prop := match c with WriteAll _ _ => True | FlushAll _ => False end.
Definition is_flush (c : console_call) : Prop := match c with WriteAll _ _ => False | FlushAll _ => True end.

Record inv3 (n : nat) (l : list turn) (t : terminal) : Prop := Inv3 {
  f_len : length (jobs t) = n;
  f_adr : addresses n (todo t);
  f_form : exists ws fl, todo t = ws ++ fl /\ Forall is_write ws /\ Forall is_flush fl;
  f_count : falses (told t) + bads (jobs t) = failures l;
  f_flush : forall h, h < n -> In (FlushAll h) (todo t) \/ (job_of t h = Resting /\ Forall is_flush (todo t))
}.
Lemma inv3_start n wss : addresses n (session n wss) -> inv3 n [] (consoles n (session n wss)).
Proof.
  intros Ha. constructor; unfold consoles; cbn [jobs todo told].
  - apply repeat_length.
  - exact Ha.
  - unfold session. eexists _, _. splits; [reflexivity| |]; apply Forall_map, Forall_forall; intros x _; exact I.
  - unfold falses. cbn. apply bads_none. intros h. destruct (lt_dec h n).
    + pose proof (nth_In (repeat Resting n) Resting (n := h)) as Hin. rewrite repeat_length in Hin. exact (repeat_spec n _ _ (Hin l)).
    + apply nth_overflow. rewrite repeat_length. lia.
  - intros h Hh. left. unfold session. apply in_or_app. right. apply in_map. apply in_seq. lia.
Qed.
(** finishing the first call *)
Lemma inv3_ends n l t c rest ts ok :
  inv3 n l t -> todo t = c :: rest ->
  (ts = jobs t /\ ok = true /\ (forall h, c = FlushAll h -> job_of t h = Resting)
   \/ exists h, (c = FlushAll h \/ is_write c) /\ h < n /\ job_of t h = Written ok /\ ts = update_nth h (fun _ => Resting) (jobs t)) ->
  inv3 n (l ++ [GoOn]) (call_ends t ts rest ok).
Proof.
  intros I E Hc.
  pose proof (f_adr _ _ _ I) as Had. rewrite E in Had.
  destruct (f_form _ _ _ I) as (ws & fl & Hform & Hw & Hf). rewrite E in Hform.
  assert (Hlen : length ts = n).
  { rewrite <- (f_len _ _ _ I). destruct Hc as [(-> & _)|(h & _ & _ & _ & ->)]; [reflexivity|apply length_update]. }
  assert (Hkeep : forall h, job_of t h = Resting -> nth h ts Resting = Resting).
  { intros h Hr. destruct Hc as [(-> & _)|(h' & _ & Hh' & _ & ->)]; [exact Hr|].
    destruct (Nat.eq_dec h h') as [->|Hne]; [apply nth_update_same; rewrite (f_len _ _ _ I); exact Hh'|].
    rewrite nth_update_other by exact Hne. exact Hr. }
  constructor; unfold call_ends; cbn [jobs todo told].
  - exact Hlen.
  - exact (Forall_inv_tail Had).
  - destruct ws as [|w ws]; cbn [app] in Hform.
    + exists [], rest. splits; [reflexivity|constructor|]. rewrite <- Hform in Hf. exact (Forall_inv_tail Hf).
    + injection Hform as _ ->. exists ws, fl. splits; [reflexivity|exact (Forall_inv_tail Hw)|exact Hf].
  - rewrite failures_app, falses_app. unfold failures at 2. cbn. pose proof (f_count _ _ _ I) as Hcount.
    destruct Hc as [(-> & -> & _)|(h & _ & Hh & Hj & ->)].
    + cbn. lia.
    + pose proof (bads_update (jobs t) h Resting (Written ok)) as Hb. rewrite job_nth, Hj in Hb by (rewrite (f_len _ _ _ I); exact Hh).
      specialize (Hb eq_refl). destruct ok; cbn in *; lia.
  - intros h Hh. destruct (f_flush _ _ _ I h Hh) as [Hin|(Hr & Hfl)].
    + rewrite E in Hin. destruct Hin as [->|Hin]; [|left; exact Hin]. right. split.
      * unfold job_of. cbn [jobs]. destruct Hc as [(-> & _ & Hr)|(h' & [Hc|Hc] & Hh' & _ & ->)].
        -- exact (Hr h eq_refl).
        -- injection Hc as <-. apply nth_update_same. rewrite (f_len _ _ _ I). exact Hh.
        -- destruct Hc.
      * destruct ws as [|w ws]; cbn [app] in Hform.
        -- rewrite <- Hform in Hf. exact (Forall_inv_tail Hf).
        -- injection Hform as <- _. destruct (Forall_inv Hw).
    + right. split; [exact (Hkeep h Hr)|]. rewrite E in Hfl. exact (Forall_inv_tail Hfl).
Qed.
Lemma inv3_step n l t x t' : inv3 n l t -> turn_step t x = Some t' -> inv3 n (l ++ [x]) t'.
Proof.
  intros I Hs. destruct x as [|h failed|text]; cbn [turn_step] in Hs.
  - unfold poll in Hs. destruct (todo t) as [|c rest] eqn:E; [discriminate Hs|].
    pose proof (f_adr _ _ _ I) as Had. rewrite E in Had. pose proof (Forall_inv Had) as Hc0.
    destruct c as [h text|h]; cbn in Hc0.
    + destruct text as [|b text0].
      * injection Hs as <-. eapply inv3_ends; [exact I|exact E|]. left. splits; [reflexivity|reflexivity|discriminate].
      * set (text := b :: text0) in *. destruct (job_of t h) as [|p|ok] eqn:Ej; [|discriminate Hs|destruct ok].
        3: { injection Hs as <-. eapply inv3_ends; [exact I|exact E|]. right. exists h.
             splits; [right; exact Logic.I|exact Hc0|exact Ej|reflexivity]. }
        all: injection Hs as <-; destruct (f_form _ _ _ I) as (ws & fl & Hform & Hw & Hf); rewrite E in Hform.
        all: constructor; cbn [jobs todo told].
        1,6: rewrite length_update; exact (f_len _ _ _ I).
        1,5: constructor; [exact Hc0|exact (Forall_inv_tail Had)].
        1,4: destruct ws as [|w ws]; cbn [app] in Hform;
             [rewrite <- Hform in Hf; destruct (Forall_inv Hf)
             |injection Hform as _ ->; eexists (_ :: ws), fl; splits;
              [reflexivity|constructor; [exact Logic.I|exact (Forall_inv_tail Hw)]|exact Hf]].
        1,3: rewrite failures_app; unfold failures at 2; cbn [filter length];
             pose proof (f_count _ _ _ I) as Hcount;
             match goal with |- context [update_nth _ (fun _ => ?j) _] =>
               pose proof (bads_update (jobs t) h j (job_of t h)) as Hb end;
             rewrite job_nth in Hb by (rewrite (f_len _ _ _ I); exact Hc0); specialize (Hb eq_refl);
             rewrite Ej in Hb; cbn [bad] in Hb; lia.
        all: intros h' Hh'; destruct (f_flush _ _ _ I h' Hh') as [Hin|(_ & Hfl)];
             [left; rewrite E in Hin; destruct Hin as [Hin|Hin]; [discriminate Hin|right; exact Hin]
             |rewrite E in Hfl; destruct (Forall_inv Hfl)].
    + destruct (job_of t h) as [|p|ok] eqn:Ej; [|discriminate Hs|]; injection Hs as <-; (eapply inv3_ends; [exact I|exact E|]).
      * left. splits; [reflexivity|reflexivity|]. intros h' [= <-]. exact Ej.
      * right. exists h. splits; [left; reflexivity|exact Hc0|exact Ej|reflexivity].
  - unfold land in Hs. destruct (job_of t h) as [|piece|] eqn:Ej; try discriminate Hs. injection Hs as <-.
    assert (Hh : h < length (jobs t)).
    { destruct (lt_dec h (length (jobs t))) as [Hlt|Hge]; [exact Hlt|]. rewrite job_out in Ej by lia. discriminate Ej. }
    constructor; cbn [jobs todo told].
    + rewrite length_update. exact (f_len _ _ _ I).
    + exact (f_adr _ _ _ I).
    + exact (f_form _ _ _ I).
    + rewrite failures_app. pose proof (f_count _ _ _ I) as Hcount.
      pose proof (bads_update (jobs t) h (Written (match failed with None => true | Some _ => false end)) (Writing piece)) as Hb.
      rewrite job_nth, Ej in Hb by exact Hh. specialize (Hb eq_refl).
      unfold failures at 2. destruct failed; cbn [filter length bad] in *; lia.
    + intros h' Hh'. destruct (f_flush _ _ _ I h' Hh') as [Hin|(Hr & Hfl)]; [left; exact Hin|right]. split; [|exact Hfl].
      unfold job_of. cbn [jobs]. rewrite nth_update_other; [exact Hr|]. intros ->. rewrite Ej in Hr. discriminate Hr.
  - injection Hs as <-. constructor; cbn [jobs todo told].
    + exact (f_len _ _ _ I).
    + exact (f_adr _ _ _ I).
    + exact (f_form _ _ _ I).
    + rewrite failures_app. unfold failures at 2. cbn. rewrite Nat.add_0_r. exact (f_count _ _ _ I).
    + exact (f_flush _ _ _ I).
Qed.
Lemma inv3_turns n wss : addresses n (session n wss) -> forall l t,
  turns (consoles n (session n wss)) l = Some t -> inv3 n l t.
Proof.
  intros Ha. induction l as [|x l IH] using rev_ind; intros t Hr.
  - cbn in Hr. injection Hr as <-. apply inv3_start. exact Ha.
  - rewrite turns_app in Hr. destruct (turns (consoles n (session n wss)) l) as [t1|] eqn:E; [|discriminate Hr].
    cbn in Hr. destruct (turn_step t1 x) as [t2|] eqn:Es; [|discriminate Hr]. injection Hr as <-.
    exact (inv3_step n l t1 x t2 (IH t1 eq_refl) Es).
Qed.
Lemma reported n wss l t : addresses n (session n wss) -> turns (consoles n (session n wss)) l = Some t ->
  falses (told t) <= failures l /\ (todo t = [] -> falses (told t) = failures l).
Proof.
  intros Ha Hr. pose proof (inv3_turns n wss Ha l t Hr) as I. pose proof (f_count _ _ _ I) as Hc. split; [lia|].
  intros Ht. rewrite bads_none in Hc; [lia|]. intros h. destruct (lt_dec h n) as [Hlt|Hge].
  - destruct (f_flush _ _ _ I h Hlt) as [Hin|(Hj & _)]; [rewrite Ht in Hin; destruct Hin|exact Hj].
  - apply nth_overflow. rewrite (f_len _ _ _ I). lia.
Qed.
