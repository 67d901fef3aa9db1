From Verif Require Import S_Net F_Base F_Reader.
From Coq Require Import Lia.

Lemma splitN_app n (d : bytes) : fst (splitN n d) ++ snd (splitN n d) = d.
Proof. destruct (splitN n d) as [a b] eqn:E. apply splitN_spec in E as [E _]. now cbn. Qed.
Lemma splitN_len n (d : bytes) : (n <= lenN d)%N -> lenN (fst (splitN n d)) = n.
Proof. intros H. destruct (splitN n d) as [a b] eqn:E. apply splitN_spec in E as [_ E]. cbn. lia. Qed.
Lemma lenN_app {A} (a b : list A) : lenN (a ++ b) = (lenN a + lenN b)%N.
Proof. unfold lenN. rewrite app_length. lia. Qed.
Lemma lenN_pos {A} (a : list A) : a <> [] -> (0 < lenN a)%N.
Proof. destruct a; [contradiction|unfold lenN; cbn [length]; lia]. Qed.
Lemma lenN_0 {A} (a : list A) : lenN a = 0%N -> a = [].
Proof. destruct a; [auto|unfold lenN; cbn [length]; lia]. Qed.

Definition good (s : socket) : Prop := exists held, so_out s = so_sent s ++ held /\ (so_plain s = true -> held = []).
(** from s to s': the bytes t were taken, with f flushes *)
Definition moved (s s' : socket) (t : bytes) (f : nat) : Prop :=
  so_plain s' = so_plain s /\ so_out s' = so_out s ++ t
  /\ (good s -> good s' /\ exists u, so_sent s' = so_sent s ++ u)
  /\ (will_take (so_next s') + lenN t <= will_take (so_next s))%N
  /\ (Forall reads (so_next s) -> Forall reads (so_next s') /\ (length (so_next s) <= length (so_next s') + length t + f)%nat).

Lemma moved_refl s : moved s s [] 0.
Proof.
  split; [reflexivity|]. split; [now rewrite app_nil_r|]. split; [intros H; split; [exact H|exists []; now rewrite app_nil_r]|].
  split; [unfold lenN; cbn [length]; lia|]. intros H. split; [exact H|cbn [length]; lia].
Qed.
Lemma moved_trans s1 s2 s3 t1 t2 f1 f2 : moved s1 s2 t1 f1 -> moved s2 s3 t2 f2 -> moved s1 s3 (t1 ++ t2) (f1 + f2).
Proof.
  intros (A1 & A2 & A3 & A5 & A6) (B1 & B2 & B3 & B5 & B6). split; [congruence|]. split; [now rewrite B2, A2, app_assoc|]. split; [|split].
  - intros H. destruct (A3 H) as [H1 (u1 & A4)]. destruct (B3 H1) as [H2 (u2 & B4)]. split; [exact H2|].
    exists (u1 ++ u2). now rewrite B4, A4, app_assoc.
  - rewrite lenN_app. lia.
  - intros H. destruct (A6 H) as [H1 L1]. destruct (B6 H1) as [H2 L2]. split; [exact H2|]. rewrite app_length. lia.
Qed.

(** what a call may return *)
Definition fair {A} (s s' : socket) (x : io A) : Prop :=
  (Forall reads (so_next s) -> x <> Broke) /\ (x = Waits -> so_next s' = []).

Lemma sock_write_spec data s s' x : sock_write data s = (s', x) -> data <> [] ->
  match x with
  | Did n => (n <= lenN data)%N /\ (Forall reads (so_next s) -> n <> 0%N) /\ moved s s' (fst (splitN n data)) 0
  | _ => moved s s' [] 0
  end /\ fair s s' x.
Proof.
  intros E Hd. unfold sock_write in E. destruct (so_next s) as [|[n|] next] eqn:En.
  - injection E as <- <-. split; [apply moved_refl|]. split; [discriminate|auto].
  - injection E as <- <-. split; [|split; discriminate]. split; [lia|]. pose proof (lenN_pos _ Hd) as Hl.
    split.
    { intros H. apply Forall_cons_iff in H as [H _]. cbn in H. lia. }
    assert (L : lenN (fst (splitN (N.min n (lenN data)) data)) = N.min n (lenN data)) by (apply splitN_len; lia).
    split; [reflexivity|]. split; [reflexivity|]. cbn [so_plain so_out so_sent so_next]. split; [|split].
    + intros (held & H1 & H2). unfold good. cbn. destruct (so_plain s) eqn:Ep.
      * rewrite (H2 eq_refl), app_nil_r in H1. split; [exists []; now rewrite app_nil_r|]. rewrite H1. eauto.
      * split; [|exists []; now rewrite app_nil_r]. exists (held ++ fst (splitN (N.min n (lenN data)) data)).
        split; [rewrite H1, app_assoc; reflexivity|discriminate].
    + rewrite En. cbn [will_take fold_right]. fold (will_take next). lia.
    + rewrite En. intros H. apply Forall_cons_iff in H as [H1 H2]. split; [exact H2|]. cbn [length]. cbn in H1.
      assert (X : (0 < lenN (fst (splitN (N.min n (lenN data)) data)))%N) by (rewrite L; apply N.min_glb_lt; assumption).
      destruct (fst (splitN (N.min n (lenN data)) data)); [cbn in X; lia|cbn [length]; lia].
  - injection E as <- <-. assert (N : ~ Forall reads (so_next s)) by (rewrite En; intros H; apply Forall_cons_iff in H as [[] _]).
    split; [|split; [|discriminate]].
    + split; [reflexivity|]. split; [cbn; now rewrite app_nil_r|]. cbn [so_plain so_out so_sent so_next]. split; [|split].
      * intros H. split; [exact H|exists []; now rewrite app_nil_r].
      * rewrite En. cbn [will_take fold_right]. fold (will_take next). unfold lenN. cbn [length]. lia.
      * intros H. contradiction.
    + intros H. contradiction.
Qed.
Lemma sock_flush_spec s s' x : sock_flush s = (s', x) -> moved s s' [] 1 /\ fair s s' x /\ (x = Did tt -> good s -> so_sent s' = so_out s').
Proof.
  intros E. unfold sock_flush in E.
  assert (M : moved s s [] 1).
  { pose proof (moved_refl s) as (A1 & A2 & A3 & A5 & A6). split; [exact A1|]. split; [exact A2|]. split; [exact A3|]. split; [exact A5|].
    intros H. destruct (A6 H). split; [assumption|lia]. }
  destruct (so_plain s) eqn:Ep.
  { injection E as <- <-. split; [exact M|]. split; [split; discriminate|]. intros _ (held & H1 & H2). rewrite H2, app_nil_r in H1; auto. }
  destruct (so_next s) as [|[n|] next] eqn:En.
  - injection E as <- <-. split; [exact M|]. split; [split; [discriminate|auto]|discriminate].
  - injection E as <- <-. split; [|split; [split; discriminate|reflexivity]].
    split; [cbn; congruence|]. split; [cbn; now rewrite app_nil_r|]. cbn [so_sent so_next]. split; [|split].
    + intros (held & H1 & H2). split; [exists []; cbn; now rewrite app_nil_r|exists held; exact H1].
    + rewrite En. cbn [will_take fold_right]. fold (will_take next). unfold lenN. cbn [length]. lia.
    + rewrite En. intros H. apply Forall_cons_iff in H as [_ H]. split; [exact H|cbn [length]; lia].
  - injection E as <- <-. assert (N : ~ Forall reads (so_next s)) by (rewrite En; intros H; apply Forall_cons_iff in H as [[] _]).
    split; [|split; [split; [intros H; contradiction|discriminate]|discriminate]].
    split; [cbn; congruence|]. split; [cbn; now rewrite app_nil_r|]. cbn [so_sent so_next]. split; [|split].
    + intros H. split; [|exists []; now rewrite app_nil_r]. destruct H as (held & H1 & H2). exists held. cbn. split; [exact H1|discriminate].
    + rewrite En. cbn [will_take fold_right]. fold (will_take next). unfold lenN. cbn [length]. lia.
    + intros H. contradiction.
Qed.

Lemma splitN_shorter n (d : bytes) : (n <= lenN d)%N -> n <> 0%N -> (length (snd (splitN n d)) < length d)%nat.
Proof.
  intros H1 H2. pose proof (f_equal (@length _) (splitN_app n d)) as E. rewrite app_length in E.
  pose proof (splitN_len n d H1) as L. unfold lenN in L. lia.
Qed.
Lemma fair_trans {A} s1 s2 s3 t f (x : io A) : moved s1 s2 t f -> fair s2 s3 x -> fair s1 s3 x.
Proof. intros (_ & _ & _ & _ & M) [H1 H2]. split; [intros H; apply H1; now apply M|exact H2]. Qed.

Lemma drain_spec fuel : forall p s rest s' x, (length p <= fuel)%nat -> drain_buf fuel p s = (rest, s', x) ->
  exists t, p = t ++ rest /\ moved s s' t 0 /\ fair s s' x /\ (x = Did tt -> rest = []).
Proof.
  induction fuel as [|fuel IH]; intros p s rest s' x L E.
  - destruct p as [|c p]; [|cbn in L; lia]. injection E as <- <- <-. exists []. split; [reflexivity|].
    split; [apply moved_refl|]. split; [split; [discriminate|discriminate]|auto].
  - destruct p as [|c p].
    { injection E as <- <- <-. exists []. split; [reflexivity|]. split; [apply moved_refl|]. split; [split; discriminate|auto]. }
    cbn [drain_buf] in E. destruct (sock_write (c :: p) s) as [s1 y] eqn:Ew. apply sock_write_spec in Ew as [Ew F]; [|discriminate].
    destruct y as [n| |].
    + destruct Ew as (Hn & Hp & M). destruct (n =? 0)%N eqn:E0.
      * apply N.eqb_eq in E0. subst n. injection E as <- <- <-. exists []. split; [reflexivity|].
        assert (Z : fst (splitN 0 (c :: p)) = []) by (apply lenN_0; rewrite splitN_len; auto; lia). rewrite Z in M.
        split; [exact M|]. split; [split; [intros H; elim (Hp H); reflexivity|discriminate]|discriminate].
      * apply N.eqb_neq in E0. pose proof (splitN_shorter n (c :: p) Hn E0) as Sh.
        apply IH in E as (t & E1 & E2 & E3 & E4); [|lia].
        exists (fst (splitN n (c :: p)) ++ t). split; [rewrite <- app_assoc, <- E1; symmetry; apply splitN_app|].
        split; [exact (moved_trans _ _ _ _ _ _ _ M E2)|]. split; [exact (fair_trans _ _ _ _ _ _ M E3)|exact E4].
    + injection E as <- <- <-. exists []. split; [reflexivity|]. split; [exact Ew|]. split; [|discriminate]. destruct F as [F _]. split; [intros H; elim (F H); reflexivity|discriminate].
    + injection E as <- <- <-. exists []. split; [reflexivity|]. split; [exact Ew|]. split; [|discriminate]. destruct F as [_ F]. split; [discriminate|intros _; now apply F].
Qed.

(** from w to w' the bytes acc were accepted *)
Definition passed (w w' : bufw) (acc : bytes) (f : nat) : Prop :=
  bw_cap w' = bw_cap w
  /\ exists t, moved (bw_sock w) (bw_sock w') t f /\ bw_buf w ++ acc = t ++ bw_buf w'.
Lemma passed_refl w : passed w w [] 0.
Proof. split; [reflexivity|]. exists []. split; [apply moved_refl|now rewrite app_nil_r]. Qed.
Lemma passed_trans w1 w2 w3 a1 a2 f1 f2 : passed w1 w2 a1 f1 -> passed w2 w3 a2 f2 -> passed w1 w3 (a1 ++ a2) (f1 + f2).
Proof.
  intros [A1 (t1 & A2 & A3)] [B1 (t2 & B2 & B3)]. split; [congruence|]. exists (t1 ++ t2). split; [exact (moved_trans _ _ _ _ _ _ _ A2 B2)|].
  now rewrite app_assoc, A3, <- !app_assoc, B3.
Qed.
Lemma passed_fair {A} w1 w2 w3 a f (x : io A) : passed w1 w2 a f -> fair (bw_sock w2) (bw_sock w3) x -> fair (bw_sock w1) (bw_sock w3) x.
Proof. intros [_ (t & M & _)]. apply (fair_trans _ _ _ _ _ _ M). Qed.

Lemma flush_buf_spec w w' x : net_flush_buf w = (w', x) -> passed w w' [] 0 /\ fair (bw_sock w) (bw_sock w') x /\ (x = Did tt -> bw_buf w' = []).
Proof.
  unfold net_flush_buf. destruct (drain_buf _ _ _) as [[rest s] y] eqn:E. intros [= <- <-].
  apply drain_spec in E as (t & E1 & E2 & E3 & E4); [|lia]. split; [|split; [exact E3|exact E4]].
  split; [reflexivity|]. exists t. split; [exact E2|]. cbn. now rewrite app_nil_r.
Qed.
Lemma buf_write_spec data w w' x : net_buf_write data w = (w', x) -> data <> [] ->
  match x with
  | Did n => (n <= lenN data)%N /\ (Forall reads (so_next (bw_sock w)) -> n <> 0%N) /\ passed w w' (fst (splitN n data)) 0
  | _ => passed w w' [] 0
  end /\ fair (bw_sock w) (bw_sock w') x.
Proof.
  unfold net_buf_write. intros E Hd.
  set (o := if (bw_cap w <? lenN (bw_buf w) + lenN data)%N then net_flush_buf w else (w, Did tt)) in E.
  assert (P : exists w1 y, o = (w1, y) /\ passed w w1 [] 0 /\ fair (bw_sock w) (bw_sock w1) y /\ (y = Did tt -> bw_buf w1 = [] \/ (lenN (bw_buf w1) + lenN data <= bw_cap w)%N)).
  { unfold o. destruct (bw_cap w <? lenN (bw_buf w) + lenN data)%N eqn:Ec.
    - destruct (net_flush_buf w) as [w1 y] eqn:Ef. apply flush_buf_spec in Ef as (F1 & F2 & F3). exists w1, y. split; [reflexivity|]. split; [exact F1|]. split; [exact F2|]. intros H. left. now apply F3.
    - exists w, (Did tt). split; [reflexivity|]. split; [apply passed_refl|]. split; [split; discriminate|]. intros _. right. apply N.ltb_ge in Ec. exact Ec. }
  destruct P as (w1 & y & -> & P & F & Hy). destruct y as [[]| |].
  - pose proof P as [C _]. destruct (bw_cap w1 <=? lenN data)%N eqn:Ec.
    + destruct (sock_write data (bw_sock w1)) as [s z] eqn:Es. injection E as <- <-.
      apply sock_write_spec in Es as [Es Fs]; [|exact Hd]. split; [|exact (passed_fair w w1 (BufW (bw_cap w1) (bw_buf w1) s) _ _ _ P Fs)].
      assert (Hb : bw_buf w1 = []).
      { destruct (Hy eq_refl) as [H|H]; [exact H|]. apply N.leb_le in Ec. apply lenN_0. lia. }
      assert (Q : forall t, moved (bw_sock w1) s t 0 -> passed w (BufW (bw_cap w1) (bw_buf w1) s) t 0).
      { intros t M. apply (passed_trans _ _ _ [] t 0 0 P). split; [reflexivity|]. exists t. split; [exact M|]. cbn. rewrite Hb. now rewrite app_nil_r. }
      destruct z as [n| |]; auto. destruct Es as (E1 & E2 & E3). split; [exact E1|]. split; [|now apply Q].
      intros H. apply E2. destruct P as [_ (t & M & _)]. now apply M.
    + injection E as <- <-. split; [|split; discriminate]. split; [lia|]. split; [intros _; pose proof (lenN_pos _ Hd); lia|].
      apply (passed_trans _ _ _ [] _ 0 0 P). split; [reflexivity|]. exists []. split; [apply moved_refl|]. cbn. f_equal.
      pose proof (splitN_app (lenN data) data) as X. pose proof (splitN_len (lenN data) data ltac:(lia)) as L.
      assert (Z : snd (splitN (lenN data) data) = []).
      { apply lenN_0. pose proof (f_equal lenN X) as Y. rewrite lenN_app in Y. lia. }
      now rewrite Z, app_nil_r in X.
  - injection E as <- <-. split; [exact P|]. destruct F as [F _]. split; [intros H; elim (F H); reflexivity|discriminate].
  - injection E as <- <-. split; [exact P|]. destruct F as [_ F]. split; [discriminate|intros _; now apply F].
Qed.
Lemma write_all_spec fuel : forall data w w' x, (length data <= fuel)%nat -> net_write_all fuel data w = (w', x) ->
  exists acc rest, data = acc ++ rest /\ passed w w' acc 0 /\ fair (bw_sock w) (bw_sock w') x /\ (x = Did tt -> rest = []).
Proof.
  induction fuel as [|fuel IH]; intros d w w' x L E.
  - destruct d; [|cbn in L; lia]. injection E as <- <-. exists [], []. split; [reflexivity|]. split; [apply passed_refl|]. split; [split; discriminate|auto].
  - destruct d as [|c d]; [injection E as <- <-; exists [], []; split; [reflexivity|]; split; [apply passed_refl|]; split; [split; discriminate|auto]|].
    cbn [net_write_all] in E. destruct (net_buf_write (c :: d) w) as [w1 y] eqn:Ew. apply buf_write_spec in Ew as [Ew F]; [|discriminate].
    destruct y as [n| |].
    + destruct Ew as (Hn & Hp & M). destruct (n =? 0)%N eqn:E0.
      * apply N.eqb_eq in E0. subst n. injection E as <- <-. exists [], (c :: d). split; [reflexivity|].
        assert (Z : fst (splitN 0 (c :: d)) = []) by (apply lenN_0; rewrite splitN_len; auto; lia). rewrite Z in M.
        split; [exact M|]. split; [split; [intros H; elim (Hp H); reflexivity|discriminate]|discriminate].
      * apply N.eqb_neq in E0. pose proof (splitN_shorter n (c :: d) Hn E0) as Sh.
        apply IH in E as (acc & rest & E1 & E2 & E3 & E4); [|lia].
        exists (fst (splitN n (c :: d)) ++ acc), rest. split; [rewrite <- app_assoc, <- E1; symmetry; apply splitN_app|].
        split; [exact (passed_trans _ _ _ _ _ _ _ M E2)|]. split; [exact (passed_fair _ _ _ _ _ _ M E3)|exact E4].
    + injection E as <- <-. exists [], (c :: d). split; [reflexivity|]. split; [exact Ew|]. split; [|discriminate]. destruct F as [F _]. split; [intros H; elim (F H); reflexivity|discriminate].
    + injection E as <- <-. exists [], (c :: d). split; [reflexivity|]. split; [exact Ew|]. split; [|discriminate]. destruct F as [_ F]. split; [discriminate|intros _; now apply F].
Qed.
Lemma buf_flush_spec w w' x : buf_flush w = (w', x) -> passed w w' [] 1 /\ fair (bw_sock w) (bw_sock w') x
  /\ (x = Did tt -> bw_buf w' = [] /\ (good (bw_sock w) -> so_sent (bw_sock w') = so_out (bw_sock w'))).
Proof.
  unfold buf_flush. destruct (net_flush_buf w) as [w1 y] eqn:E. apply flush_buf_spec in E as (P & F & Hb).
  assert (W : passed w w1 [] 1).
  { destruct P as [P1 (t & (M1 & M2 & M3 & M5 & M6) & P2)]. split; [exact P1|]. exists t. split; [|exact P2].
    split; [exact M1|]. split; [exact M2|]. split; [exact M3|]. split; [exact M5|]. intros H. destruct (M6 H). split; [assumption|lia]. }
  destruct y as [[]| |].
  - destruct (sock_flush (bw_sock w1)) as [s z] eqn:Es. intros [= <- <-]. apply sock_flush_spec in Es as (M & Fs & G).
    split; [|split; [exact (passed_fair w w1 (BufW (bw_cap w1) (bw_buf w1) s) _ _ _ P Fs)|]].
    + change (@nil byte) with ([] ++ [] : bytes). apply (passed_trans _ _ _ [] [] 0 1 P). split; [reflexivity|]. exists []. split; [exact M|]. cbn. now rewrite app_nil_r.
    + intros Hz. split; [now apply Hb|]. intros Hg. cbn. apply G; [exact Hz|]. destruct P as [_ (t & (_ & _ & M3 & _) & _)]. now apply M3.
  - intros [= <- <-]. split; [exact W|]. split; [|discriminate]. destruct F as [F _]. split; [intros H; elim (F H); reflexivity|discriminate].
  - intros [= <- <-]. split; [exact W|]. split; [|discriminate]. destruct F as [_ F]. split; [discriminate|intros _; now apply F].
Qed.
Lemma passed_weak w w' a f f' : passed w w' a f -> (f <= f')%nat -> passed w w' a f'.
Proof.
  intros [P1 (t & (M1 & M2 & M3 & M5 & M6) & P2)] L. split; [exact P1|]. exists t. split; [|exact P2].
  split; [exact M1|]. split; [exact M2|]. split; [exact M3|]. split; [exact M5|]. intros H. destruct (M6 H). split; [assumption|lia].
Qed.
Lemma send_spec h b w w' x : send_response h b w = (w', x) ->
  exists acc rest, h ++ b = acc ++ rest /\ passed w w' acc 1 /\ fair (bw_sock w) (bw_sock w') x
  /\ (x = Did tt -> rest = [] /\ bw_buf w' = [] /\ (good (bw_sock w) -> so_sent (bw_sock w') = so_out (bw_sock w'))).
Proof.
  unfold send_response. destruct (net_write_all _ h w) as [w1 y1] eqn:E1. apply write_all_spec in E1 as (a1 & r1 & A1 & A2 & A3 & A4); [|lia].
  assert (B1 : y1 <> Did tt -> (w1, y1) = (w', x) -> exists acc rest, h ++ b = acc ++ rest /\ passed w w' acc 1 /\ fair (bw_sock w) (bw_sock w') x
     /\ (x = Did tt -> rest = [] /\ bw_buf w' = [] /\ (good (bw_sock w) -> so_sent (bw_sock w') = so_out (bw_sock w')))).
  { intros N [= <- <-]. exists a1, (r1 ++ b). split; [now rewrite A1, app_assoc|]. split; [apply (passed_weak _ _ _ _ _ A2); lia|]. split; [exact A3|]. intros; contradiction. }
  destruct y1 as [[]| |]; [|apply B1; discriminate|apply B1; discriminate]. rewrite (A4 eq_refl), app_nil_r in A1. subst a1. clear B1.
  set (o := if Nat.ltb 0 (length b) then net_write_all (length b) b w1 else (w1, Did tt)).
  assert (Q : exists w2 y2 a2 r2, o = (w2, y2) /\ b = a2 ++ r2 /\ passed w1 w2 a2 0 /\ fair (bw_sock w1) (bw_sock w2) y2 /\ (y2 = Did tt -> r2 = [])).
  { unfold o. destruct (Nat.ltb 0 (length b)) eqn:El.
    - destruct (net_write_all (length b) b w1) as [w2 y2] eqn:E2. apply write_all_spec in E2 as (a2 & r2 & C1 & C2 & C3 & C4); [|lia]. exists w2, y2, a2, r2. auto.
    - exists w1, (Did tt), [], []. apply Nat.ltb_ge in El. destruct b; [|cbn in El; lia]. split; [reflexivity|]. split; [reflexivity|]. split; [apply passed_refl|]. split; [split; discriminate|auto]. }
  destruct Q as (w2 & y2 & a2 & r2 & -> & C1 & C2 & C3 & C4). pose proof (passed_trans _ _ _ _ _ _ _ A2 C2) as D.
  assert (B2 : y2 <> Did tt -> (w2, y2) = (w', x) -> exists acc rest, h ++ b = acc ++ rest /\ passed w w' acc 1 /\ fair (bw_sock w) (bw_sock w') x
     /\ (x = Did tt -> rest = [] /\ bw_buf w' = [] /\ (good (bw_sock w) -> so_sent (bw_sock w') = so_out (bw_sock w')))).
  { intros N [= <- <-]. exists (h ++ a2), r2. split; [now rewrite C1, app_assoc|]. split; [apply (passed_weak _ _ _ _ _ D); lia|]. split; [exact (passed_fair _ _ _ _ _ _ A2 C3)|]. intros; contradiction. }
  destruct y2 as [[]| |]; [|apply B2; discriminate|apply B2; discriminate]. rewrite (C4 eq_refl), app_nil_r in C1. subst a2. clear B2.
  intros E3. apply buf_flush_spec in E3 as (F1 & F2 & F3). exists (h ++ b), []. split; [now rewrite app_nil_r|].
  split; [pose proof (passed_trans _ _ _ _ _ _ _ D F1) as X; now rewrite app_nil_r in X|]. split; [exact (passed_fair _ _ _ _ _ _ D F2)|].
  intros Hx. destruct (F3 Hx) as [G1 G2]. split; [reflexivity|]. split; [exact G1|]. intros Hg. apply G2.
  destruct D as [_ (t & (_ & _ & M3 & _) & _)]. now apply M3.
Qed.

(** ** The connection loop *)
Section Net.
Variable K : codec.

Lemma parts_serialize ho (m : message K) :
  serialize ho m = match msg_parts ho m with
                   | Ret (o, m') => Ret (option_map (fun p => fst p ++ snd p) o, m')
                   | Panic => Panic | UB => UB | Blocked => Blocked | NoFuel => NoFuel
                   end.
Proof.
  unfold serialize, msg_parts. destruct (body_end (mbody m)) as [b ok]. destruct ok; [|reflexivity].
  destruct (mm_set _ _ _) as [h| | | |]; cbn [obind]; try reflexivity.
  destruct (mm_each _ _ _ _) as [hs| | | |]; cbn [obind]; try reflexivity.
  destruct (Nat.ltb 0 (body_size b)).
  - destruct (body_inner b); reflexivity.
  - cbn. now rewrite app_nil_r.
Qed.

Lemma responses_app (a b : list (message K * option (bytes * bytes))) : responses (a ++ b) = responses a ++ responses b.
Proof. unfold responses. now rewrite map_app, concat_app. Qed.
Lemma handled_app (a b : list (message K * option (bytes * bytes))) : exchanges (a ++ b) = exchanges a ++ exchanges b.
Proof. unfold exchanges. now rewrite map_app. Qed.

Definition ready (w : bufw) : Prop := bw_buf w = [] /\ good (bw_sock w) /\ so_sent (bw_sock w) = so_out (bw_sock w).

Definition net_ok (w : bufw) (log : list (message K * option (bytes * bytes))) (n : net_result K) (a : conn_result K) : Prop :=
  exists new t, nr_log n = log ++ new /\ moved (bw_sock w) (bw_sock (nr_writer n)) t (length new)
  /\ (nr_end n = SendFailed -> ~ Forall reads (so_next (bw_sock w)))
  /\ (nr_end n = SendWaits -> so_next (bw_sock (nr_writer n)) = [])
  /\ exists more, cr_log a = exchanges (log ++ new) ++ more /\
  match nr_end n with
  | Ended e => cr_end a = e /\ more = [] /\ t = responses new /\ ready (nr_writer n)
  | _ => exists before req h b part rest u, new = before ++ [(req, Some (h, b))] /\ h ++ b = part ++ rest
         /\ t = responses before ++ part
         /\ so_sent (bw_sock (nr_writer n)) = so_sent (bw_sock w) ++ responses before ++ u
  end.

Lemma log_grows fuel : forall inner cfg caps ho svc k r w req resp log,
  exists more, cr_log (serve_loop (K:=K) fuel inner cfg caps ho svc k r w req resp log) = log ++ more.
Proof.
  induction fuel as [|f IH]; intros; cbn [serve_loop]; [exists []; now rewrite app_nil_r|].
  repeat (match goal with
  | |- exists more, cr_log (CR_ log _ _) = _ => exists []; cbn; now rewrite app_nil_r
  | |- exists more, cr_log (CR_ (log ++ _) _ _) = _ => eexists; reflexivity
  | |- context [serve_loop f ?i ?c ?ca ?h ?s ?k' ?r' ?w' ?rq ?rs (log ++ ?l)] =>
      destruct (IH i c ca h s k' r' w' rq rs (log ++ l)) as (more & E); rewrite E, <- app_assoc; eexists; reflexivity
  | |- context [match ?x with _ => _ end] => destruct x
  end).
Qed.

Lemma ended_ok w log new e a : ready w -> cr_end a = e -> cr_log a = exchanges (log ++ new) -> responses new = [] ->
  net_ok w log (NR (log ++ new) w (Ended e)) a.
Proof.
  intros R E L X. exists new, []. split; [reflexivity|]. split; [|split; [discriminate|split; [discriminate|]]].
  { destruct (moved_refl (bw_sock w)) as (M1 & M2 & M3 & M5 & M6). split; [exact M1|]. split; [exact M2|]. split; [exact M3|]. split; [exact M5|].
    intros H. destruct (M6 H) as [? Q]. split; [assumption|cbn [length nr_writer] in *; lia]. }
  exists []. split; [now rewrite app_nil_r|]. split; [exact E|]. split; [reflexivity|]. split; [now rewrite X|exact R].
Qed.

Lemma net_sim fuel : forall inner cfg caps ho svc k r w req resp log, ready w ->
  net_ok w log (net_loop fuel inner cfg caps ho svc k r w req resp log)
    (serve_loop fuel inner cfg caps ho svc k r (Wr (so_out (bw_sock w)) None) req resp (exchanges log)).
Proof.
  induction fuel as [|f IH]; intros inner cfg caps ho svc k r w req resp log R.
  { cbn. rewrite <- (app_nil_r log) at 2. apply ended_ok; auto. cbn. now rewrite app_nil_r. }
  cbn [net_loop serve_loop].
  assert (Z : forall e, net_ok w log (NR log w (Ended e)) (CR_ (exchanges log) (Wr (so_out (bw_sock w)) None) e)).
  { intros e. rewrite <- (app_nil_r log) at 2. apply ended_ok; auto. now rewrite app_nil_r. }
  assert (Z1 : forall q e, net_ok w log (NR (log ++ [(q, None)]) w (Ended e)) (CR_ (exchanges log ++ [(q, None)]) (Wr (so_out (bw_sock w)) None) e)).
  { intros q e. apply ended_ok; auto. now rewrite handled_app. }
  destruct (read_headers inner cfg r req) as [[[c req1] r1]| | | |]; try apply Z. destruct c; try apply Z.
  destruct (read_const_length_body inner (caps k) r1 req1) as [[[c req2] r2]| | | |]; try apply Z. destruct c; try apply Z.
  destruct (svc req2 resp) as [[[[p|] req3] resp3]| | | |]; try apply Z1.
  rewrite parts_serialize. destruct (msg_parts ho resp3) as [[[[h b]|] resp4]| | | |]; cbn [option_map]; try apply Z1.
  cbn [w_write w_budget w_out fst snd]. destruct (send_response h b w) as [w1 x] eqn:Es.
  apply send_spec in Es as (acc & rest & S1 & S2 & S3 & S4). destruct R as (R1 & R2 & R3).
  destruct S2 as [S2 (t & M & T)]. rewrite R1 in T. cbn [app] in T.
  assert (HL : exchanges log ++ [(req2, Some (h ++ b))] = exchanges (log ++ [(req2, Some (h, b))])) by now rewrite handled_app.
  assert (A : forall e, match e with Ended _ => False | _ => True end -> (e = SendFailed -> ~ Forall reads (so_next (bw_sock w))) -> (e = SendWaits -> so_next (bw_sock w1) = []) ->
     forall a more, cr_log a = exchanges (log ++ [(req2, Some (h, b))]) ++ more -> net_ok w log (NR (log ++ [(req2, Some (h, b))]) w1 e) a).
  { intros e He H1 H2 a more Ha. exists [(req2, Some (h, b))], t. split; [reflexivity|]. split; [exact M|]. split; [exact H1|]. split; [exact H2|].
    exists more. split; [exact Ha|]. cbn [nr_end nr_writer].
    destruct M as (_ & _ & M3 & _). destruct (M3 R2) as [_ (u & U)].
    destruct e; [contradiction| |]; (exists [], req2, h, b, t, (bw_buf w1 ++ rest), u; split; [reflexivity|]; split; [now rewrite S1, T, app_assoc|]; split; [reflexivity|exact U]). }
  destruct x as [[]| |].
  - destruct (S4 eq_refl) as (-> & Hb & Hs). rewrite app_nil_r in S1. subst acc. rewrite Hb, app_nil_r in T. subst t.
    assert (R' : ready w1).
    { split; [exact Hb|]. split; [apply M, R2|apply Hs, R2]. }
    assert (O : so_out (bw_sock w1) = so_out (bw_sock w) ++ h ++ b) by apply M.
    assert (E1 : forall e, net_ok w log (NR (log ++ [(req2, Some (h, b))]) w1 (Ended e))
                (CR_ (exchanges log ++ [(req2, Some (h ++ b))]) (Wr (so_out (bw_sock w) ++ h ++ b) None) e)).
    { intros e. exists [(req2, Some (h, b))], (h ++ b). split; [reflexivity|]. split; [exact M|]. split; [discriminate|]. split; [discriminate|].
      exists []. split; [cbn; now rewrite HL, app_nil_r|]. split; [reflexivity|]. split; [reflexivity|]. split; [|exact R'].
      unfold responses. cbn. now rewrite app_nil_r. }
    destruct p as [ka| |]; [|apply E1|apply E1]. destruct (negb ka); [apply E1|].
    rewrite <- O, HL.
    destruct (IH inner cfg caps ho svc (S k) r2 w1 (msg_clear req3) (msg_clear resp4) (log ++ [(req2, Some (h, b))]) R')
      as (new & t & L & M' & F1 & F2 & more & L2 & X).
    set (n := net_loop _ _ _ _ _ _ _ _ _ _ _ _) in *. set (a := serve_loop _ _ _ _ _ _ _ _ _ _ _ _) in *.
    exists ((req2, Some (h, b)) :: new), ((h ++ b) ++ t). split; [now rewrite L, <- app_assoc|].
    split; [exact (moved_trans _ _ _ _ _ _ _ M M')|]. split; [|split; [exact F2|]].
    { intros He Hr. apply (F1 He). now apply M. }
    exists more. split; [rewrite L2, <- app_assoc; reflexivity|].
    destruct (nr_end n).
    + destruct X as (X1 & X2 & X3 & X4). split; [exact X1|]. split; [exact X2|]. split; [|exact X4]. now rewrite X3.
    + destruct X as (before & rq & h' & b' & part & rs & u & X1 & X2 & X3 & X4). exists ((req2, Some (h, b)) :: before), rq, h', b', part, rs, u.
      split; [now rewrite X1|]. split; [exact X2|]. split; [rewrite X3; unfold responses; cbn [map concat]; now rewrite !app_assoc|].
      rewrite X4. destruct R' as (_ & _ & ->). rewrite O, R3. unfold responses. cbn [map concat snd]. now rewrite <- !app_assoc.
    + destruct X as (before & rq & h' & b' & part & rs & u & X1 & X2 & X3 & X4). exists ((req2, Some (h, b)) :: before), rq, h', b', part, rs, u.
      split; [now rewrite X1|]. split; [exact X2|]. split; [rewrite X3; unfold responses; cbn [map concat]; now rewrite !app_assoc|].
      rewrite X4. destruct R' as (_ & _ & ->). rewrite O, R3. unfold responses. cbn [map concat snd]. now rewrite <- !app_assoc.
  - assert (G : exists more, cr_log match p with
        | Current ka => if negb ka then CR_ (exchanges log ++ [(req2, Some (h ++ b))]) (Wr (so_out (bw_sock w) ++ h ++ b) None) EndClosed
            else serve_loop f inner cfg caps ho svc (S k) r2 (Wr (so_out (bw_sock w) ++ h ++ b) None) (msg_clear req3) (msg_clear resp4) (exchanges log ++ [(req2, Some (h ++ b))])
        | WebSocket => CR_ (exchanges log ++ [(req2, Some (h ++ b))]) (Wr (so_out (bw_sock w) ++ h ++ b) None) EndClosed
        | Http2 => CR_ (exchanges log ++ [(req2, Some (h ++ b))]) (Wr (so_out (bw_sock w) ++ h ++ b) None) EndPanic end = exchanges (log ++ [(req2, Some (h, b))]) ++ more).
    { destruct p as [[|]| |]; cbn [negb]; rewrite HL; try (exists []; cbn; now rewrite app_nil_r). apply log_grows. }
    destruct G as (more & G). apply (A SendFailed I) with (more := more); [|discriminate|exact G]. destruct S3 as [S3 _]. intros _ H. elim (S3 H); reflexivity.
  - assert (G : exists more, cr_log match p with
        | Current ka => if negb ka then CR_ (exchanges log ++ [(req2, Some (h ++ b))]) (Wr (so_out (bw_sock w) ++ h ++ b) None) EndClosed
            else serve_loop f inner cfg caps ho svc (S k) r2 (Wr (so_out (bw_sock w) ++ h ++ b) None) (msg_clear req3) (msg_clear resp4) (exchanges log ++ [(req2, Some (h ++ b))])
        | WebSocket => CR_ (exchanges log ++ [(req2, Some (h ++ b))]) (Wr (so_out (bw_sock w) ++ h ++ b) None) EndClosed
        | Http2 => CR_ (exchanges log ++ [(req2, Some (h ++ b))]) (Wr (so_out (bw_sock w) ++ h ++ b) None) EndPanic end = exchanges (log ++ [(req2, Some (h, b))]) ++ more).
    { destruct p as [[|]| |]; cbn [negb]; rewrite HL; try (exists []; cbn; now rewrite app_nil_r). apply log_grows. }
    destruct G as (more & G). apply (A SendWaits I) with (more := more); [discriminate| |exact G]. intros _. now apply S3.
Qed.

(** ** The slices offered to a client that takes everything *)
Lemma splitN_all (d : bytes) : splitN (lenN d) d = (d, []).
Proof.
  destruct (splitN (lenN d) d) as [a b] eqn:E. apply splitN_spec in E as [E1 E2]. rewrite N.min_id in E2.
  pose proof (f_equal lenN E1) as X. rewrite lenN_app in X. assert (Z : b = []) by (apply lenN_0; lia). subst b. rewrite app_nil_r in E1. now subst.
Qed.
Lemma write_taken m data s : Forall (takes_all m) (so_next s) -> so_next s <> [] -> (lenN data <= m)%N ->
  exists s', sock_write data s = (s', Did (lenN data)) /\ so_offers s' = so_offers s ++ [data] /\ Forall (takes_all m) (so_next s') /\ S (length (so_next s')) = length (so_next s).
Proof.
  intros H Hn Hl. unfold sock_write. destruct (so_next s) as [|[n|] next] eqn:En; [contradiction| |apply Forall_cons_iff in H as [[] _]].
  apply Forall_cons_iff in H as [H1 H2]. cbn in H1. rewrite N.min_r by (etransitivity; eassumption). eexists. split; [reflexivity|]. cbn. auto.
Qed.
Lemma drain_taken m p s : Forall (takes_all m) (so_next s) -> so_next s <> [] -> (lenN p <= m)%N -> p <> [] ->
  exists s', drain_buf (length p) p s = ([], s', Did tt) /\ so_offers s' = so_offers s ++ [p] /\ Forall (takes_all m) (so_next s') /\ S (length (so_next s')) = length (so_next s).
Proof.
  intros H Hn Hl Hp. destruct (write_taken m p s H Hn Hl) as (s' & E & X). exists s'. split; [|exact X].
  destruct p as [|c p]; [contradiction|]. cbn [length drain_buf]. rewrite E. pose proof (lenN_pos (c :: p) Hp) as L.
  destruct (lenN (c :: p) =? 0)%N eqn:E0; [apply N.eqb_eq in E0; lia|]. rewrite splitN_all. cbn [snd]. destruct (length p); reflexivity.
Qed.

Definition able (m : N) (j : nat) (w : bufw) : Prop := Forall (takes_all m) (so_next (bw_sock w)) /\ (j <= length (so_next (bw_sock w)))%nat.
Lemma direct m j data w : able m (S j) w -> (lenN data <= m)%N -> data <> [] -> bw_buf w = [] -> (bw_cap w <= lenN data)%N ->
  exists w', net_write_all (length data) data w = (w', Did tt) /\ able m j w' /\ bw_buf w' = [] /\ bw_cap w' = bw_cap w /\ so_offers (bw_sock w') = so_offers (bw_sock w) ++ [data].
Proof.
  intros [H1 H2] Hl Hd Hb Hc. destruct (write_taken m data (bw_sock w) H1) as (s' & E & X1 & X2 & X3); [destruct (so_next (bw_sock w)); [cbn in H2; lia|discriminate]|exact Hl|].
  exists (BufW (bw_cap w) [] s'). split; [|split; [split; [exact X2|cbn; lia]|auto]].
  destruct data as [|c d]; [contradiction|]. cbn [length net_write_all].
  assert (Q : net_buf_write (c :: d) w = (BufW (bw_cap w) [] s', Did (lenN (c :: d)))).
  { unfold net_buf_write. assert (F : (if (bw_cap w <? lenN (bw_buf w) + lenN (c :: d))%N then net_flush_buf w else (w, Did tt)) = (w, Did tt)).
    { destruct (_ <? _)%N; [|reflexivity]. unfold net_flush_buf. rewrite Hb. cbn. destruct w; cbn in *; now subst. }
    rewrite F. apply N.leb_le in Hc. rewrite Hc, E, Hb. reflexivity. }
  rewrite Q. pose proof (lenN_pos (c :: d) Hd) as L. destruct (lenN (c :: d) =? 0)%N eqn:E0; [apply N.eqb_eq in E0; lia|]. rewrite splitN_all. cbn [snd]. destruct (length d); reflexivity.
Qed.
Lemma buffered data w : data <> [] -> (lenN (bw_buf w) + lenN data <= bw_cap w)%N -> (lenN data < bw_cap w)%N ->
  net_write_all (length data) data w = (BufW (bw_cap w) (bw_buf w ++ data) (bw_sock w), Did tt).
Proof.
  intros Hd Hc Hl. destruct data as [|c d]; [contradiction|]. cbn [length net_write_all].
  assert (Q : net_buf_write (c :: d) w = (BufW (bw_cap w) (bw_buf w ++ c :: d) (bw_sock w), Did (lenN (c :: d)))).
  { unfold net_buf_write. destruct (bw_cap w <? lenN (bw_buf w) + lenN (c :: d))%N eqn:E; [apply N.ltb_lt in E; lia|].
    destruct (bw_cap w <=? lenN (c :: d))%N eqn:E2; [apply N.leb_le in E2; lia|]. reflexivity. }
  rewrite Q. pose proof (lenN_pos (c :: d) Hd) as L. destruct (lenN (c :: d) =? 0)%N eqn:E0; [apply N.eqb_eq in E0; lia|]. rewrite splitN_all. cbn [snd]. destruct (length d); reflexivity.
Qed.
Lemma flushed_out m j w : able m (S j) w -> bw_buf w <> [] -> (lenN (bw_buf w) <= m)%N ->
  exists s', net_flush_buf w = (BufW (bw_cap w) [] s', Did tt) /\ able m j (BufW (bw_cap w) [] s') /\ so_offers s' = so_offers (bw_sock w) ++ [bw_buf w].
Proof.
  intros [H1 H2] Hb Hl. destruct (drain_taken m (bw_buf w) (bw_sock w) H1) as (s' & E & X1 & X2 & X3); auto.
  { destruct (so_next (bw_sock w)); [cbn in H2; lia|discriminate]. }
  exists s'. unfold net_flush_buf. rewrite E. split; [reflexivity|]. split; [split; [exact X2|cbn; lia]|exact X1].
Qed.
(** a second slice that does not fit *)
Lemma overflow m j data w : able m (S (S j)) w -> data <> [] -> (lenN data <= m)%N -> (lenN (bw_buf w) <= m)%N -> bw_buf w <> [] ->
  (bw_cap w < lenN (bw_buf w) + lenN data)%N ->
  exists w', net_write_all (length data) data w = (w', Did tt) /\ bw_cap w' = bw_cap w
  /\ (bw_buf w' = [] /\ able m j w' /\ so_offers (bw_sock w') = so_offers (bw_sock w) ++ [bw_buf w] ++ [data]
      \/ bw_buf w' = data /\ able m (S j) w' /\ so_offers (bw_sock w') = so_offers (bw_sock w) ++ [bw_buf w]).
Proof.
  intros Ha Hd Hl Hlb Hb Hc. destruct (flushed_out m (S j) w Ha Hb Hlb) as (s' & E & A & O). pose proof (lenN_pos data Hd) as L.
  assert (Z : net_write_all (length data) data w = net_write_all (length data) data (BufW (bw_cap w) [] s')).
  { destruct data as [|c d]; [contradiction|]. cbn [length net_write_all].
    assert (Q : net_buf_write (c :: d) w = net_buf_write (c :: d) (BufW (bw_cap w) [] s')); [|now rewrite Q].
    unfold net_buf_write at 1. apply N.ltb_lt in Hc. rewrite Hc, E. unfold net_buf_write.
    assert (F : forall b : bool, (if b then net_flush_buf (BufW (bw_cap w) [] s') else (BufW (bw_cap w) [] s', Did tt)) = (BufW (bw_cap w) [] s', Did tt))
      by (intros []; reflexivity).
    rewrite F. reflexivity. }
  rewrite Z. destruct (N.le_gt_cases (bw_cap w) (lenN data)) as [H|H].
  - destruct (direct m j data (BufW (bw_cap w) [] s') A Hl Hd eq_refl H) as (w' & W1 & W2 & W3 & W4 & W5).
    exists w'. split; [exact W1|]. split; [exact W4|]. left. split; [exact W3|]. split; [exact W2|]. rewrite W5. cbn. rewrite O, <- app_assoc. reflexivity.
  - rewrite buffered; [|exact Hd|cbn [bw_buf bw_cap]; change (lenN (@nil ascii)) with 0%N; apply N.lt_le_incl; exact H|exact H]. eexists. split; [reflexivity|]. split; [reflexivity|]. right. split; [reflexivity|]. split; [exact A|exact O].
Qed.
Lemma sock_flush_taken m j w : able m (S j) w -> exists s', sock_flush (bw_sock w) = (s', Did tt) /\ able m j (BufW (bw_cap w) (bw_buf w) s') /\ so_offers s' = so_offers (bw_sock w).
Proof.
  intros [H1 H2]. unfold sock_flush. destruct (so_plain (bw_sock w)).
  - eexists. split; [reflexivity|]. split; [split; [exact H1|cbn; lia]|reflexivity].
  - destruct (so_next (bw_sock w)) as [|[n|] next] eqn:E; [cbn in H2; lia| |apply Forall_cons_iff in H1 as [[] _]].
    eexists. split; [reflexivity|]. apply Forall_cons_iff in H1 as [_ H1]. split; [split; [exact H1|cbn [bw_sock so_next]; cbn in H2; lia]|reflexivity].
Qed.
Lemma buf_flush_taken m j w : able m (S (S j)) w -> (lenN (bw_buf w) <= m)%N ->
  exists w', buf_flush w = (w', Did tt) /\ able m j w' /\ bw_buf w' = [] /\ bw_cap w' = bw_cap w
  /\ so_offers (bw_sock w') = so_offers (bw_sock w) ++ match bw_buf w with [] => [] | p => [p] end.
Proof.
  intros Ha Hl. unfold buf_flush. destruct (bw_buf w) as [|c p] eqn:Eb.
  - unfold net_flush_buf. rewrite Eb. cbn. destruct (sock_flush_taken m j w) as (s' & E & A & O); [destruct Ha as [H1 H2]; split; [exact H1|lia]|].
    rewrite E. eexists. split; [reflexivity|]. split; [exact A|]. split; [reflexivity|]. split; [reflexivity|]. cbn. now rewrite O, app_nil_r.
  - destruct (flushed_out m (S j) w Ha) as (s1 & E1 & A1 & O1); [rewrite Eb; discriminate|rewrite Eb; exact Hl|]. rewrite E1. cbn [bw_sock].
    destruct (sock_flush_taken m j _ A1) as (s' & E & A & O). cbn [bw_sock] in E. rewrite E.
    eexists. split; [reflexivity|]. split; [exact A|]. split; [reflexivity|]. split; [reflexivity|]. cbn. cbn in O. now rewrite O, O1, Eb.
Qed.
Lemma send_taken m j h b w : able m (4 + j) w -> h <> [] -> (lenN (h ++ b) <= m)%N -> bw_buf w = [] ->
  exists w', send_response h b w = (w', Did tt) /\ able m j w' /\ bw_cap w' = bw_cap w /\ so_offers (bw_sock w') = so_offers (bw_sock w) ++ slices (bw_cap w) h b.
Proof.
  intros Ha Hh Hl Hb. rewrite lenN_app in Hl. pose proof (lenN_pos h Hh) as Lh. unfold send_response.
  assert (AB : forall i w0, able m (S i) w0 -> able m i w0) by (intros i w0 [? ?]; split; [assumption|lia]).
  destruct (N.le_gt_cases (bw_cap w) (lenN h)) as [H|H].
  - (* the head goes out directly *)
    destruct (direct m (3 + j) h w Ha ltac:(lia) Hh Hb H) as (w1 & E1 & A1 & B1 & C1 & O1). rewrite E1.
    destruct b as [|c b].
    + cbn [length Nat.ltb Nat.leb]. destruct (buf_flush_taken m j w1) as (w2 & E2 & A2 & B2 & C2 & O2); [now apply AB|rewrite B1; unfold lenN; cbn; lia|].
      rewrite E2. exists w2. split; [reflexivity|]. split; [exact A2|]. split; [congruence|]. rewrite O2, O1, B1, app_nil_r. f_equal.
      unfold slices. destruct (_ <=? _)%N; rewrite ?app_nil_r; reflexivity.
    + change (Nat.ltb 0 (length (c :: b))) with true. cbv iota.
      assert (S1 : slices (bw_cap w) h (c :: b) = [h; c :: b]).
      { unfold slices. destruct (_ <=? _)%N eqn:E; [|reflexivity]. apply N.leb_le in E. pose proof (lenN_pos (c :: b) ltac:(discriminate)). lia. }
      destruct (N.le_gt_cases (bw_cap w1) (lenN (c :: b))) as [H'|H'].
      * destruct (direct m (2 + j) (c :: b) w1 A1 ltac:(lia) ltac:(discriminate) B1 H') as (w2 & E2 & A2 & B2 & C2 & O2). rewrite E2.
        destruct (buf_flush_taken m j w2 A2) as (w3 & E3 & A3 & B3 & C3 & O3); [rewrite B2; unfold lenN; cbn; lia|]. rewrite E3.
        exists w3. split; [reflexivity|]. split; [exact A3|]. split; [congruence|]. rewrite O3, B2, app_nil_r, O2, O1, S1, <- app_assoc. reflexivity.
      * rewrite buffered; [|discriminate|rewrite B1; unfold lenN at 1; cbn [length]; lia|exact H'].
        destruct (buf_flush_taken m (1 + j) (BufW (bw_cap w1) (bw_buf w1 ++ c :: b) (bw_sock w1)) A1) as (w3 & E3 & A3 & B3 & C3 & O3); [cbn; rewrite B1; cbn [app]; lia|]. rewrite E3.
        exists w3. split; [reflexivity|]. split; [now apply AB|]. split; [cbn in C3; congruence|]. rewrite O3. cbn [bw_sock bw_buf]. rewrite B1. cbn [app]. rewrite O1, S1, <- app_assoc. reflexivity.
  - rewrite buffered; [|exact Hh|rewrite Hb; unfold lenN at 1; cbn [length]; lia|exact H]. rewrite Hb. cbn [app].
    set (w1 := BufW (bw_cap w) h (bw_sock w)).
    destruct b as [|c b].
    + cbn [length Nat.ltb Nat.leb]. destruct (buf_flush_taken m (2 + j) w1 Ha ltac:(cbn; lia)) as (w2 & E2 & A2 & B2 & C2 & O2). rewrite E2.
      exists w2. split; [reflexivity|]. split; [now apply AB, AB|]. split; [exact C2|]. rewrite O2. cbn [w1 bw_sock bw_buf]. f_equal.
      unfold slices. destruct h; [contradiction|]. destruct (_ <=? _)%N; rewrite ?app_nil_r; reflexivity.
    + change (Nat.ltb 0 (length (c :: b))) with true. cbv iota. pose proof (lenN_pos (c :: b) ltac:(discriminate)) as Lb.
      destruct (N.le_gt_cases (lenN h + lenN (c :: b)) (bw_cap w)) as [H'|H'].
      * rewrite buffered; [|discriminate|exact H'|cbn [w1 bw_cap]; lia].
        destruct (buf_flush_taken m (2 + j) (BufW (bw_cap w1) (bw_buf w1 ++ c :: b) (bw_sock w1)) Ha) as (w3 & E3 & A3 & B3 & C3 & O3).
        { cbn [bw_buf w1]. rewrite lenN_app. exact Hl. }
        rewrite E3. exists w3. split; [reflexivity|]. split; [now apply AB, AB|]. split; [exact C3|]. rewrite O3. cbn [w1 bw_sock bw_buf]. f_equal.
        unfold slices. apply N.leb_le in H'. rewrite H'. destruct h; [contradiction|reflexivity].
      * destruct (overflow m (2 + j) (c :: b) w1 Ha ltac:(discriminate) ltac:(lia) ltac:(cbn; lia) Hh H') as (w2 & E2 & C2 & D). rewrite E2.
        assert (S1 : slices (bw_cap w) h (c :: b) = [h; c :: b]).
        { unfold slices. destruct (_ <=? _)%N eqn:E; [|reflexivity]. apply N.leb_le in E. lia. }
        destruct D as [(B2 & A2 & O2)|(B2 & A2 & O2)].
        -- destruct (buf_flush_taken m j w2 A2) as (w3 & E3 & A3 & B3 & C3 & O3); [rewrite B2; unfold lenN; cbn; lia|]. rewrite E3.
           exists w3. split; [reflexivity|]. split; [exact A3|]. split; [now rewrite C3|]. rewrite O3, B2, app_nil_r, O2, S1. reflexivity.
        -- destruct (buf_flush_taken m (1 + j) w2 A2) as (w3 & E3 & A3 & B3 & C3 & O3); [rewrite B2; lia|]. rewrite E3.
           exists w3. split; [reflexivity|]. split; [now apply AB|]. split; [now rewrite C3|]. rewrite O3, B2, O2, S1, <- app_assoc. reflexivity.
Qed.

Lemma msg_parts_head ho (m m' : message K) h b : msg_parts ho m = Ret (Some (h, b), m') -> h <> [].
Proof.
  unfold msg_parts. destruct (body_end (mbody m)) as [bo ok]. destruct ok; [|discriminate].
  destruct (mm_set _ _ _) as [hd| | | |]; cbn [obind]; try discriminate.
  destruct (mm_each _ _ _ _) as [hs| | | |]; cbn [obind]; try discriminate.
  destruct (Nat.ltb 0 (body_size bo)); [destruct (body_inner bo); cbn [obind]; try discriminate|];
    intros [= <- _ _]; destruct (fl0 m); discriminate.
Qed.
Lemma all_slices_app cap (a b : list (message K * option (bytes * bytes))) : all_slices cap (a ++ b) = all_slices cap a ++ all_slices cap b.
Proof. unfold all_slices. now rewrite map_app, concat_app. Qed.

Definition within (m : N) (e : message K * option bytes) : Prop := match snd e with Some d => (lenN d <= m)%N | None => True end.
Lemma net_slices m fuel : forall inner cfg caps ho svc k r w req resp log, ready w ->
  let n := net_loop fuel inner cfg caps ho svc k r w req resp log in
  Forall (within m) (exchanges (nr_log n)) -> able m (4 * (length (nr_log n) - length log)) w ->
  (exists e, nr_end n = Ended e) /\ exists new, nr_log n = log ++ new /\ so_offers (bw_sock (nr_writer n)) = so_offers (bw_sock w) ++ all_slices (bw_cap w) new.
Proof.
  induction fuel as [|f IH]; intros inner cfg caps ho svc k r w req resp log R n.
  { intros _ _. split; [eexists; reflexivity|]. exists []. cbn. now rewrite !app_nil_r. }
  assert (Z : forall e, (exists e', Ended e = Ended e') /\ exists new, log = log ++ new /\ so_offers (bw_sock w) = so_offers (bw_sock w) ++ all_slices (bw_cap w) new).
  { intros e. split; [eauto|]. exists []. cbn. now rewrite !app_nil_r. }
  assert (Z1 : forall (q : message K) e, (exists e', Ended e = Ended e') /\ exists new, log ++ [(q, None)] = log ++ new /\ so_offers (bw_sock w) = so_offers (bw_sock w) ++ all_slices (bw_cap w) new).
  { intros q e. split; [eauto|]. exists [(q, None)]. cbn. now rewrite !app_nil_r. }
  unfold n. cbn [net_loop].
  destruct (read_headers inner cfg r req) as [[[c req1] r1]| | | |]; try (intros; apply Z). destruct c; try (intros; apply Z).
  destruct (read_const_length_body inner (caps k) r1 req1) as [[[c req2] r2]| | | |]; try (intros; apply Z). destruct c; try (intros; apply Z).
  destruct (svc req2 resp) as [[[[p|] req3] resp3]| | | |]; try (intros; apply Z1).
  destruct (msg_parts ho resp3) as [[[[h b]|] resp4]| | | |] eqn:Ep; try (intros; apply Z1).
  apply msg_parts_head in Ep. destruct (send_response h b w) as [w1 x] eqn:Es.
  assert (T : forall nl, (exists new, nl = (log ++ [(req2, Some (h, b))]) ++ new) -> Forall (within m) (exchanges nl) -> able m (4 * (length nl - length log)) w ->
     x = Did tt /\ able m (4 * (length nl - length (log ++ [(req2, Some (h, b))]))) w1 /\ bw_cap w1 = bw_cap w /\ so_offers (bw_sock w1) = so_offers (bw_sock w) ++ slices (bw_cap w) h b).
  { intros nl (new & ->) F A. rewrite !app_length in *. cbn [length] in *.
    destruct (send_taken m (4 * (length new)) h b w) as (w' & E & A' & C' & O').
    - destruct A as [A1 A2]. split; [exact A1|lia].
    - exact Ep.
    - rewrite !handled_app in F. apply Forall_app in F as [F _]. apply Forall_app in F as [_ F]. apply Forall_cons_iff in F as [F _]. exact F.
    - apply R.
    - rewrite Es in E. injection E as -> ->. split; [reflexivity|]. split; [|auto]. destruct A' as [A1 A2]. split; [exact A1|lia]. }
  assert (One : forall e, Forall (within m) (exchanges (log ++ [(req2, Some (h, b))])) -> able m (4 * (length (log ++ [(req2, Some (h, b))]) - length log)) w ->
     x = Did tt /\ (exists e', Ended e = Ended e') /\ exists new, log ++ [(req2, Some (h, b))] = log ++ new /\ so_offers (bw_sock w1) = so_offers (bw_sock w) ++ all_slices (bw_cap w) new).
  { intros e F A. destruct (T _ (ex_intro _ [] (eq_sym (app_nil_r _))) F A) as (X & _ & _ & O). split; [exact X|]. split; [eauto|].
    exists [(req2, Some (h, b))]. split; [reflexivity|]. rewrite O. unfold all_slices. cbn. now rewrite app_nil_r. }
  destruct x as [[]| |].
  - assert (R' : ready w1).
    { apply send_spec in Es as (acc & rest & S1 & S2 & S3 & S4). destruct (S4 eq_refl) as (_ & Hb & Hs). destruct R as (R1 & R2 & R3).
      split; [exact Hb|]. split; [|now apply Hs]. destruct S2 as [_ (t & (_ & _ & M3 & _) & _)]. now apply M3. }
    destruct p as [ka| |]; [destruct (negb ka)| |]; try (intros F A; now apply One).
    destruct (net_sim f inner cfg caps ho svc (S k) r2 w1 (msg_clear req3) (msg_clear resp4) (log ++ [(req2, Some (h, b))]) R') as (new & _ & L & _).
    specialize (IH inner cfg caps ho svc (S k) r2 w1 (msg_clear req3) (msg_clear resp4) (log ++ [(req2, Some (h, b))]) R'). cbv zeta in IH.
    intros F A. destruct (T _ (ex_intro _ new L) F A) as (_ & A' & C' & O'). destruct (IH F A') as [E (new' & L' & O)].
    split; [exact E|]. exists ((req2, Some (h, b)) :: new'). split; [rewrite L', <- app_assoc; reflexivity|].
    rewrite O, O', C'. unfold all_slices. cbn [map concat snd]. now rewrite app_assoc.
  - intros F A. cbn in F, A. destruct (One EndClosed F A) as [X _]. discriminate X.
  - intros F A. cbn in F, A. destruct (One EndClosed F A) as [X _]. discriminate X.
Qed.
End Net.
