(** Bodies written with [write_all] through the encoders and decoders of the crates. *)
From Verif Require Export S_Coders F_History.

Section Coders.
Variables (enc : ctype -> Z -> bytes -> bytes) (dcd : ctype -> bytes -> option bytes).

(** any codec whose states satisfy a contract of this shape *)
Section Any.
Variable K : codec.
Variable is : cstate K -> ctype -> option Z -> bytes -> bytes -> Prop.
Hypothesis Hw : writes_well dcd (c_append K) is.

Lemma write_loop_is : forall fuel data c ct level sink fed, is c ct level sink fed -> length data <= fuel ->
  exists c' ok, body_write_loop fuel (@Body K None (Some c)) data = Ret (Body None (Some c'), ok)
    /\ if ok then is c' ct level sink (fed ++ data)
       else level = None /\ forall e, dcd ct (fed ++ data ++ e) = None.
Proof.
  induction fuel as [|f IH]; intros data c ct level sink fed Hc Hl.
  - destruct data; [|cbn in Hl; lia]. exists c, true. rewrite app_nil_r. now split.
  - destruct data as [|x r]; [exists c, true; rewrite app_nil_r; now split|].
    cbn [body_write_loop]. unfold body_write. cbn [b_internal b_cw].
    destruct (Hw c ct level sink fed (x :: r) Hc ltac:(discriminate)) as [(n & Hn & E & Hc')|(E & -> & Hd)];
      destruct (c_append K c (x :: r)) as [c' o]; cbn [fst snd] in E; cbn [fst snd obind].
    + subst o. cbn [fst] in Hc'. destruct n as [|n]; [lia|].
      rewrite (proj2 (Nat.leb_le _ _) (proj2 Hn)).
      destruct (IH (skipn (S n) (x :: r)) c' ct level sink _ Hc') as (c2 & ok & E2 & H2).
      { rewrite skipn_length. lia. }
      exists c2, ok. split; [exact E2|]. destruct ok.
      * now rewrite <- app_assoc, firstn_skipn in H2.
      * destruct H2 as [H2 H3]. split; [exact H2|]. intros e. specialize (H3 e).
        rewrite <- app_assoc, (app_assoc (firstn _ _)), firstn_skipn in H3. exact H3.
    + exists c', false. split; [destruct E; subst o; reflexivity|]. now split.
Qed.

Lemma write_alls_is : forall ds c ct level sink fed, is c ct level sink fed ->
  exists c' ok, body_write_alls (@Body K None (Some c)) ds = Ret (Body None (Some c'), ok)
    /\ if ok then is c' ct level sink (fed ++ concat ds)
       else level = None /\ dcd ct (fed ++ concat ds) = None.
Proof.
  induction ds as [|d r IH]; intros c ct level sink fed Hc.
  - exists c, true. cbn. rewrite app_nil_r. now split.
  - cbn [body_write_alls concat]. unfold body_write_all.
    destruct (write_loop_is (length d) d c ct level sink fed Hc (le_n _)) as (c' & ok & E & H).
    rewrite E. cbn [obind fst snd]. destruct ok.
    + destruct (IH c' ct level sink _ H) as (c2 & ok & E2 & H2). exists c2, ok.
      rewrite <- app_assoc in H2. now split.
    + exists c', false. destruct H as [-> H]. now repeat split.
Qed.

Hypothesis He : forall c ct level sink fed, is c ct level sink fed -> c_expose K c = yields enc dcd ct level sink fed.

Lemma written_is : forall c ct level sink ds, is c ct level sink [] ->
  exists b2 ok, body_write_alls (@Body K None (Some c)) ds = Ret (b2, ok)
    /\ match yields enc dcd ct level sink (concat ds) with
       | Some x => ok = true /\ body_end b2 = (Body (Some x) None, true)
       | None => ok = false \/ snd (body_end b2) = false
       end.
Proof.
  intros c ct level sink ds Hc. destruct (write_alls_is ds c ct level sink [] Hc) as (c' & ok & E & H).
  cbn [app] in H. exists (Body None (Some c')), ok. split; [exact E|]. destruct ok.
  - unfold body_end. cbn [b_cw b_internal]. rewrite (He _ _ _ _ _ H).
    destruct (yields enc dcd ct level sink (concat ds)); [now split|now right].
  - destruct H as [-> H]. cbn [yields]. rewrite H. now left.
Qed.
End Any.

(** the coders of the code *)
Section Honest.
Variable L : library.
Variables (f : flate2_state L -> ctype -> option Z -> bytes -> bytes -> Prop)
  (e : brenc_state L -> ctype -> option Z -> bytes -> bytes -> Prop)
  (d : brdec_state L -> ctype -> option Z -> bytes -> bytes -> Prop).
Definition coder_is (c : coder L) : ctype -> option Z -> bytes -> bytes -> Prop :=
  match c with CFlate s => f s | CBrEnc s => e s | CBrDec s => d s end.

Lemma coders_write : writes_well dcd (flate2_write L) f -> writes_well dcd (brenc_write L) e ->
  writes_well dcd (brdec_write L) d -> writes_well dcd (coder_append L) coder_is.
Proof.
  intros Hf Hn Hd [s|s|s] ct level sink fed x Hs Hx; cbn [coder_is coder_append] in *;
    [pose proof (Hf _ _ _ _ _ _ Hs Hx) as H; destruct (flate2_write L s x)
    |pose proof (Hn _ _ _ _ _ _ Hs Hx) as H; destruct (brenc_write L s x)
    |pose proof (Hd _ _ _ _ _ _ Hs Hx) as H; destruct (brdec_write L s x)]; exact H.
Qed.
End Honest.

Lemma honest_coders : forall L, honest enc dcd L ->
  exists is : coder L -> ctype -> option Z -> bytes -> bytes -> Prop,
  writes_well dcd (c_append (coders L)) is
  /\ (forall c ct level sink fed, is c ct level sink fed -> coder_expose L c = yields enc dcd ct level sink fed)
  /\ (forall ct l sink, is (coder_enc L ct l sink) ct (Some l) sink [])
  /\ (forall ct sink, is (coder_dec L ct sink) ct None sink []).
Proof.
  intros L (f & e & d & H1 & H2 & H3 & H4 & Wf & We & Wd & Ff & Fe & Fd).
  exists (coder_is L f e d). split; [now apply coders_write|]. split; [|split].
  - intros [s|s|s] ct level sink fed Hs; cbn [coder_is coder_expose] in *.
    + now apply Ff.
    + destruct (Fe _ _ _ _ _ Hs) as (s' & -> & <-). reflexivity.
    + specialize (Fd _ _ _ _ _ Hs). destruct (yields enc dcd ct level sink fed).
      * destruct Fd as (s' & -> & [E|E]); now rewrite E.
      * now rewrite Fd.
  - intros [] l sink; cbn; [apply H3|now apply H1|now apply H1].
  - intros [] sink; cbn; [apply H4|now apply H2|now apply H2].
Qed.

Lemma coders_encode : forall L, honest enc dcd L -> forall (b : body (coders L)) buf ct level ds,
  body_inner b = Ret buf ->
  exists b1 b2, body_compression b ct level = Ret b1 /\ body_write_alls b1 ds = Ret (b2, true)
    /\ body_end b2 = (Body (Some (buf ++ enc ct (level_used ct level) (concat ds))) None, true).
Proof.
  intros L HL b buf ct level ds Hb. destruct (honest_coders L HL) as (is & Hw & He & Hn & _).
  unfold body_inner in Hb. unfold body_compression. destruct (b_internal b) as [x|]; [|discriminate]. injection Hb as ->.
  eexists. rewrite level_used_ok.
  destruct (written_is (coders L) is Hw He _ _ _ _ ds (Hn ct (level_used ct level) buf)) as (b2 & ok & E & H).
  cbn [yields] in H. destruct H as [-> H]. exists b2. now repeat split.
Qed.
Lemma coders_decode : forall L, honest enc dcd L -> forall (b : body (coders L)) buf ct ds,
  body_inner b = Ret buf ->
  exists b1 b2 ok, body_decompression b ct = Ret b1 /\ body_write_alls b1 ds = Ret (b2, ok)
    /\ match dcd ct (concat ds) with
       | Some x => ok = true /\ body_end b2 = (Body (Some (buf ++ x)) None, true)
       | None => ok = false \/ snd (body_end b2) = false
       end.
Proof.
  intros L HL b buf ct ds Hb. destruct (honest_coders L HL) as (is & Hw & He & _ & Hn).
  unfold body_inner in Hb. unfold body_decompression. destruct (b_internal b) as [x|]; [|discriminate]. injection Hb as ->.
  eexists. destruct (written_is (coders L) is Hw He _ _ _ _ ds (Hn ct buf)) as (b2 & ok & E & H).
  exists b2, ok. split; [reflexivity|]. split; [exact E|].
  cbn [yields] in H. destruct (dcd ct (concat ds)); exact H.
Qed.
End Coders.

Lemma plain_write_all : forall K (b : body K) buf d, body_inner b = Ret buf ->
  body_write_all b d = Ret (Body (Some (buf ++ d)) (b_cw b), true).
Proof.
  intros K [[x|] cw] buf [|y r] H; try discriminate; injection H as ->; unfold body_write_all.
  - cbn. now rewrite app_nil_r.
  - cbn [length body_write_loop]. unfold body_write. cbn [b_internal b_cw obind fst snd length].
    rewrite (proj2 (Nat.leb_le _ _) (le_n _)).
    replace (skipn (S (length r)) (y :: r)) with (@nil byte) by (symmetry; apply skipn_all2; cbn; lia).
    now destruct (length r).
Qed.
Lemma plain_write_alls : forall K ds (b : body K) buf, body_inner b = Ret buf ->
  exists b', body_write_alls b ds = Ret (b', true) /\ body_inner b' = Ret (buf ++ concat ds).
Proof.
  induction ds as [|d r IH]; intros b buf H.
  - exists b. cbn. rewrite app_nil_r. now split.
  - cbn [body_write_alls concat]. rewrite (plain_write_all _ _ _ _ H). cbn [obind fst snd].
    rewrite app_assoc. now apply IH.
Qed.

Lemma write_loop_told : forall K got, counts K got -> forall fuel d c, length d <= fuel ->
  exists c' ok, body_write_loop fuel (@Body K None (Some c)) d = Ret (Body None (Some c'), ok)
    /\ if ok then got c' = got c ++ d
       else exists k, k < length d /\ got c' = got c ++ firstn k d.
Proof.
  intros K got HK. induction fuel as [|f IH]; intros d c Hl.
  - destruct d; [|cbn in Hl; lia]. exists c, true. rewrite app_nil_r. now split.
  - destruct d as [|x r]; [exists c, true; rewrite app_nil_r; now split|].
    cbn [body_write_loop]. unfold body_write. cbn [b_internal b_cw].
    pose proof (HK c (x :: r)) as H. destruct (c_append K c (x :: r)) as [c' [[|n]|]]; cbn [fst snd obind] in *.
    + exists c', false. split; [reflexivity|]. exists 0. split; [cbn; lia|apply H].
    + destruct H as [Hn H]. rewrite (proj2 (Nat.leb_le _ _) Hn).
      destruct (IH (skipn (S n) (x :: r)) c') as (c2 & ok & E & H2); [rewrite skipn_length; lia|].
      exists c2, ok. split; [exact E|]. rewrite H in H2. destruct ok.
      * now rewrite <- app_assoc, firstn_skipn in H2.
      * destruct H2 as (k & Hk & H2). rewrite skipn_length in Hk. exists (S n + k). split; [lia|].
        rewrite H2, <- app_assoc. f_equal.
        rewrite <- (firstn_skipn (S n) (x :: r)) at 3. rewrite firstn_app, firstn_length, min_l by lia.
        rewrite (firstn_all2 (n := S n + k)) by (rewrite firstn_length; lia).
        now replace (S n + k - S n) with k by lia.
    + exists c', false. split; [reflexivity|]. exists 0. split; [cbn; lia|].
      cbn [firstn]. now rewrite app_nil_r.
Qed.
