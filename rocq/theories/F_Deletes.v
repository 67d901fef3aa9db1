(** Responses whose headers may have been deleted (C19, C97). *)
From Verif Require Export F_History F_End F_Slots.
From Coq Require Import Permutation.

(** ** gaps hold no values *)
Definition quiet (m : mmap) : Prop := forall vs, view m [] = Some vs -> vs = [].

Lemma row_quiet m s : fits m (Row s) -> quiet m.
Proof.
  intros [[_ H] (E & _)] vs Hv. rewrite E in H. unfold view, content in Hv. rewrite E in Hv.
  apply H. now apply h_get_in.
Qed.
Lemma tomap_quiet l : forall base, (forall vs, In ([], vs) l -> vs = []) ->
  (forall vs, h_get [] base = Some vs -> vs = []) ->
  forall vs, h_get [] (fold_left (fun mp e => h_insert (fst e) (snd e) mp) l base) = Some vs -> vs = [].
Proof.
  induction l as [|[k ws] l IH]; intros base Hl Hb vs; cbn [fold_left]; [apply Hb|].
  apply IH.
  - intros zs Hz. apply Hl. now right.
  - intros zs. rewrite h_get_insert. cbn [fst snd]. destruct (bytes_same [] k) as [<-|_]; [|apply Hb].
    intros [= <-]. apply Hl. now left.
Qed.

Definition no_map (o : mop) : Prop := match o with OMap _ => False | _ => True end.

Lemma step_quiet ho m L o m' : order_ok ho -> fits m L -> quiet m -> sound L o -> no_map o ->
  mm_step ho m o = Ret m' -> quiet m'.
Proof.
  intros Hho Hf Hq Hs Hn E.
  destruct (run_sound ho [o] Hho L m (view m) Hf (fun k _ => eq_refl) (conj Hs I)) as (n & E1 & Hf' & _).
  cbn [mm_run] in E1. rewrite E in E1. cbn [obind] in E1. injection E1 as <-.
  cbn [fold_left] in Hf'. destruct (l_step L o) as [s|] eqn:El; [now apply row_quiet in Hf'|].
  destruct Hf as [Hok HL]. destruct o as [k v|k v|k v|k| |f]; [| | | | |easy]; cbn [mm_step] in E.
  - destruct L as [s|]; cbn [l_step] in El.
    + destruct (Nat.leb 36 (length s)) eqn:E36; [|now destruct (has k s)].
      destruct HL as (Em & Hk0 & Ht). destruct Hs as [Hk _].
      assert (Hl : length (mm_vec m) = length s).
      { apply (f_equal (@length _)) in Hk0. unfold keys in Hk0. now rewrite !map_length in Hk0. }
      unfold mm_append in E. rewrite Em, Hl, E36 in E.
      destruct (tomap_ok true m Hok Em) as [Hw' Ht'] eqn:Et. clear Et.
      destruct (map_append_ok true (tomap m) k v (conj Hw' Ht') eq_refl Hk) as (n & H1 & _ & H3).
      rewrite E in H1. injection H1 as <-. intros vs. rewrite H3.
      destruct (bytes_same [] k); [congruence|]. unfold view, content, tomap. cbn [mm_ismap mm_map].
      apply tomap_quiet.
      * destruct Hok as [_ Hok]. rewrite Em in Hok. apply Hok.
      * destruct Hok as [Hw _]. unfold wf in Hw. rewrite Em in Hw. destruct Hw as [-> | ->]; easy.
    + unfold mm_append in E. rewrite HL in E.
      destruct (map_append_ok true m k v Hok HL Hs) as (n & H1 & _ & H3).
      rewrite E in H1. injection H1 as <-. intros vs. rewrite H3.
      destruct (bytes_same [] k) as [<-|]; [now cbn in Hs|apply Hq].
  - destruct L as [s|]; cbn [l_step] in El; [now destruct (has k s)|].
    destruct (ok_hash_view m Hok HL) as (mp & Hm & _). unfold mm_set in E. rewrite HL, Hm in E.
    assert (E' : Ret (MM true (mm_vec m) (Some (h_insert k [v] mp))) = Ret m') by now destruct (h_get k mp).
    injection E' as <-. intros vs. unfold view, content. cbn [mm_ismap mm_map]. rewrite h_get_insert.
    destruct (bytes_same [] k) as [<-|]; [now cbn in Hs|].
    intros Hv. apply Hq. unfold view, content. now rewrite HL, Hm.
  - destruct (remove_view m k v (proj1 Hok)) as (n & H1 & _ & _ & _ & _ & H3). rewrite E in H1.
    injection H1 as <-. intros vs. rewrite H3. destruct (bytes_same [] k) as [<-|]; [|apply Hq].
    destruct (view m []) as [ws|] eqn:Ev; cbn [option_map]; [|easy]. intros [= <-].
    now rewrite (Hq ws Ev).
  - destruct L as [s|]; cbn [l_step] in El; [easy|].
    destruct (ok_hash_view m Hok HL) as (mp & Hm & Hnd & _). unfold mm_delete in E. rewrite HL, Hm in E.
    injection E as <-. intros vs. unfold view, content. cbn [mm_ismap mm_map].
    rewrite h_get_remove by easy. destruct (bytes_same [] k); [easy|].
    intros Hv. apply Hq. unfold view, content. now rewrite HL, Hm.
  - now destruct L.
Qed.

(** ** the fields of a table *)
Definition live (es : list entry) : list entry := filter (fun e => negb (is_nil (fst e))) es.

Lemma live_keys es : map fst (live es) = filter (fun k => negb (is_nil k)) (keys es).
Proof.
  induction es as [|[k vs] es IH]; [easy|]. unfold live. cbn [filter keys map fst]. destruct (negb (is_nil k)).
  - cbn [map fst]. f_equal. exact IH.
  - exact IH.
Qed.
Lemma live_spread es : (forall vs, In ([], vs) es -> vs = []) -> spread (live es) = spread es.
Proof.
  induction es as [|[k vs] es IH]; intros H; [easy|].
  assert (H' : forall vs, In ([], vs) es -> vs = []) by (intros ws Hi; apply H; now right).
  unfold live. cbn [filter fst]. destruct k as [|c k]; cbn [is_nil negb].
  - rewrite (H vs) by now left. unfold spread at 2. cbn [map concat fst snd app]. now apply IH.
  - unfold spread. cbn [map concat fst snd]. f_equal. now apply IH.
Qed.
Lemma live_in es k vs : In (k, vs) (live es) <-> k <> [] /\ In (k, vs) es.
Proof. unfold live. rewrite filter_In. cbn [fst]. destruct k; cbn; intuition easy. Qed.

Lemma each_live ho m L : order_ok ho -> fits m L -> quiet m ->
  exists es, NoDup (map fst es) /\ (forall k vs, In (k, vs) es <-> k <> [] /\ view m k = Some vs)
    /\ mm_each ho m header_visitor [] = Ret (concat (map response_line (spread es))).
Proof.
  intros Hho [Hok HL] Hq. unfold mm_each. destruct L as [s|].
  - destruct HL as (E & _). rewrite E. exists (live (mm_vec m)).
    destruct Hok as [_ Hok]. rewrite E in Hok. destruct Hok as [Hnd He].
    split; [now rewrite live_keys|]. split.
    + intros k vs. rewrite live_in. unfold view, content. rewrite E. split; intros [Hk H]; (split; [easy|]).
      * assert (Hi : In (k, vs) (live (mm_vec m))) by now apply live_in.
        assert (Hg : h_get k (live (mm_vec m)) = Some vs).
        { apply h_get_nodup; [|easy]. unfold keys. now rewrite live_keys. }
        clear -Hg Hk. induction (mm_vec m) as [|[x ws] l IH]; [easy|]. unfold live in Hg.
        cbn [filter fst] in Hg. destruct x as [|c x]; cbn [is_nil negb] in Hg.
        -- cbn [h_get]. rewrite nil_eqb_l by easy. now apply IH.
        -- cbn [h_get] in *. destruct (bytes_eqb (c :: x) k); [easy|]. now apply IH.
      * now apply h_get_in.
    + rewrite each_list_visit, visit_header. cbn [app]. now rewrite live_spread.
  - rewrite HL. destruct (ok_hash_view m Hok HL) as (mp & Hm & Hnd & _). rewrite Hm.
    assert (Hp : Permutation (ho mp) mp) by apply Hho.
    assert (Hnd2 : NoDup (keys (ho mp))).
    { eapply Permutation_NoDup; [|exact Hnd]. apply Permutation_map. now symmetry. }
    exists (live (ho mp)). split; [rewrite live_keys; now apply nodup_keep|]. split.
    + intros k vs. rewrite live_in. unfold view, content. rewrite HL, Hm.
      rewrite <- (h_get_perm k mp (ho mp)) by easy. now rewrite h_get_nodup.
    + rewrite each_list_visit, visit_header. cbn [app]. rewrite live_spread; [easy|].
      intros vs Hi. apply Hq. unfold view, content. rewrite HL, Hm.
      rewrite <- (h_get_perm [] mp (ho mp)) by easy. now apply h_get_nodup.
Qed.

Section Deletes.
Variable K : codec.
Notation message := (message K).

Definition last_view (m : message) (k : bytes) : option (list bytes) :=
  if bytes_same k (B "content-length")
  then Some [dec (N.of_nat (length (final_body K m)))]
  else match k with [] => None | _ => view (headers m) k end.

Lemma serialize_live ho (m : message) L x : order_ok ho -> fits (headers m) L -> quiet (headers m) ->
  sound L (OSet (B "content-length") x) ->
  exists es m', NoDup (map fst es) /\ (forall k vs, In (k, vs) es <-> last_view m k = Some vs)
    /\ serialize ho m = (if snd (body_end (mbody m))
         then Ret (Some (response (first_line K m) (spread es) (final_body K m)), m')
         else Ret (None, with_body m (fst (body_end (mbody m)))))
    /\ mbody m' = fst (body_end (mbody m)).
Proof.
  intros Hho Hf Hq Hs. set (n := dec (N.of_nat (length (final_body K m)))).
  assert (Hs' : sound L (OSet (B "content-length") n)) by (destruct L; exact Hs).
  destruct (set_sound (headers m) L (B "content-length") n Hf Hs') as (h & E1 & Hf2 & Hv).
  assert (Hq2 : quiet h) by exact (step_quiet ho _ L (OSet (B "content-length") n) h Hho Hf Hq Hs' I E1).
  destruct (each_live ho h _ Hho Hf2 Hq2) as (es & Hnd & Hin & He).
  exists es, (Msg (fl0 m) (fl1 m) (fl2 m) h (fst (body_end (mbody m)))). splits; auto.
  { intros k vs. rewrite Hin. unfold last_view. fold n. destruct k as [|c k].
    - destruct (bytes_same [] _); [discriminate|]. split; [easy|discriminate].
    - rewrite Hv by easy. split; [intros [_ H]; exact H|intros H; now split]. }
  unfold serialize. unfold n, final_body in *. destruct (body_end (mbody m)) as [b ok]. cbn [fst snd] in *.
  destruct ok; [|reflexivity].
  assert (Hsz : body_size b = length (match b_internal b with Some b => b | None => [] end)).
  { unfold body_size. destruct (b_internal b); reflexivity. }
  rewrite Hsz, E1. cbn [obind]. rewrite He. cbn [obind app].
  assert (Hfin : forall x, (fl0 m ++ [SP] ++ fl1 m ++ [SP] ++ fl2 m ++ CRLF) ++
       concat (map response_line (spread es)) ++ CRLF ++ x = response (first_line K m) (spread es) x).
  { intros y. unfold response, first_line. rewrite <- !app_assoc. cbn [app]. rewrite <- ?app_assoc. reflexivity. }
  unfold body_inner. destruct (b_internal b) as [buf|].
  - destruct buf as [|c buf].
    + cbn [length Nat.ltb Nat.leb obind]. rewrite <- Hfin, app_nil_r. reflexivity.
    + change (Nat.ltb 0 (length (c :: buf))) with true. cbn [obind]. cbv iota.
      rewrite <- Hfin. cbn [app]. rewrite <- !app_assoc. cbn [app]. rewrite <- !app_assoc. cbn [app].
      rewrite <- ?app_assoc. reflexivity.
  - cbn [length Nat.ltb Nat.leb obind]. rewrite <- Hfin, app_nil_r. reflexivity.
Qed.

(** ** what a script leaves *)
Lemma all_sound_app l1 : forall L l2, all_sound L (l1 ++ l2) <->
  all_sound L l1 /\ all_sound (fold_left l_step l1 L) l2.
Proof. induction l1 as [|o l1 IH]; intros L l2; cbn; [tauto|]. rewrite IH. tauto. Qed.

Lemma rw_split l : forall (m : message) a L, fits (headers m) L -> quiet (headers m) -> agree (headers m) a ->
  all_sound L (all_of says_header l) ->
  match b_run (mbody m) (all_of says_body l) with
  | Ret b => exists m', rw_run m l = Ret m'
      /\ fl0 m' = fl0 m ++ all_of says_version l /\ fl1 m' = fl1 m ++ all_of says_code l
      /\ fl2 m' = fl2 m ++ all_of says_reason l
      /\ fits (headers m') (fold_left l_step (all_of says_header l) L) /\ quiet (headers m')
      /\ agree (headers m') (a_run (all_of says_header l) a)
      /\ mbody m' = b
  | Panic => rw_run m l = Panic
  | UB => rw_run m l = UB
  | Blocked => rw_run m l = Blocked
  | NoFuel => rw_run m l = NoFuel
  end.
Proof.
  set (ho := fun l : list entry => l).
  assert (Hho : order_ok ho) by (intros x; apply Permutation_refl).
  induction l as [|o l IH]; intros m a L Hf Hq Ha Hs.
  - cbn. exists m. rewrite !app_nil_r. splits; auto.
  - unfold all_of in *. cbn [map concat rw_run] in *.
    destruct o as [x y|c reason|k v|k v|k|o]; cbn [says_body says_header says_version says_code says_reason rw_step obind app] in *.
    + specialize (IH (rw_version m x y) a L Hf Hq Ha Hs).
      change (mbody (rw_version m x y)) with (mbody m) in IH.
      destruct (b_run (mbody m) (concat (map says_body l))); auto.
      destruct IH as (m' & E & E0 & E1 & E2 & E3). exists m'. rewrite E0, E1, E2. cbn [rw_version fl0 fl1 fl2].
      rewrite <- !app_assoc. splits; auto; apply E3.
    + specialize (IH (rw_code m c reason) a L Hf Hq Ha Hs).
      change (mbody (rw_code m c reason)) with (mbody m) in IH.
      destruct (b_run (mbody m) (concat (map says_body l))); auto.
      destruct IH as (m' & E & E0 & E1 & E2 & E3). exists m'. rewrite E0, E1, E2. cbn [rw_code fl0 fl1 fl2].
      rewrite <- !app_assoc. splits; auto; apply E3.
    + destruct Hs as [Hs1 Hs2].
      destruct (run_sound ho [OAppend k v] Hho L (headers m) a Hf Ha (conj Hs1 I)) as (h & E & Hf' & Ha').
      cbn [mm_run] in E. destruct (mm_step ho (headers m) (OAppend k v)) as [h'| | | |] eqn:E1; try discriminate.
      cbn [obind] in E. injection E as ->. pose proof (step_quiet ho _ L _ h Hho Hf Hq Hs1 I E1) as Hq'.
      unfold rw_header. cbn [mm_step] in E1. rewrite E1. cbn [obind].
      specialize (IH (with_headers m h) (a_step a (OAppend k v)) _ Hf' Hq' Ha' Hs2).
      change (mbody (with_headers m h)) with (mbody m) in IH.
      destruct (b_run (mbody m) (concat (map says_body l))); auto.
    + destruct Hs as [Hs1 Hs2].
      destruct (run_sound ho [OSet k v] Hho L (headers m) a Hf Ha (conj Hs1 I)) as (h & E & Hf' & Ha').
      cbn [mm_run] in E. destruct (mm_step ho (headers m) (OSet k v)) as [h'| | | |] eqn:E1; try discriminate.
      cbn [obind] in E. injection E as ->. pose proof (step_quiet ho _ L _ h Hho Hf Hq Hs1 I E1) as Hq'.
      unfold rw_setheader. cbn [mm_step] in E1. rewrite E1. cbn [obind].
      specialize (IH (with_headers m h) (a_step a (OSet k v)) _ Hf' Hq' Ha' Hs2).
      change (mbody (with_headers m h)) with (mbody m) in IH.
      destruct (b_run (mbody m) (concat (map says_body l))); auto.
    + destruct Hs as [Hs1 Hs2].
      destruct (run_sound ho [ODelete k] Hho L (headers m) a Hf Ha (conj Hs1 I)) as (h & E & Hf' & Ha').
      cbn [mm_run] in E. destruct (mm_step ho (headers m) (ODelete k)) as [h'| | | |] eqn:E1; try discriminate.
      cbn [obind] in E. injection E as ->. pose proof (step_quiet ho _ L _ h Hho Hf Hq Hs1 I E1) as Hq'.
      unfold rw_delheader. cbn [mm_step] in E1. rewrite E1. cbn [obind].
      specialize (IH (with_headers m h) (a_step a (ODelete k)) _ Hf' Hq' Ha' Hs2).
      change (mbody (with_headers m h)) with (mbody m) in IH.
      destruct (b_run (mbody m) (concat (map says_body l))); auto.
    + cbn [b_run]. destruct (b_step (mbody m) o) as [b| | | |]; cbn [obind]; auto.
      specialize (IH (with_body m b) a L Hf Hq Ha Hs).
      change (mbody (with_body m b)) with b in IH.
      destruct (b_run b (concat (map says_body l))); auto.
Qed.

Lemma slate_fits (m : message) : clean_slate K m -> fits (headers m) (Row []) /\ quiet (headers m) /\ agree (headers m) a_empty.
Proof.
  intros (H0 & H1 & H2 & H3 & H4 & H5).
  assert (Hf : fits (headers m) (Row [])).
  { split; [|rewrite H3, H4; splits; easy]. split; [unfold wf; now rewrite H3|]. rewrite H3, H4.
    split; [constructor|easy]. }
  splits; [exact Hf|now apply row_quiet in Hf|]. intros k _. unfold view, content. now rewrite H3, H4.
Qed.

(** ** names and values of what a fine script says *)
Lemma fine_headers l : Forall rop_fine l -> forall a,
  (forall k vs, a k = Some vs -> name_fine k /\ Forall one_line vs) ->
  forall k vs, a_run (all_of says_header l) a k = Some vs -> name_fine k /\ Forall one_line vs.
Proof.
  induction 1 as [|o l Ho _ IH]; intros a Ha; [exact Ha|].
  unfold all_of. cbn [map concat]. unfold a_run. rewrite fold_left_app.
  apply IH. destruct o as [x y|c reason|k v|k v|k|o]; cbn [says_header fold_left a_step]; try exact Ha.
  - destruct Ho as [Hk Hv]. intros k' vs. unfold a_update. destruct (bytes_same k' k) as [->|N]; [|apply Ha].
    intros [= <-]. split; [easy|]. apply Forall_app. split; [|now constructor].
    destruct (a k) as [ws|] eqn:E; [|constructor]. now apply Ha in E.
  - destruct Ho as [Hk Hv]. intros k' vs. unfold a_update. destruct (bytes_same k' k) as [->|N]; [|apply Ha].
    intros [= <-]. split; [easy|]. now constructor.
  - intros k' vs. unfold a_update. destruct (bytes_same k' k) as [->|N]; [easy|apply Ha].
Qed.
Lemma fine_lines l : Forall rop_fine l ->
  one_line (all_of says_version l) /\ one_line (all_of says_code l) /\ one_line (all_of says_reason l).
Proof.
  unfold all_of. induction 1 as [|o l Ho _ (I1 & I2 & I3)]; cbn [map concat]; [splits; apply one_line_nil|].
  destruct o as [x y|c reason|k v|k v|k|o]; cbn [says_version says_code says_reason app]; splits; auto.
  - repeat apply one_line_app; auto using dec_one_line; now apply printable_one_line.
  - apply one_line_app; auto using dec_one_line.
  - apply one_line_app; auto.
Qed.

Lemma run_fine l (m m' : message) : clean_slate K m -> rw_run m l = Ret m' -> Forall rop_fine l ->
  all_sound (Row []) (all_of says_header l) ->
  one_line (first_line K m')
  /\ fits (headers m') (fold_left l_step (all_of says_header l) (Row [])) /\ quiet (headers m')
  /\ agree (headers m') (a_run (all_of says_header l) a_empty).
Proof.
  intros Hs E Hl Hh. destruct (slate_fits m Hs) as (F1 & F2 & F3).
  pose proof (rw_split l m a_empty (Row []) F1 F2 F3 Hh) as H. rewrite E in H.
  destruct (b_run (mbody m) (all_of says_body l)); try discriminate.
  destruct H as (n & [= <-] & E0 & E1 & E2 & G1 & G2 & G3 & _). splits; auto.
  unfold first_line. rewrite E0, E1, E2. destruct Hs as (S0 & S1 & S2 & _). rewrite S0, S1, S2. rewrite !app_nil_l.
  destruct (fine_lines l Hl) as (L0 & L1 & L2). repeat apply one_line_app; auto; now apply printable_one_line.
Qed.

Lemma scripts_truthful fuel cfg caps ho f r w req d : order_ok ho ->
  (forall req, Forall rop_fine (fst (f req)) /\ headers_sound (fst (f req))) ->
  In (req, Some d) (cr_log (serve fuel cfg caps ho (@scripted K f) r w)) -> truthful d.
Proof.
  intros Hho Hf Hi. apply serve_served in Hi as (resp & p & req' & resp' & resp'' & H1 & H2 & H3).
  unfold scripted in H2. destruct (rw_run resp (fst (f req))) as [m| | | |] eqn:E; cbn [obind] in H2; try discriminate.
  injection H2 as <- <- <-. destruct (Hf req) as [Hfine Hsound]. unfold headers_sound in Hsound.
  apply all_sound_app in Hsound as [Hs1 [Hs2 _]].
  destruct (run_fine _ resp m H1 E Hfine Hs1) as (L1 & L2 & L3 & L4).
  destruct (serialize_live ho m _ [] Hho L2 L3 Hs2) as (es & m' & Hnd & Hin & Es & _).
  rewrite H3 in Es. destruct (snd (body_end (mbody m))); [|discriminate]. injection Es as -> _.
  assert (Hes : forall k vs, In (k, vs) es -> name_fine k /\ Forall one_line vs).
  { intros k vs Hk. apply Hin in Hk. unfold last_view in Hk.
    destruct (bytes_same k (B "content-length")) as [->|N].
    - injection Hk as <-. split; [exact content_length_fine|]. constructor; [apply dec_one_line|constructor].
    - destruct k as [|c k]; [discriminate|]. rewrite L4 in Hk by easy.
      refine (fine_headers _ Hfine a_empty _ _ _ Hk). intros ? ? Hx; discriminate Hx. }
  apply truthful_exact; [exact L1| |].
  - apply Forall_forall. intros [k v] Hk. apply spread_in in Hk as (vs & Hk & Hvi).
    apply Hes in Hk as ((_ & A & C & _) & D). unfold field_fine. cbn [fst snd]. splits; auto.
    rewrite Forall_forall in D. auto.
  - exists (B "content-length"), (dec (N.of_nat (length (final_body K m)))). split; [|apply numeral_dec].
    apply one_content_length; auto.
    + apply Hin. unfold last_view. destruct (bytes_same _ _); [reflexivity|congruence].
    + intros k vs Hk. apply Hes in Hk as ((_ & _ & _ & D) & _). exact D.
Qed.

(** deleting nothing is sound *)
Lemma no_gap_front k s : ~ In None s -> has k s = false \/ In k (front s).
Proof.
  intros H. destruct (has k s) eqn:E; [|now left]. right. apply front_all; [easy|]. now apply has_in.
Qed.
Lemma take_no_gap k s : ~ In None s -> ~ In None (take_gap k s).
Proof.
  induction s as [|[x|] s IH]; cbn; intros H.
  - intros [?|[]]; discriminate.
  - intros [?|Hi]; [discriminate|]. apply IH in Hi; auto.
  - tauto.
Qed.
Definition no_gap (L : layout) : Prop := match L with Row s => ~ In None s | Hashed => True end.
Lemma deletes_none_sound l : Forall deletes_none l -> forall L, no_gap L ->
  all_sound L (all_of says_header l) /\ no_gap (fold_left l_step (all_of says_header l) L).
Proof.
  induction 1 as [|o l Ho _ IH]; intros L HL; [easy|].
  unfold all_of. cbn [map concat]. rewrite all_sound_app, fold_left_app.
  destruct o as [x y|c reason|k v|k v|k|o]; cbn [says_header all_sound fold_left];
    try (destruct (IH L HL); tauto); cbn [deletes_none] in Ho.
  - assert (HL2 : no_gap (l_step L (OAppend k v))).
    { destruct L as [s|]; cbn [l_step no_gap] in *; [|easy]. destruct (Nat.leb 36 (length s)); [easy|].
      destruct (has k s); [easy|]. now apply take_no_gap. }
    destruct (IH _ HL2) as [I1 I2]. split; [|exact I2]. split; [|exact I1]. split; [|exact I].
    destruct L as [s|]; cbn [sound]; [|easy]. split; [easy|]. right. now apply no_gap_front.
  - assert (HL2 : no_gap (l_step L (OSet k v))).
    { destruct L as [s|]; cbn [l_step no_gap] in *; [|easy]. destruct (has k s); [easy|]. now apply take_no_gap. }
    destruct (IH _ HL2) as [I1 I2]. split; [|exact I2]. split; [|exact I1]. split; [|exact I].
    destruct L as [s|]; cbn [sound]; [|easy]. split; [easy|]. now right.
  - easy.
Qed.
Lemma none_deleted l : Forall deletes_none l -> headers_sound l.
Proof.
  intros H. unfold headers_sound. destruct (deletes_none_sound l H (Row [])) as [H1 H2]; [easy|].
  apply all_sound_app. split; [easy|]. split; [|easy].
  destruct (fold_left l_step (all_of says_header l) (Row [])) as [s|]; cbn [sound]; [|discriminate].
  split; [discriminate|]. now right.
Qed.

(** a gap left in front of content-length takes it *)
Lemma gap_spoils fuel cfg caps ho f r w req d :
  (forall req, Forall rop_fine (fst (f req)) /\ all_sound (Row []) (all_of says_header (fst (f req)))
    /\ ~ headers_sound (fst (f req)) /\ a_run (all_of says_header (fst (f req))) a_empty (B "content-length") = None) ->
  In (req, Some d) (cr_log (serve fuel cfg caps ho (@scripted K f) r w)) -> ~ truthful d.
Proof.
  intros Hf Hi. apply serve_served in Hi as (resp & p & req' & resp' & resp'' & H1 & H2 & H3).
  unfold scripted in H2. destruct (rw_run resp (fst (f req))) as [m| | | |] eqn:E; cbn [obind] in H2; try discriminate.
  injection H2 as <- <- <-. destruct (Hf req) as (Hfine & Hs1 & Hns & Hcl).
  destruct (run_fine _ resp m H1 E Hfine Hs1) as (L1 & L2 & L3 & L4).
  assert (Hu : ~ sound (fold_left l_step (all_of says_header (fst (f req))) (Row [])) (OSet (B "content-length") [])).
  { intros Hs. apply Hns. unfold headers_sound. apply all_sound_app. split; [easy|]. now split. }
  destruct (fold_left l_step (all_of says_header (fst (f req))) (Row [])) as [s|].
  2:{ exfalso. apply Hu. discriminate. }
  destruct L2 as [Hok (Em & Hk0 & Ht)]. destruct (headers m) as [ism vec mp] eqn:Eh. cbn [mm_ismap mm_vec] in *. subst ism.
  destruct (lands (B "content-length") ltac:(discriminate) s vec Hk0 Ht) as [(G1 & _)
      |[(G1 & G0 & a & ws & b & Hl & G2 & G3 & G4 & G5)|(G1 & G0 & _)]].
  1:{ exfalso. apply Hu. split; [discriminate|]. now left. }
  2:{ exfalso. apply Hu. split; [discriminate|]. now right. }
  eapply serialize_vec in H3; [|exact Eh|exact G2]. rewrite H3, Hl, update_nth_app. cbn [fst].
  set (n := dec _). set (es := a ++ ([], [n]) :: b).
  assert (Hcl2 : forall vs, ~ In (B "content-length", vs) es).
  { intros vs Hi. assert (Hv := L4 (B "content-length") ltac:(discriminate)).
    rewrite Hcl in Hv. unfold view, content in Hv. cbn [mm_ismap mm_vec] in Hv. apply h_get_none in Hv.
    apply Hv. rewrite Hl, keys_app. unfold es in Hi. apply in_app_or in Hi as [Hi|[Hi|Hi]]; apply in_or_app.
    - left. now apply (in_map fst) in Hi.
    - discriminate Hi.
    - right. right. now apply (in_map fst) in Hi. }
  assert (Hes : forall k v vs, In (k, vs) es -> In v vs -> (k = [] /\ v = n) \/ (name_fine k /\ one_line v)).
  { intros k v vs Hi Hv. destruct k as [|c k].
    - left. split; [easy|]. destruct Hok as [_ Hok]. cbn [mm_ismap mm_vec] in Hok. destruct Hok as [_ He].
      unfold es in Hi. apply in_app_or in Hi as [Hi|[Hi|Hi]].
      + rewrite (He vs) in Hv; [easy|]. rewrite Hl. apply in_or_app. now left.
      + injection Hi as <-. destruct Hv as [->|[]]. easy.
      + rewrite (He vs) in Hv; [easy|]. rewrite Hl. apply in_or_app. right. now right.
    - right. assert (Hi2 : In (c :: k, vs) vec).
      { rewrite Hl. unfold es in Hi. apply in_app_or in Hi as [Hi|[Hi|Hi]]; apply in_or_app;
          [now left|discriminate Hi|right; now right]. }
      assert (Hg : view (MM false vec mp) (c :: k) = Some vs).
      { destruct (each_live (fun l => l) (MM false vec mp) (Row s)) as (es' & N1 & N2 & _).
        - intros x. apply Permutation_refl.
        - split; [exact Hok|splits; easy].
        - exact L3.
        - unfold view, content. cbn [mm_ismap mm_vec].
          destruct Hok as [_ Hok]. cbn [mm_ismap mm_vec] in Hok. destruct Hok as [Hnd _].
          clear -Hnd Hi2. induction vec as [|[x zs] l IH]; [easy|]. cbn [keys map fst filter] in Hnd.
          destruct Hi2 as [[= -> ->]|Hi].
          + cbn [h_get]. now rewrite bytes_eqb_refl.
          + cbn [h_get]. destruct (bytes_eqb x (c :: k)) eqn:Ex.
            * apply bytes_eqb_eq in Ex as ->. cbn [is_nil negb] in Hnd. inversion Hnd as [|? ? Hn _]; subst.
              exfalso. apply Hn. apply in_keep; [easy|]. now apply (in_map fst) in Hi.
            * apply IH; [|exact Hi]. destruct (negb (is_nil x)); [now inversion Hnd|easy]. }
      rewrite L4 in Hg by easy.
      destruct (fine_headers _ Hfine a_empty ltac:(intros ? ? Hx; discriminate Hx) _ _ Hg) as [N1 N2].
      split; [exact N1|]. rewrite Forall_forall in N2. auto. }
  rewrite truthful_exact; [|exact L1|].
  - intros (x & y & Ef & _).
    assert (Hi : In (x, y) (filter (fun f => same_name (B "content-length") (fst f)) (spread es))) by (rewrite Ef; now left).
    apply filter_In in Hi as [Hi Hsn]. cbn [fst] in Hsn. apply spread_in in Hi as (vs & Hi & Hv).
    destruct (Hes _ _ _ Hi Hv) as [[-> _]|[(_ & _ & _ & Hc) _]]; [discriminate Hsn|].
    apply Hc in Hsn. subst x. now apply Hcl2 in Hi.
  - apply Forall_forall. intros [k v] Hi. apply spread_in in Hi as (vs & Hi & Hv).
    destruct (Hes _ _ _ Hi Hv) as [[-> ->]|[(_ & A & C & _) D]]; unfold field_fine; cbn [fst snd]; splits; auto.
    + apply one_line_nil.
    + apply dec_one_line.
Qed.
End Deletes.
