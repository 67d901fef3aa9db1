(** The header table with deletions: which writes go wrong. *)
From Verif Require Import F_MultiMap F_MultiMapP.
From Coq Require Import Permutation.

Definition slot (x : option bytes) : bytes := match x with Some k => k | None => [] end.
Definition tagged (s : list (option bytes)) : Prop := forall k, In (Some k) s -> k <> [].

Definition fits (m : mmap) (L : layout) : Prop :=
  ok true m /\
  match L with
  | Hashed => mm_ismap m = true
  | Row s => mm_ismap m = false /\ keys (mm_vec m) = map slot s /\ tagged s
  end.

Lemma has_in k s : has k s = true <-> In (Some k) s.
Proof.
  unfold has. rewrite existsb_exists. split.
  - intros ([x|] & Hi & H); [|easy]. now destruct (bytes_same x k) as [->|].
  - intros H. exists (Some k). split; [easy|]. now destruct (bytes_same k k).
Qed.
Lemma has_not k s : has k s = false <-> ~ In (Some k) s.
Proof. rewrite <- has_in. now destruct (has k s). Qed.

Lemma slot_in k s : tagged s -> k <> [] -> (In k (map slot s) <-> In (Some k) s).
Proof.
  intros Ht Hk. rewrite in_map_iff. split.
  - intros ([x|] & E & Hi); simpl in E; congruence.
  - intros H. now exists (Some k).
Qed.
Lemma slot_gap s : tagged s -> (In [] (map slot s) <-> In None s).
Proof.
  intros Ht. rewrite in_map_iff. split.
  - intros ([x|] & E & Hi); simpl in E; [|easy]. subst. now apply Ht in Hi.
  - intros H. now exists None.
Qed.

Lemma front_in k s : In k (front s) -> In (Some k) s.
Proof. induction s as [|[x|] s IH]; simpl; [easy| |easy]. intros [->|H]; auto. Qed.
Lemma front_all k s : ~ In None s -> In (Some k) s -> In k (front s).
Proof.
  induction s as [|[x|] s IH]; simpl; [easy| |tauto]. intros Hn [[= ->]|H]; [now left|].
  right. apply IH; tauto.
Qed.
Lemma tagged_cons x s : tagged (x :: s) -> tagged s.
Proof. intros H k Hk. apply H. now right. Qed.

(** where a write to [k] lands *)
Lemma lands k : k <> [] -> forall s l, keys l = map slot s -> tagged s ->
  (In k (front s) /\ exists a vs b, l = a ++ (k, vs) :: b
     /\ vec_find_or_empty l k = Some (length a) /\ ~ In k (keys a) /\ ~ In [] (keys a))
  \/ (~ In k (front s) /\ In None s /\ exists a vs b, l = a ++ ([], vs) :: b
     /\ vec_find_or_empty l k = Some (length a) /\ ~ In k (keys a) /\ ~ In [] (keys a)
     /\ keys a ++ k :: keys b = map slot (take_gap k s))
  \/ (~ In k (front s) /\ ~ In None s /\ vec_find_or_empty l k = None
     /\ ~ In k (keys l) /\ ~ In [] (keys l) /\ take_gap k s = s ++ [Some k]).
Proof.
  intros Hk. induction s as [|x s IH]; intros l Hl Ht.
  - destruct l; [|easy]. right. right. splits; easy.
  - destruct l as [|[k' vs] l]; [easy|]. simpl in Hl. injection Hl as E Hl.
    destruct x as [x|]; simpl in E; subst k'.
    + destruct (bytes_same x k) as [->|N].
      * left. split; [now left|]. exists [], vs, l. splits; try easy.
        unfold vec_find_or_empty. simpl. now rewrite bytes_eqb_refl.
      * assert (Hx : x <> []) by (apply Ht; now left).
        assert (Ef : vec_find_or_empty ((x, vs) :: l) k = option_map S (vec_find_or_empty l k)).
        { unfold vec_find_or_empty. simpl. rewrite (neq_eqb x k), (is_nil_false x) by easy. simpl.
          match goal with |- context [position ?f l] => now destruct (position f l) end. }
        destruct (IH l Hl (tagged_cons _ _ Ht)) as [(H1 & a & ws & b & -> & H2 & H3 & H4)
          |[(H1 & H0 & a & ws & b & -> & H2 & H3 & H4 & H5)|(H1 & H0 & H2 & H3 & H4 & H5)]].
        -- left. split; [now right|]. rewrite H2 in Ef. exists ((x, vs) :: a), ws, b. splits; try easy.
           ++ intros [?|?]; easy.
           ++ intros [?|?]; easy.
        -- right. left. splits.
           ++ intros [?|?]; easy.
           ++ now right.
           ++ rewrite H2 in Ef. exists ((x, vs) :: a), ws, b. splits; try easy.
              ** intros [?|?]; easy.
              ** intros [?|?]; easy.
              ** simpl. now rewrite <- H5.
        -- right. right. rewrite H2 in Ef. splits; try easy.
           ++ intros [?|?]; easy.
           ++ intros [?|?]; easy.
           ++ intros [?|?]; easy.
           ++ intros [?|?]; easy.
           ++ simpl. now rewrite H5.
    + right. left. splits; [easy|now left|]. exists [], vs, l. splits; try easy.
      * unfold vec_find_or_empty. simpl. now rewrite orb_true_r.
      * simpl. now rewrite Hl.
Qed.

Lemma tagged_take k s : k <> [] -> tagged s -> tagged (take_gap k s).
Proof.
  intros Hk. induction s as [|[x|] s IH]; intros Ht y; simpl.
  - intros [[= <-]|[]]. easy.
  - intros [[= <-]|H]; [apply Ht; now left|]. apply IH; [now apply tagged_cons in Ht|easy].
  - intros [[= <-]|H]; [easy|]. apply Ht. now right.
Qed.

Lemma ok_gap m vs a b : ok true m -> mm_ismap m = false -> mm_vec m = a ++ ([], vs) :: b -> vs = [].
Proof.
  intros [_ H] E Hl. rewrite E in H. apply H. rewrite Hl. apply in_or_app. right. now left.
Qed.

Lemma ok_hash_view m : ok true m -> mm_ismap m = true -> exists mp, mm_map m = Some mp /\ NoDup (keys mp) /\ mm_vec m = [].
Proof. intros [Hw _] E. unfold wf in Hw. rewrite E in Hw. destruct Hw as (H1 & mp & H2 & H3). eauto. Qed.

Lemma append_sound m L k v : fits m L -> sound L (OAppend k v) ->
  exists m', mm_append m k v = Ret m' /\ fits m' (l_step L (OAppend k v))
    /\ forall x, x <> [] -> view m' x = if bytes_same x k
        then Some (match view m k with Some vs => vs | None => [] end ++ [v]) else view m x.
Proof.
  intros [Hok HL] Hs. destruct L as [s|].
  - destruct HL as (E & Hk0 & Ht). destruct Hs as (Hk & Hs). unfold mm_append. rewrite E.
    assert (El : length (mm_vec m) = length s).
    { apply (f_equal (@length _)) in Hk0. unfold keys in Hk0. now rewrite !map_length in Hk0. }
    rewrite El. cbn [l_step]. destruct (Nat.leb 36 (length s)) eqn:E36.
    + destruct (tomap_ok true m Hok E) as [Hw' Ht'] eqn:Et. clear Et.
      destruct (map_append_ok true (tomap m) k v (conj Hw' Ht') eq_refl Hk) as (m' & H1 & H2 & H3).
      exists m'. splits; auto.
      * split; [easy|]. unfold map_append in H1. destruct (mm_map (tomap m)); [|easy].
        destruct (h_get k l); injection H1 as <-; easy.
      * intros x Hx. rewrite H3. now rewrite !(tomap_view true m) by auto.
    + apply Nat.leb_gt in E36. destruct Hs as [Hs|Hs]; [lia|].
      pose proof Hok as [Hw Hok2]. rewrite E in Hok2. destruct Hok2 as [Hnd He].
      assert (Hwf' : forall l, wf (MM false l (mm_map m))).
      { intros l. unfold wf in *. simpl. now rewrite E in Hw. }
      destruct (lands k Hk s (mm_vec m) Hk0 Ht) as [(H1 & a & ws & b & Hl & H2 & H3 & H4)
          |[(H1 & H0 & a & ws & b & Hl & H2 & H3 & H4 & H5)|(H1 & H0 & H2 & H3 & H4 & H5)]];
        rewrite H2; (eexists; split; [reflexivity|]).
      * assert (Hh : has k s = true) by (apply has_in; now apply front_in). rewrite Hh.
        rewrite Hl, update_nth_app. cbn [fst snd]. rewrite (is_nil_false k) by easy. split.
        -- split; [split; [apply Hwf'|]|].
           ++ simpl. rewrite Hl in Hnd, He. rewrite keys_app in *. split; [exact Hnd|].
              intros zs Hz. apply He. apply in_app_or in Hz as [Hz|[Hz|Hz]]; apply in_or_app.
              ** now left.
              ** congruence.
              ** right. now right.
           ++ simpl. splits; try easy. rewrite <- Hk0, Hl. now rewrite !keys_app.
        -- intros x Hx. unfold view, content. simpl. rewrite E, Hl.
           rewrite (h_get_mid a k ws _ b x H3), h_get_at by easy. easy.
      * assert (Hh : has k s = false) by tauto. rewrite Hh.
        assert (Hni : ~ In k (keys (mm_vec m))).
        { rewrite Hk0, slot_in by easy. now apply has_not. }
        assert (Hv0 : view m k = None) by (unfold view, content; rewrite E; now apply h_get_none).
        destruct (append_ok true m k v Hok Hk (fun _ => Hv0)) as (m' & A1 & A2 & A3).
        unfold mm_append in A1. rewrite E, El in A1.
        assert (E36' : Nat.leb 36 (length s) = false) by now apply Nat.leb_gt.
        rewrite E36', H2 in A1. injection A1 as <-. split; [|exact A3].
        split; [exact A2|]. simpl. splits; [easy| |now apply tagged_take].
        rewrite <- H5, Hl, update_nth_app. cbn [fst snd]. now rewrite keys_app.
      * assert (Hv0 : view m k = None) by (unfold view, content; rewrite E; now apply h_get_none).
        assert (Hh : has k s = false).
        { apply has_not. rewrite <- (slot_in k s) by easy. now rewrite <- Hk0. }
        rewrite Hh.
        destruct (append_ok true m k v Hok Hk (fun _ => Hv0)) as (m' & A1 & A2 & A3).
        unfold mm_append in A1. rewrite E, El in A1.
        assert (E36' : Nat.leb 36 (length s) = false) by now apply Nat.leb_gt.
        rewrite E36', H2 in A1. injection A1 as <-. split; [|exact A3].
        split; [exact A2|]. simpl. splits; [easy| |now apply tagged_take].
        rewrite H5, map_app, keys_app, Hk0. easy.
  - simpl in Hs. unfold mm_append. rewrite HL.
    destruct (map_append_ok true m k v Hok HL Hs) as (m' & H1 & H2 & H3).
    exists m'. splits; auto. split; [easy|]. unfold map_append in H1.
    destruct (ok_hash_view m Hok HL) as (mp & Hm & _). rewrite Hm in H1.
    destruct (h_get k mp); injection H1 as <-; easy.
Qed.

Lemma set_sound m L k v : fits m L -> sound L (OSet k v) ->
  exists m', mm_set m k v = Ret m' /\ fits m' (l_step L (OSet k v))
    /\ forall x, x <> [] -> view m' x = if bytes_same x k then Some [v] else view m x.
Proof.
  intros [Hok HL] Hs. destruct L as [s|].
  - destruct HL as (E & Hk0 & Ht). destruct Hs as (Hk & Hs). unfold mm_set. rewrite E. cbn [l_step].
    pose proof Hok as [Hw Hok2]. rewrite E in Hok2. destruct Hok2 as [Hnd He].
    assert (Hwf' : forall l, wf (MM false l (mm_map m))).
    { intros l. unfold wf in *. simpl. now rewrite E in Hw. }
    destruct (lands k Hk s (mm_vec m) Hk0 Ht) as [(H1 & a & ws & b & Hl & H2 & H3 & H4)
        |[(H1 & H0 & a & ws & b & Hl & H2 & H3 & H4 & H5)|(H1 & H0 & H2 & H3 & H4 & H5)]];
      [| tauto |]; rewrite H2; (eexists; split; [reflexivity|]).
    + assert (Hh : has k s = true) by (apply has_in; now apply front_in). rewrite Hh.
      rewrite Hl, update_nth_app. cbn [fst snd]. split.
      * split; [split; [apply Hwf'|]|].
        -- simpl. rewrite Hl in Hnd, He. rewrite keys_app in *. split; [exact Hnd|].
           intros zs Hz. apply He. apply in_app_or in Hz as [Hz|[Hz|Hz]]; apply in_or_app.
           ++ now left.
           ++ congruence.
           ++ right. now right.
        -- simpl. splits; try easy. rewrite <- Hk0, Hl. now rewrite !keys_app.
      * intros x Hx. unfold view, content. simpl. rewrite E, Hl.
        now rewrite (h_get_mid a k ws _ b x H3).
    + assert (Hh : has k s = false).
      { apply has_not. rewrite <- (slot_in k s) by easy. now rewrite <- Hk0. }
      rewrite Hh. split.
      * split; [split; [apply Hwf'|]|].
        -- simpl. rewrite keys_app, keep_app. simpl. rewrite (is_nil_false k) by easy. simpl. split.
           ++ apply nodup_snoc; [easy|]. now rewrite in_keep.
           ++ intros zs Hz. apply in_app_or in Hz as [Hz|[Hz|[]]]; [now apply He|congruence].
        -- simpl. splits; [easy| |now apply tagged_take]. now rewrite H5, map_app, keys_app, Hk0.
      * intros x Hx. unfold view, content. simpl. rewrite E, h_get_app.
        assert (Hg : h_get k (mm_vec m) = None) by now apply h_get_none.
        destruct (bytes_same x k) as [->|N].
        -- rewrite Hg. now rewrite h_get_cons; destruct (bytes_same k k).
        -- destruct (h_get x (mm_vec m)); [easy|]. rewrite h_get_cons.
           destruct (bytes_same x k); easy.
  - simpl in Hs. unfold mm_set. rewrite HL. destruct (ok_hash_view m Hok HL) as (mp & Hm & Hnd & Hv).
    rewrite Hm. exists (MM true (mm_vec m) (Some (h_insert k [v] mp))).
    split; [now destruct (h_get k mp)|]. split.
    + split; [|easy]. split; [|easy]. unfold wf. simpl. split; [easy|].
      eexists; split; [reflexivity|]. now apply h_insert_nodup.
    + intros x Hx. unfold view, content. simpl. rewrite HL, Hm. apply h_get_insert.
Qed.

Lemma leave_keys k s : tagged s ->
  map slot (map (leave_gap k) s) = map (fun x => if bytes_same x k then [] else x) (map slot s).
Proof.
  intros Ht. rewrite !map_map. apply map_ext_in. intros [x|] Hi; simpl.
  - now destruct (bytes_same x k).
  - match goal with |- _ = if ?b then _ else _ => now destruct b end.
Qed.
Lemma keys_off k l : ~ In k l -> map (fun x => if bytes_same x k then [] else x) l = l.
Proof.
  induction l as [|x l IH]; intros H; [easy|]. simpl. destruct (bytes_same x k) as [->|].
  - exfalso. apply H. now left.
  - rewrite IH; [easy|]. intros Hi. apply H. now right.
Qed.
Lemma keys_nil (l : list bytes) : map (fun x => if bytes_same x [] then [] else x) l = l.
Proof.
  induction l as [|x l IH]; [easy|]. cbn [map]. rewrite IH. f_equal.
  destruct (bytes_same x []); congruence.
Qed.
Lemma tagged_leave k s : tagged s -> tagged (map (leave_gap k) s).
Proof.
  intros Ht y Hy. apply in_map_iff in Hy as ([x|] & E & Hi); simpl in E; [|easy].
  destruct (bytes_same x k); [easy|]. injection E as ->. now apply Ht.
Qed.

Lemma delete_sound m L k : fits m L ->
  exists m', mm_delete m k = Ret m' /\ fits m' (l_step L (ODelete k))
    /\ forall x, x <> [] -> view m' x = if bytes_same x k then None else view m x.
Proof.
  intros [Hok HL]. destruct (delete_ok true m k Hok) as (m' & H1 & H2 & H3).
  exists m'. splits; auto. split; [easy|]. destruct L as [s|].
  - destruct HL as (E & Hk0 & Ht). cbn [l_step]. unfold mm_delete in H1. rewrite E in H1.
    rewrite leave_keys by easy. rewrite <- Hk0.
    destruct (vec_find (mm_vec m) k) as [pos|] eqn:Ef; injection H1 as <-.
    + apply vec_find_some in Ef as (a & vs & b & Hl & Hp & Hn).
      simpl. splits; [easy| |now apply tagged_leave].
      rewrite Hl, <- Hp, update_nth_app, !keys_app, map_app. cbn [keys map fst].
      rewrite (keys_off k (keys a)) by easy. f_equal.
      destruct (bytes_same k k) as [_|]; [|easy]. f_equal. change (map fst b) with (keys b).
      destruct (bytes_same k []) as [->|Hk].
      * symmetry. apply keys_nil.
      * symmetry. apply keys_off. destruct Hok as [_ Hok]. rewrite E, Hl in Hok.
        apply h_get_none. apply (nodup_h_get_after a k vs b); tauto.
    + splits; [easy| |now apply tagged_leave]. symmetry. apply keys_off. now apply vec_find_none.
  - simpl. unfold mm_delete in H1. rewrite HL in H1. destruct (mm_map m); [|easy].
    injection H1 as <-. easy.
Qed.

Lemma remove_sound m L k v : fits m L ->
  exists m', mm_remove m k v = Ret m' /\ fits m' (l_step L (ORemove k v))
    /\ forall x, view m' x = if bytes_same x k then option_map (without v) (view m k) else view m x.
Proof.
  intros [Hok HL]. destruct (remove_ok true m k v Hok) as (m' & H1 & H2 & H3).
  destruct (remove_view m k v (proj1 Hok)) as (m'' & G1 & _ & G3 & G4 & _). rewrite H1 in G1.
  injection G1 as <-. exists m'. splits; auto. split; [easy|]. unfold content in G4. rewrite G3 in G4.
  destruct L as [s|]; cbn [l_step]; [|congruence]. destruct HL as (E & Hk0 & Ht).
  rewrite E in *. splits; [easy|now rewrite G4|easy].
Qed.

Lemma map_sound ho m L f : order_ok ho -> fits m L -> sound L (OMap f) ->
  exists m', mm_each_mut ho m (fun k vs => (f k vs, true)) = Ret m' /\ fits m' (l_step L (OMap f))
    /\ forall x, view m' x = option_map (f x) (view m x).
Proof.
  intros Hho [Hok HL] Hs. unfold mm_each_mut. destruct L as [s|].
  - destruct HL as (E & Hk0 & Ht). rewrite E. cbn [l_step]. eexists. split; [reflexivity|].
    pose proof Hok as [Hw Hok2]. rewrite E in Hok2. destruct Hok2 as [Hnd He]. split.
    + split; [split|].
      * unfold wf in *. simpl. now rewrite E in Hw.
      * simpl. rewrite each_mut_map_keys. split; [easy|]. intros vs Hi.
        assert (Hi2 : exists ws, In ([], ws) (mm_vec m) /\ vs = f [] ws).
        { clear -Hi. induction (mm_vec m) as [|[k ws] l IH]; simpl in *; [easy|].
          destruct Hi as [[= -> <-]|Hi]; [eauto|]. destruct (IH Hi) as (zs & ? & ?). eauto. }
        destruct Hi2 as (ws & Hi2 & ->). rewrite (He ws Hi2). apply Hs. apply slot_gap; [easy|].
        rewrite <- Hk0. change [] with (fst (([] : bytes), ws)). now apply in_map.
      * simpl. rewrite each_mut_map_keys. easy.
    + intros x. unfold view, content. simpl. rewrite E. apply each_mut_get.
  - rewrite HL. destruct (ok_hash_view m Hok HL) as (mp & Hm & Hnd & Hv). rewrite Hm.
    eexists. split; [reflexivity|]. split.
    + split; [|easy]. split; [|easy]. unfold wf. simpl. split; [easy|].
      eexists; split; [reflexivity|]. rewrite each_mut_map_keys. eapply Permutation_NoDup; [|exact Hnd].
      apply Permutation_map. symmetry. apply Hho.
    + intros x. unfold view, content. simpl. rewrite HL, Hm, each_mut_get. f_equal. now apply h_get_perm.
Qed.

Lemma run_sound ho ops : order_ok ho -> forall L m a,
  fits m L -> agree m a -> all_sound L ops ->
  exists m', mm_run ho m ops = Ret m' /\ fits m' (fold_left l_step ops L) /\ agree m' (a_run ops a).
Proof.
  intros Hho. induction ops as [|o ops IH]; intros L m a Hf Ha Hc.
  - exists m. splits; easy.
  - destruct Hc as [Hs Hc]. unfold a_run. cbn [fold_left mm_run].
    destruct o as [k v|k v|k v|k| |f]; cbn [mm_step].
    + destruct (append_sound m L k v Hf Hs) as (m' & H1 & H2 & H3). rewrite H1. cbn [obind].
      eapply IH; [exact H2| |exact Hc]. cbn [a_step].
      assert (Hk : k <> []) by (destruct L; apply Hs). rewrite <- (Ha k Hk). eapply agree_update; eassumption.
    + destruct (set_sound m L k v Hf Hs) as (m' & H1 & H2 & H3). rewrite H1. cbn [obind].
      eapply IH; [exact H2| |exact Hc]. cbn [a_step]. eapply agree_update; eassumption.
    + destruct (remove_sound m L k v Hf) as (m' & H1 & H2 & H3). rewrite H1. cbn [obind].
      eapply IH; [exact H2| |exact Hc]. intros x Hx. rewrite H3. cbn [a_step]. unfold a_update.
      destruct (bytes_same x k) as [->|]; [now rewrite Ha|now apply Ha].
    + destruct (delete_sound m L k Hf) as (m' & H1 & H2 & H3). rewrite H1. cbn [obind].
      eapply IH; [exact H2| |exact Hc]. cbn [a_step]. eapply agree_update; eassumption.
    + cbn [obind]. destruct (clear_ok m) as [H1 H2].
      assert (El : l_step L OClear = Row []) by now destruct L. rewrite El in *.
      eapply IH; [| |exact Hc].
      * split; [|split; [easy|split; easy]]. destruct H1 as [G1 G2]. split; [exact G1|].
        simpl in *. split; [constructor|easy].
      * intros x _. now rewrite H2.
    + destruct (map_sound ho m L f Hho Hf Hs) as (m' & H1 & H2 & H3). rewrite H1. cbn [obind].
      eapply IH; [exact H2| |exact Hc]. intros x Hx. rewrite H3, Ha by easy. reflexivity.
Qed.

Lemma new_fits : fits mm_new (Row []).
Proof.
  split; [|split; [easy|split; easy]]. split; [apply new_wf|]. simpl. split; [constructor|easy].
Qed.

Lemma sound_history ho ops : order_ok ho -> all_sound (Row []) ops ->
  exists m, mm_run ho mm_new ops = Ret m /\ fits m (fold_left l_step ops (Row []))
    /\ agree m (a_run ops a_empty).
Proof. intros Hho. apply run_sound; [easy|apply new_fits|now intros k _]. Qed.

Lemma table_sound : forall (ho : hash_order) (ops : list mop),
  (forall l, Permutation (ho l) l) -> all_sound (Row []) ops ->
  exists m, mm_run ho mm_new ops = Ret m
    /\ forall k, k <> [] -> mm_getall m k = Ret (a_run ops a_empty k).
Proof.
  intros ho ops Hho Hs. destruct (sound_history ho ops Hho Hs) as (m & H1 & [[Hw _] _] & H3).
  exists m. split; [easy|]. intros k Hk. rewrite getall_view by easy. now rewrite H3.
Qed.

Lemma unsound_set : forall (ho : hash_order) (ops : list mop) k v,
  (forall l, Permutation (ho l) l) -> all_sound (Row []) ops -> k <> [] ->
  ~ sound (fold_left l_step ops (Row [])) (OSet k v) ->
  exists m, mm_run ho mm_new (ops ++ [OSet k v]) = Ret m
    /\ mm_getall m k = Ret (a_run ops a_empty k).
Proof.
  intros ho ops k v Hho Hs Hk Hu.
  destruct (sound_history ho ops Hho Hs) as (m & H1 & [Hok HL] & H3).
  rewrite run_app, H1. cbn [obind mm_run mm_step].
  destruct (fold_left l_step ops (Row [])) as [s|]; [|easy]. destruct HL as (E & Hk0 & Ht).
  unfold mm_set. rewrite E. simpl in Hu.
  destruct (lands k Hk s (mm_vec m) Hk0 Ht) as [(G1 & _)
      |[(G1 & G0 & a & ws & b & Hl & G2 & G3 & G4 & G5)|(G1 & G0 & _)]]; [tauto| |tauto].
  rewrite G2. cbn [obind]. eexists. split; [reflexivity|].
  assert (Hv := H3 k Hk). unfold view, content in Hv. rewrite E, Hl in Hv.
  unfold mm_getall. simpl. rewrite h_get_vec, Hl, update_nth_app. cbn [fst snd].
  rewrite <- Hv, !h_get_app, !h_get_cons. destruct (bytes_same k []); easy.
Qed.

Lemma unsound_append : forall (ho : hash_order) (ops : list mop) k v,
  (forall l, Permutation (ho l) l) -> all_sound (Row []) ops -> k <> [] ->
  ~ sound (fold_left l_step ops (Row [])) (OAppend k v) ->
  a_run ops a_empty k <> None
  /\ exists m, mm_run ho mm_new (ops ++ [OAppend k v]) = Ret m
    /\ mm_getall m k = Ret (Some [v]).
Proof.
  intros ho ops k v Hho Hs Hk Hu.
  destruct (sound_history ho ops Hho Hs) as (m & H1 & [Hok HL] & H3).
  rewrite run_app, H1. cbn [obind mm_run mm_step].
  destruct (fold_left l_step ops (Row [])) as [s|]; [|easy]. destruct HL as (E & Hk0 & Ht).
  assert (El : length (mm_vec m) = length s).
  { apply (f_equal (@length _)) in Hk0. unfold keys in Hk0. now rewrite !map_length in Hk0. }
  unfold mm_append. rewrite E, El. simpl in Hu.
  assert (Hh : has k s = true) by (destruct (has k s); [easy|tauto]).
  destruct (Nat.leb 36 (length s)) eqn:E36; [apply Nat.leb_le in E36; tauto|].
  assert (Hv := H3 k Hk). unfold view, content in Hv. rewrite E in Hv.
  apply has_in in Hh. split.
  - rewrite <- Hv. intros Hn. apply h_get_none in Hn. apply Hn. rewrite Hk0. now apply slot_in.
  - destruct (lands k Hk s (mm_vec m) Hk0 Ht) as [(G1 & _)
      |[(G1 & G0 & a & ws & b & Hl & G2 & G3 & G4 & G5)|(G1 & G0 & _ & G2 & _)]]; [tauto| |].
    2:{ exfalso. apply G2. rewrite Hk0. now apply slot_in. }
    rewrite G2. cbn [obind]. eexists. split; [reflexivity|].
    unfold mm_getall. simpl. rewrite h_get_vec, Hl, update_nth_app. cbn [fst snd is_nil].
    rewrite (ok_gap m ws a b Hok E Hl). now rewrite h_get_at.
Qed.

Lemma switch_sound : forall (ho : hash_order) (ops : list mop) (m : mmap) k,
  (forall l, Permutation (ho l) l) -> all_sound (Row []) ops -> mm_run ho mm_new ops = Ret m ->
  mm_ismap m = false -> k <> [] -> mm_getall (tomap m) k = mm_getall m k.
Proof.
  intros ho ops m k Hho Hs Hr E Hk.
  destruct (sound_history ho ops Hho Hs) as (m' & H1 & [Hok _] & _). rewrite Hr in H1.
  injection H1 as <-. rewrite !getall_view by (try apply Hok; now apply (tomap_wf m (proj1 Hok) E)).
  f_equal. now apply (tomap_view true).
Qed.

Lemma C27_ex :
  all_sound (Row []) [OAppend (B "a") (B "1"); OAppend (B "b") (B "2"); OAppend (B "c") (B "3");
                      ODelete (B "b"); OSet (B "a") (B "4"); OAppend (B "a") (B "5");
                      OAppend (B "d") (B "6"); OSet (B "c") (B "7"); ODelete (B "c"); OClear;
                      OSet (B "b") (B "8")].
Proof. cbv. repeat split; try discriminate; intuition discriminate. Qed.
Fixpoint sound_b (L : layout) (ops : list mop) : bool :=
  match ops with
  | [] => true
  | o :: r => match o, L with
              | OAppend k _, Row s => negb (is_nil k) && (negb (has k s))
              | ODelete _, _ => true
              | _, _ => false
              end && sound_b (l_step L o) r
  end.
Lemma sound_b_ok ops : forall L, sound_b L ops = true -> all_sound L ops.
Proof.
  induction ops as [|o ops IH]; intros L H; [easy|]. cbn [sound_b] in H.
  apply andb_true_iff in H as [H1 H2]. split; [|now apply IH].
  destruct o, L; simpl in *; try easy. apply andb_true_iff in H1 as [H1 H3]. split; [now destruct k|].
  right. left. now destruct (has k slots).
Qed.
Lemma C30_delete_ex : exists m,
  let ops := map (fun i => OAppend (B "n" ++ dec (N.of_nat i)) (B "v")) (seq 0 36) ++ [ODelete (B "n7")] in
  all_sound (Row []) ops /\ mm_run (fun l => l) mm_new ops = Ret m /\ mm_ismap m = false
  /\ mm_getall m (B "n8") = Ret (Some [B "v"]).
Proof.
  eexists. cbv zeta. split; [apply sound_b_ok; vm_compute; reflexivity|].
  split; [vm_compute; reflexivity|]. split; vm_compute; reflexivity.
Qed.
