(** Facts about loading configurations. *)
From Verif Require Export F_LogConfig S_Config2.

(** trimming *)
Lemma drop_while_split {A} (p : A -> bool) l :
  exists a, l = a ++ drop_while p l /\ Forall (fun c => p c = true) a
  /\ forall c t, drop_while p l = c :: t -> p c = false.
Proof.
  induction l as [|x l IH]; cbn [drop_while].
  - exists []. splits; [easy|constructor|easy].
  - destruct (p x) eqn:E.
    + destruct IH as (a & Ha & Hp & Hh). exists (x :: a). splits; [cbn; now f_equal|now constructor|easy].
    + exists []. splits; [easy|constructor|]. now intros c t [= -> ->].
Qed.
Lemma trim_trimmed s : trimmed s (trim_str s).
Proof.
  unfold trim_str, trim_by, trimmed.
  destruct (drop_while_split is_ws s) as (a & Ha & Hpa & Hh).
  destruct (drop_while_split is_ws (rev (drop_while is_ws s))) as (b & Hb & Hpb & Ht).
  set (d := drop_while is_ws s) in *. set (r := drop_while is_ws (rev d)) in *.
  assert (Hd : d = rev r ++ rev b) by (rewrite <- rev_app_distr, <- Hb; now rewrite rev_involutive).
  exists a, (rev b). splits.
  - now rewrite <- Hd.
  - exact Hpa.
  - unfold blank. apply Forall_rev. exact Hpb.
  - intros c t E. apply (Hh c (t ++ rev b)). rewrite Hd, E. reflexivity.
  - intros c t E. apply (Ht c (rev t)). rewrite <- (rev_involutive r), E, rev_app_distr. reflexivity.
Qed.
Lemma trim_front_unique a a' x x' : blank a -> blank a' ->
  (forall c t', x = c :: t' -> is_ws c = false) -> (forall c t', x' = c :: t' -> is_ws c = false) ->
  a ++ x = a' ++ x' -> x <> [] -> x' <> [] -> a = a' /\ x = x'.
Proof.
  revert a'; induction a as [|c a IH]; intros a' Ha Ha' Hx Hx' E Hn Hn'.
  - destruct a' as [|c' a']; [auto|]. exfalso. cbn [app] in E. inversion Ha'; subst.
    specialize (Hx c' (a' ++ x') eq_refl). congruence.
  - destruct a' as [|c' a'].
    + exfalso. cbn [app] in E. inversion Ha; subst. specialize (Hx' c (a ++ x) eq_refl). congruence.
    + cbn [app] in E. injection E as -> E. inversion Ha; inversion Ha'; subst.
      destruct (IH a') as [-> ->]; auto.
Qed.
Lemma trimmed_unique s t t' : trimmed s t -> trimmed s t' -> t = t'.
Proof.
  intros (a & b & E & Ha & Hb & H1 & H2) (a' & b' & E' & Ha' & Hb' & H1' & H2').
  assert (Hblank : forall t, (forall c u, t = c :: u -> is_ws c = false) -> blank t -> t = []).
  { intros [|c u] H Hbl; [easy|]. inversion Hbl; subst. rewrite (H c u eq_refl) in *. discriminate. }
  destruct t as [|c t].
  - cbn [app] in E. symmetry. apply Hblank; [easy|]. subst s.
    assert (Hs : blank (a ++ b)) by (apply Forall_app; auto). rewrite E' in Hs.
    apply Forall_app in Hs as [_ Hs]. now apply Forall_app in Hs as [Hs _].
  - destruct t' as [|c' t'].
    + apply Hblank; [easy|]. subst s.
      assert (Hs : blank (a' ++ [] ++ b')) by (apply Forall_app; auto). rewrite <- E' in Hs.
      apply Forall_app in Hs as [_ Hs]. now apply Forall_app in Hs as [Hs _].
    + rewrite E in E'. apply trim_front_unique in E' as [_ E']; try easy.
      * apply (f_equal (@rev N)) in E'. rewrite !rev_app_distr in E'.
        apply trim_front_unique in E' as [_ E'].
        -- apply (f_equal (@rev N)) in E'. now rewrite !rev_involutive in E'.
        -- now apply Forall_rev.
        -- now apply Forall_rev.
        -- intros d u Ed. apply (H2 d (rev u)). rewrite <- (rev_involutive (c :: t)), Ed. reflexivity.
        -- intros d u Ed. apply (H2' d (rev u)). rewrite <- (rev_involutive (c' :: t')), Ed. reflexivity.
        -- intros Er. apply (f_equal (@length N)) in Er. rewrite rev_length in Er. discriminate.
        -- intros Er. apply (f_equal (@length N)) in Er. rewrite rev_length in Er. discriminate.
      * intros d u [= -> _]. now apply (H1 d t).
      * intros d u [= -> _]. now apply (H1' d t').
Qed.
Lemma trim_spec s t : trim_str s = t <-> trimmed s t.
Proof. split; [intros <-; apply trim_trimmed|]. intros H. exact (trimmed_unique _ _ _ (trim_trimmed s) H). Qed.
Lemma trim_blank s : trim_str s = [] <-> blank s.
Proof.
  rewrite trim_spec. split.
  - intros (a & b & -> & Ha & Hb & _). apply Forall_app. auto.
  - intros H. exists s, []. splits; [now rewrite app_nil_r|easy|constructor|discriminate|].
    intros c t' E. destruct t'; discriminate.
Qed.

(** including files *)
Lemma has_key_spec {A} k (l : list (str * A)) : has_key k l = true <-> In k (map fst l).
Proof.
  unfold has_key. rewrite existsb_exists, in_map_iff. split.
  - intros (x & Hx & E). apply chars_eqb_eq in E. exists x. auto.
  - intros (x & <- & Hx). exists x. split; [easy|]. now apply chars_eqb_eq.
Qed.
Lemma last_component_unique p c c' : last_component p c -> last_component p c' -> c = c'.
Proof. intros H H'. apply file_name_complete in H, H'. congruence. Qed.

Lemma service_file_not_passed e name s : service_file e name s -> ~ passed_over e.
Proof.
  intros (m & c & -> & Hf & Hc & Hh & Hs & _). cbn. intros [H|[H|(c' & H & c'' & H')]].
  - congruence.
  - now apply H in Hc.
  - rewrite (last_component_unique _ _ _ Hc H) in Hh. now apply Hh in H'.
Qed.

(** what including one entry does, by its kind *)
Inductive entry_kind (services : list (str * service_config)) (e : option matched) : Prop :=
| ek_skip : passed_over e -> include_one services e = Some services -> entry_kind services e
| ek_bad : ~ passed_over e -> (forall name s, ~ service_file e name s) ->
    include_one services e = None -> entry_kind services e
| ek_file name s : service_file e name s -> (forall name' s', service_file e name' s' -> name' = name /\ s' = s) ->
    include_one services e = (if has_key name services then None else Some (services ++ [(name, with_name s name)])) ->
    entry_kind services e.
Lemma include_one_kind services e : entry_kind services e.
Proof.
  destruct e as [m|]; [|apply ek_skip; [easy|reflexivity]].
  destruct (file_name (m_path m)) as [c|] eqn:Ef.
  2:{ apply ek_skip; [|cbn [include_one]; now rewrite Ef]. right; left.
      intros c H. apply file_name_complete in H. congruence. }
  assert (Hc : last_component (m_path m) c) by now apply file_name_sound.
  destruct (m_is_file m) eqn:Em.
  2:{ apply ek_skip; [now left|cbn [include_one]; now rewrite Ef, Em]. }
  destruct (match c with x :: _ => (x =? dot)%N | [] => false end) eqn:Eh.
  { apply ek_skip; [|cbn [include_one]; now rewrite Ef, Em, Eh].
    right; right. exists c. split; [easy|]. destruct c as [|x c]; [discriminate|].
    exists c. apply N.eqb_eq in Eh. now subst. }
  assert (Hh : forall c', c <> [dot] ++ c') by (intros c' ->; discriminate).
  assert (Hnp : ~ passed_over (Some m)).
  { cbn. intros [H|[H|(c' & H & c'' & H')]]; [congruence|now apply H in Hc|].
    rewrite (last_component_unique _ _ _ Hc H) in Hh. now apply Hh in H'. }
  assert (Hinc : include_one services (Some m) = match m_service m with
          | None => None
          | Some s =>
              match (match trim_str (s_name s) with [] => namewithoutext (m_path m) | _ => Some (trim_str (s_name s)) end) with
              | None => None
              | Some name =>
                  if has_key name services then None
                  else Some (services ++ [(name, with_name s name)])
              end
          end).
  { cbn [include_one]. rewrite Ef, Em, Eh. reflexivity. }
  destruct (m_service m) as [s|] eqn:Es.
  2:{ apply ek_bad; [easy| |easy]. intros name s (m' & c' & [= <-] & _ & _ & _ & H & _). congruence. }
  destruct (trim_str (s_name s)) as [|x t] eqn:Et.
  - apply trim_blank in Et. destruct (namewithoutext (m_path m)) as [name|] eqn:En.
    + apply ek_file with name s; [| |easy].
      * apply namewithoutext_spec in En as (c' & Hc' & Hst). exists m, c'. splits; try easy.
        -- now rewrite <- (last_component_unique _ _ _ Hc Hc').
        -- right. auto.
      * intros name' s' (m' & c' & [= <-] & _ & Hc' & _ & Es' & Hn). rewrite Es in Es'. injection Es' as <-.
        split; [|easy]. destruct Hn as [[Hn Hne]|[_ Hn]].
        -- apply trim_blank in Et. apply trim_spec in Hn. congruence.
        -- assert (E : namewithoutext (m_path m) = Some name') by (apply namewithoutext_spec; exists c'; auto). congruence.
    + apply ek_bad; [easy| |easy].
      intros name s' (m' & c' & [= <-] & _ & Hc' & _ & Es' & Hn). rewrite Es in Es'. injection Es' as <-.
      destruct Hn as [[Hn Hne]|[_ Hn]].
      * apply trim_blank in Et. apply trim_spec in Hn. congruence.
      * assert (E : namewithoutext (m_path m) = Some name) by (apply namewithoutext_spec; exists c'; auto). congruence.
  - apply ek_file with (x :: t) s; [| |easy].
    + exists m, c. splits; try easy. left. split; [now apply trim_spec|easy].
    + intros name' s' (m' & c' & [= <-] & _ & Hc' & _ & Es' & Hn). rewrite Es in Es'. injection Es' as <-.
      split; [|easy]. destruct Hn as [[Hn Hne]|[Hn _]].
      * apply trim_spec in Hn. congruence.
      * apply trim_blank in Hn. congruence.
Qed.

Lemma include_all_spec : forall es services services',
  include_all services es = Some services' <->
  exists added, gives es added /\ services' = services ++ added /\ NoDup (map fst added)
  /\ forall k, In k (map fst added) -> ~ In k (map fst services).
Proof.
  induction es as [|e es IH]; intros services services'; cbn [include_all].
  - split.
    + intros [= <-]. exists []. splits; [constructor|now rewrite app_nil_r|constructor|easy].
    + intros (added & H & -> & _). inversion H; subst. now rewrite app_nil_r.
  - destruct (include_one_kind services e) as [Hp E|Hnp Hno E|name s Hs Hu E]; rewrite E.
    + rewrite IH. split.
      * intros (added & H & H'). exists added. split; [now apply gives_skip|easy].
      * intros (added & H & H'). exists added. split; [|easy]. inversion H; subst; [easy|].
        exfalso. eapply service_file_not_passed; eassumption.
    + split; [discriminate|]. intros (added & H & _). exfalso. inversion H; subst; [easy|].
      eapply Hno; eassumption.
    + destruct (has_key name services) eqn:Ek.
      * split; [discriminate|]. intros (added & H & _ & _ & Hd). exfalso. inversion H; subst.
        -- eapply service_file_not_passed; eassumption.
        -- match goal with H : service_file _ _ _ |- _ => apply Hu in H as [-> ->] end.
           apply has_key_spec in Ek. apply (Hd name); [now left|easy].
      * rewrite IH. assert (Hnk : ~ In name (map fst services)).
        { intros Hi. apply has_key_spec in Hi. congruence. }
        split.
        -- intros (added & H & -> & Hn & Hd). exists ((name, with_name s name) :: added).
           splits; [now apply gives_add|now rewrite <- app_assoc| |].
           ++ cbn [map fst]. constructor; [|easy]. intros Hi. apply (Hd name Hi).
              rewrite map_app. apply in_or_app. right. now left.
           ++ intros k [<-|Hi]; [easy|]. intros Hk. apply (Hd k Hi). rewrite map_app. apply in_or_app. now left.
        -- intros (added & H & -> & Hn & Hd). inversion H as [|e' es' l Hp Hg|e' es' l name' s' Hf Hg]; subst.
           { exfalso. eapply service_file_not_passed; eassumption. }
           apply Hu in Hf as [-> ->]. exists l. cbn [map fst] in Hn, Hd. inversion Hn; subst.
           splits; [easy|now rewrite <- app_assoc|easy|].
           intros k Hi Hk. rewrite map_app in Hk. apply in_app_or in Hk as [Hk|[<-|[]]].
           ++ apply (Hd k); [now right|easy].
           ++ easy.
Qed.

(** fixing up the services *)
Lemma autofix_services_spec w tcp http : forall l slab l' slab',
  autofix_services w tcp http l slab = Some (l', slab') <->
  slab' = slab ++ repeat [] (length l) /\ length l' = length l
  /\ forall i k s, nth_error l i = Some (k, s) ->
     trim_str k <> [] /\ kind_ok w (s_kind s) = true
     /\ nth_error l' i = Some (k, ServiceConfig (length slab + i) (trim_str k) (s_host s) (s_kind s)
            (logging_autofix (s_logging s) (trim_str k) (length slab + i))
            (tcp_autofix (s_tcp s) (Some tcp)) (http_autofix (s_http s) (Some http))).
Proof.
  induction l as [|[k s] l IH]; intros slab l' slab'; cbn [autofix_services].
  - split.
    + intros [= <- <-]. splits; [now rewrite app_nil_r|easy|]. intros [|i]; discriminate.
    + intros (-> & H & _). destruct l'; [|discriminate]. cbn. now rewrite app_nil_r.
  - unfold service_autofix. destruct (trim_str k) as [|x t] eqn:Et.
    { split; [discriminate|]. intros (_ & _ & H). destruct (H 0 k s eq_refl) as [H' _]. congruence. }
    rewrite <- Et. destruct (kind_ok w (s_kind s)) eqn:Ek.
    2:{ split; [discriminate|]. intros (_ & _ & H). destruct (H 0 k s eq_refl) as (_ & H' & _). congruence. }
    destruct (autofix_services w tcp http l (slab ++ [[]])) as [[r' sl']|] eqn:E.
    + pose proof (proj1 (IH _ _ _) E) as (Hsl & Hlen & Hnth).
      rewrite app_length in Hnth. cbn [length] in Hnth.
      split.
      * intros [= <- <-]. splits.
        -- rewrite Hsl, <- app_assoc. reflexivity.
        -- cbn [length]. now f_equal.
        -- intros [|i] k' s'; cbn [nth_error].
           ++ intros [= <- <-]. splits; [congruence|easy|]. now rewrite Nat.add_0_r.
           ++ intros Hi. destruct (Hnth i k' s' Hi) as (H1 & H2 & H3). splits; [easy|easy|].
              rewrite H3. now replace (length slab + 1 + i) with (length slab + S i) by lia.
      * intros (H1 & H2 & H3). subst slab'. f_equal. f_equal.
        -- destruct l' as [|p l']; [discriminate|].
           pose proof (H3 0 k s eq_refl) as (_ & _ & H0). cbn [nth_error] in H0. rewrite Nat.add_0_r in H0.
           injection H0 as ->. f_equal.
           assert (Hr : forall i, nth_error r' i = nth_error l' i).
           { intros i. destruct (nth_error l i) as [[k' s']|] eqn:Ei.
             - destruct (Hnth i k' s' Ei) as (_ & _ & H4). destruct (H3 (S i) k' s' Ei) as (_ & _ & H5).
               cbn [nth_error] in H5. rewrite H4, H5. now replace (length slab + 1 + i) with (length slab + S i) by lia.
             - apply nth_error_None in Ei. cbn [length] in H2.
               rewrite (proj2 (nth_error_None r' i)) by lia. symmetry. apply nth_error_None. lia. }
           clear - Hr. revert l' Hr. induction r' as [|a r' IH]; intros [|b l'] Hr; [easy|..].
           ++ specialize (Hr 0). discriminate.
           ++ specialize (Hr 0). discriminate.
           ++ pose proof (Hr 0) as H0. cbn in H0. injection H0 as ->. f_equal. apply IH. intros i. exact (Hr (S i)).
        -- rewrite Hsl, <- app_assoc. reflexivity.
    + split; [discriminate|]. intros (H1 & H2 & H3). exfalso.
      destruct l' as [|p l']; [discriminate|].
      assert (Hx : None = Some (l', slab')); [|discriminate]. rewrite <- E. apply IH. splits.
      * rewrite H1, <- app_assoc. reflexivity.
      * cbn [length] in H2. lia.
      * intros i k' s' Hi. destruct (H3 (S i) k' s' Hi) as (H4 & H5 & H6). splits; [easy|easy|].
        cbn [nth_error] in H6. rewrite H6, app_length. cbn [length]. now replace (length slab + 1 + i) with (length slab + S i) by lia.
Qed.

(** names given twice *)
Lemma gives_in es l : gives es l -> forall e name s, In e es -> service_file e name s -> In name (map fst l).
Proof.
  induction 1 as [|e es l Hp H IH|e es l name s Hs H IH]; intros e' name' s' Hi Hf; [easy| |].
  - destruct Hi as [->|Hi]; [exfalso; eapply service_file_not_passed; eassumption|]. eapply IH; eassumption.
  - cbn [map fst]. destruct Hi as [->|Hi]; [left|right; eapply IH; eassumption].
    destruct (include_one_kind [] e') as [Hp _|_ Hno _|n t _ Hu _].
    + exfalso. eapply service_file_not_passed; eassumption.
    + exfalso. eapply Hno; eassumption.
    + apply Hu in Hs, Hf. destruct Hs as [-> _], Hf as [-> _]. easy.
Qed.
Lemma include_taken services es e name s : In e es -> service_file e name s -> In name (map fst services) ->
  include_all services es = None.
Proof.
  intros Hi Hf Hn. destruct (include_all services es) as [s'|] eqn:E; [|easy].
  apply include_all_spec in E as (added & Hg & _ & _ & Hd). exfalso.
  apply (Hd name); [|easy]. eapply gives_in; eassumption.
Qed.
Lemma gives_app a b l : gives (a ++ b) l -> exists la lb, l = la ++ lb /\ gives a la /\ gives b lb.
Proof.
  revert l; induction a as [|e a IH]; intros l H; cbn [app] in H.
  - exists [], l. splits; [easy|constructor|easy].
  - inversion H; subst; destruct (IH _ H4) as (la & lb & -> & Ha & Hb) || destruct (IH _ H5) as (la & lb & -> & Ha & Hb).
    + exists la, lb. splits; [easy|now apply gives_skip|easy].
    + eexists (_ :: la), lb. splits; [reflexivity|now apply gives_add|easy].
Qed.
Lemma include_twice services a b c e e' name s s' : service_file e name s -> service_file e' name s' ->
  include_all services (a ++ e :: b ++ e' :: c) = None.
Proof.
  intros He He'. destruct (include_all services _) as [r|] eqn:E; [|easy].
  apply include_all_spec in E as (added & Hg & _ & Hn & _). exfalso.
  apply gives_app in Hg as (la & lb & -> & _ & Hb).
  change (e :: b ++ e' :: c) with ([e] ++ b ++ e' :: c) in Hb.
  apply gives_app in Hb as (l1 & l2 & -> & H1 & H2).
  rewrite !map_app in Hn.
  assert (I1 : In name (map fst l1)) by (eapply gives_in; [exact H1|now left|exact He]).
  assert (I2 : In name (map fst l2)).
  { eapply gives_in; [exact H2| |exact He']. apply in_or_app. right. now left. }
  apply in_split in I1 as (p & q & E1). rewrite E1, <- app_assoc, app_assoc in Hn. cbn [app] in Hn.
  apply NoDup_remove_2 in Hn. apply Hn. apply in_or_app. right. apply in_or_app. now right.
Qed.

(** what a loaded configuration is made of *)
Record fixed (w : world) (before : list (str * service_config)) (c : config) : Prop := Fixed {
  fx_idx : map (fun e => s_idx (snd e)) (c_services c) = seq 1 (length before);
  fx_slab : c_slab c = repeat [] (S (length before));
  fx_keys : Permutation (map fst (c_services c)) (map fst before);
  fx_root : l_service_idx (c_logging c) = 0 /\ l_service_name (c_logging c) = [];
  fx_names : Forall (fun e => s_name (snd e) = trim_str (fst e) /\ s_name (snd e) <> []
               /\ l_service_name (s_logging (snd e)) = s_name (snd e)
               /\ l_service_idx (s_logging (snd e)) = s_idx (snd e)) (c_services c);
  fx_kept : forall k s, In (k, s) before -> exists s', In (k, s') (c_services c)
               /\ s_kind s' = s_kind s /\ s_host s' = s_host s
               /\ s_tcp s' = tcp_autofix (s_tcp s) (Some (c_tcp c))
               /\ s_http s' = http_autofix (s_http s) (Some (c_http c))
               /\ l_appenders (s_logging s') = l_appenders (s_logging s)
               /\ l_disable (s_logging s') = l_disable (s_logging s)
}.
Lemma nth_seq_ext {A B} (l : list A) (f : A -> B) (g : nat -> B) n0 :
  (forall i a, nth_error l i = Some a -> f a = g (n0 + i)) -> map f l = map g (seq n0 (length l)).
Proof.
  revert n0; induction l as [|a l IH]; intros n0 H; cbn [map length seq]; [easy|]. f_equal.
  - rewrite (H 0 a eq_refl). f_equal. lia.
  - apply IH. intros i x Hx. rewrite (H (S i) x Hx). f_equal. lia.
Qed.
Lemma config_autofix_fixed w c c' : world_ok w -> c_slab c = [] -> config_autofix w c = Some c' ->
  fixed w (c_services c) c'.
Proof.
  intros [Ho _] Hsl. unfold config_autofix. cbv zeta.
  destruct (autofix_services w _ _ _ _) as [[services slab]|] eqn:E; [|discriminate].
  intros [= <-]. apply autofix_services_spec in E as (Hslab & Hlen & Hnth). rewrite Hsl in *. cbn [app length] in *.
  pose proof (Ho (c_services c)) as Hp. set (l := e_order w (c_services c)) in *.
  assert (Hll : length l = length (c_services c)) by now apply Permutation_length.
  assert (Hget : forall i k s', nth_error services i = Some (k, s') -> exists s, nth_error l i = Some (k, s) /\
      trim_str k <> [] /\ s' = ServiceConfig (1 + i) (trim_str k) (s_host s) (s_kind s)
            (logging_autofix (s_logging s) (trim_str k) (1 + i))
            (tcp_autofix (s_tcp s) (Some (tcp_autofix (c_tcp c) None))) (http_autofix (s_http s) (Some (http_autofix (c_http c) None)))).
  { intros i k s' Hi. assert (Hlt : i < length l) by (rewrite <- Hlen; apply nth_error_Some; congruence).
    destruct (nth_error l i) as [[k0 s0]|] eqn:El; [|apply nth_error_None in El; lia].
    destruct (Hnth i k0 s0 El) as (H1 & _ & H2). rewrite H2 in Hi. injection Hi as <- <-. exists s0. auto. }
  constructor; cbn [c_services c_slab c_logging c_tcp c_http].
  - rewrite (nth_seq_ext services _ (fun i => i) 1).
    + rewrite map_id. f_equal. congruence.
    + intros i [k s'] Hi. apply Hget in Hi as (s & _ & _ & ->). reflexivity.
  - rewrite Hslab, Hll. reflexivity.
  - assert (Hk : map fst services = map fst l).
    { clear - Hget Hlen. apply nth_ext with (d := []) (d' := []); [now rewrite !map_length|].
      intros n Hn. rewrite map_length in Hn.
      destruct (nth_error services n) as [[k s']|] eqn:En; [|apply nth_error_None in En; lia].
      destruct (Hget n k s' En) as (s & El & _).
      rewrite !(nth_error_nth' _ [] ) || idtac.
      erewrite (nth_error_nth (map fst services)); [|erewrite map_nth_error; [reflexivity|exact En]].
      erewrite (nth_error_nth (map fst l)); [|erewrite map_nth_error; [reflexivity|exact El]]. reflexivity. }
    rewrite Hk. now apply Permutation_map.
  - split; reflexivity.
  - apply Forall_forall. intros [k s'] Hi. apply In_nth_error in Hi as [i Hi].
    apply Hget in Hi as (s & _ & Hne & ->). cbn. splits; easy.
  - intros k s Hi. apply (Permutation_in _ (Permutation_sym Hp)) in Hi. apply In_nth_error in Hi as [i Hi].
    destruct (Hnth i k s Hi) as (_ & _ & H). eexists. split; [eapply nth_error_In; exact H|]. cbn. splits; easy.
Qed.

Lemma include_patterns_keys w : forall ps services services', include_patterns w services ps = Some services' ->
  NoDup (map fst services) -> NoDup (map fst services') /\ exists added, services' = services ++ added.
Proof.
  induction ps as [|p ps IH]; intros services services'; cbn [include_patterns].
  - intros [= <-] H. split; [easy|]. exists []. now rewrite app_nil_r.
  - unfold include_pattern. destruct (e_glob w p) as [es|]; [|discriminate].
    destruct (include_all services es) as [s1|] eqn:E; [|discriminate].
    apply include_all_spec in E as (added & _ & -> & Hn & Hd). intros H Hns.
    apply IH in H as [H1 (added' & ->)].
    + split; [easy|]. exists (added ++ added'). now rewrite app_assoc.
    + rewrite map_app. clear - Hns Hn Hd. revert Hns Hd. generalize (map fst services) as l.
      induction l as [|k l IHl]; intros Hns Hd; [easy|]. cbn [app]. inversion Hns; subst. constructor.
      * intros Hi. apply in_app_or in Hi as [Hi|Hi]; [easy|]. apply (Hd k Hi). now left.
      * apply IHl; [easy|]. intros k' Hk Hi. apply (Hd k' Hk). now right.
Qed.
Lemma include_include w c : match c_include c with
    | [] => Some (c_services c) | p => include_pattern w (c_services c) p end = include_patterns w (c_services c)
    (match c_include c with [] => [] | p => [p] end).
Proof.
  destruct (c_include c) as [|x p]; [easy|]. cbn [include_patterns].
  destruct (include_pattern w (c_services c) (x :: p)); reflexivity.
Qed.
Lemma include_patterns_app w a b services : include_patterns w services (a ++ b) =
  match include_patterns w services a with Some s => include_patterns w s b | None => None end.
Proof.
  revert services; induction a as [|p a IH]; intros services; cbn [include_patterns app]; [easy|].
  destruct (include_pattern w services p); [apply IH|easy].
Qed.
Lemma config_load_eq w fp c0 : e_file w fp = Some c0 ->
  config_load w fp =
    if match c_workdir c0 with [] => false | d => negb (e_chdir w d) end then None
    else match include_patterns w (c_services c0) (patterns c0) with
         | None => None
         | Some services2 => config_autofix w (set_services c0
             (match services2 with [] => [(chars "helloworld", hello_service)] | l => l end))
         end.
Proof.
  intros E. unfold config_load. rewrite E. destruct (match c_workdir c0 with [] => false | d => negb (e_chdir w d) end); [easy|].
  unfold patterns. rewrite include_patterns_app, <- include_include.
  destruct (match c_include c0 with [] => Some (c_services c0) | p => include_pattern w (c_services c0) p end); reflexivity.
Qed.

Lemma loaded w arg c : world_ok w -> load_config w arg = Some c ->
  exists before, fixed w before c /\ NoDup (map fst before).
Proof.
  intros Hw. unfold load_config. destruct (trim_str arg) as [|x t] eqn:Et.
  - intros H. exists []. split; [|constructor]. now apply config_autofix_fixed in H.
  - intros H. destruct (e_file w arg) as [c0|] eqn:Ef; [|unfold config_load in H; rewrite Ef in H; discriminate].
    rewrite (config_load_eq w arg c0 Ef) in H.
    destruct (proj2 Hw arg c0 Ef) as [Hn Hs].
    destruct (match c_workdir c0 with [] => false | d => negb (e_chdir w d) end); [discriminate|].
    destruct (include_patterns w (c_services c0) (patterns c0)) as [s2|] eqn:E2; [|discriminate].
    apply include_patterns_keys in E2 as [Hn2 _]; [|easy].
    apply config_autofix_fixed in H; [|easy|easy]. cbn [set_services c_services] in H.
    eexists. split; [exact H|]. destruct s2; [|easy]. repeat constructor. intros [].
Qed.
Lemma loaded_file w fp c0 c : world_ok w -> e_file w fp = Some c0 -> config_load w fp = Some c ->
  exists added, fixed w (match c_services c0 ++ added with [] => [(chars "helloworld", hello_service)] | l => l end) c.
Proof.
  intros Hw Ef H. rewrite (config_load_eq w fp c0 Ef) in H.
  destruct (proj2 Hw fp c0 Ef) as [Hn Hs].
  destruct (match c_workdir c0 with [] => false | d => negb (e_chdir w d) end); [discriminate|].
  destruct (include_patterns w (c_services c0) (patterns c0)) as [s2|] eqn:E2; [|discriminate].
  apply include_patterns_keys in E2 as [Hn2 (added & ->)]; [|easy].
  apply config_autofix_fixed in H; [|easy|easy]. exists added. cbn [set_services c_services] in H.
  destruct (c_services c0 ++ added); exact H.
Qed.

(** C45 *)
Lemma indices w arg c : world_ok w -> load_config w arg = Some c ->
  NoDup (map (fun e => s_idx (snd e)) (c_services c))
  /\ Forall (fun e => 0 < s_idx (snd e) < length (c_slab c) /\ l_service_idx (s_logging (snd e)) = s_idx (snd e)) (c_services c)
  /\ l_service_idx (c_logging c) = 0.
Proof.
  intros Hw H. destruct (loaded w arg c Hw H) as (before & Hf & _). destruct Hf as [Hi Hs Hk Hr Hn _].
  splits.
  - rewrite Hi. apply seq_NoDup.
  - apply Forall_forall. intros e He. rewrite Forall_forall in Hn. split; [|now apply Hn].
    assert (Hin : In (s_idx (snd e)) (seq 1 (length before))) by (rewrite <- Hi; apply in_map_iff; eauto).
    apply in_seq in Hin. rewrite Hs, repeat_length. lia.
  - easy.
Qed.

(** C47 *)
Lemma names_trimmed w arg c : world_ok w -> load_config w arg = Some c ->
  NoDup (map fst (c_services c))
  /\ Forall (fun e => trimmed (fst e) (s_name (snd e)) /\ s_name (snd e) <> []) (c_services c).
Proof.
  intros Hw H. destruct (loaded w arg c Hw H) as (before & Hf & Hnd). destruct Hf as [Hi Hs Hk Hr Hn _].
  split.
  - eapply Permutation_NoDup; [apply Permutation_sym, Hk|exact Hnd].
  - eapply Forall_impl; [|exact Hn]. intros e (H1 & H2 & _). split; [|easy]. rewrite H1. apply trim_trimmed.
Qed.

Lemma include_nothing w : forall ps services,
  Forall (fun p => exists es, e_glob w p = Some es /\ Forall passed_over es) ps ->
  include_patterns w services ps = Some services.
Proof.
  induction ps as [|p ps IH]; intros services H; cbn [include_patterns]; [easy|].
  inversion H as [|? ? (es & Eg & Hes) Hps]; subst. unfold include_pattern. rewrite Eg.
  assert (E : include_all services es = Some services).
  { apply include_all_spec. exists []. splits; [|now rewrite app_nil_r|constructor|easy].
    clear - Hes. induction Hes; [constructor|now apply gives_skip]. }
  rewrite E. now apply IH.
Qed.
(** C72 *)
Lemma hello_default w fp c0 : world_ok w -> ~ blank fp -> e_file w fp = Some c0 -> c_services c0 = [] ->
  (c_workdir c0 <> [] -> e_chdir w (c_workdir c0) = true) ->
  Forall (fun p => exists es, e_glob w p = Some es /\ Forall passed_over es) (patterns c0) ->
  exists c s, load_config w fp = Some c /\ c_services c = [(chars "helloworld", s)]
    /\ s_kind s = HelloService /\ t_addr (s_tcp s) = B "0.0.0.0:8080" /\ s_name s = chars "helloworld"
    /\ s_host s = chars "*" /\ tls_cert (t_tls (s_tcp s)) = [] /\ tls_key (t_tls (s_tcp s)) = [].
Proof.
  intros Hw Hb Ef Hs Hc Hp. unfold load_config.
  destruct (trim_str fp) as [|x t] eqn:Et; [apply trim_blank in Et; contradiction|].
  rewrite (config_load_eq w fp c0 Ef).
  destruct (match c_workdir c0 with [] => false | d => negb (e_chdir w d) end) eqn:Ew.
  { destruct (c_workdir c0) as [|y d]; [discriminate|]. rewrite Hc in Ew by easy. discriminate. }
  rewrite (include_nothing w _ _ Hp), Hs.
  unfold config_autofix. cbn [set_services c_services c_slab c_tcp c_http c_logging c_runtime c_workdir c_logpath c_loglevel c_include c_includes].
  pose proof (proj1 Hw [(chars "helloworld", hello_service)]) as Ho.
  apply Permutation_sym, Permutation_length_1_inv in Ho. rewrite Ho.
  cbn [autofix_services]. change (trim_str (chars "helloworld")) with (chars "helloworld").
  change (chars "helloworld") with (104%N :: chars "elloworld") at 1. cbv iota.
  unfold service_autofix, kind_ok, hello_service. cbn [s_kind]. cbv iota.
  eexists. eexists. split; [reflexivity|]. cbn [c_services]. split; [reflexivity|].
  cbn [s_kind s_tcp s_name s_host t_addr t_tls tls_cert tls_key tcp_autofix tls_autofix]. splits; reflexivity.
Qed.

(** C46 for whole configurations *)
Lemma include_patterns_taken w p es e name s : forall ps services,
  In p ps -> e_glob w p = Some es -> In e es -> service_file e name s -> In name (map fst services) ->
  include_patterns w services ps = None.
Proof.
  induction ps as [|q ps IH]; intros services Hp Hg He Hf Hn; [easy|]. cbn [include_patterns].
  destruct (include_pattern w services q) as [services'|] eqn:E; [|easy].
  unfold include_pattern in E. destruct Hp as [->|Hp].
  - rewrite Hg in E. rewrite (include_taken services es e name s He Hf Hn) in E. discriminate.
  - apply IH; [easy|easy|easy|easy|]. destruct (e_glob w q) as [eq|]; [|discriminate].
    apply include_all_spec in E as (added & _ & -> & _). rewrite map_app. apply in_or_app. now left.
Qed.
Lemma load_taken w fp c0 p es e name s : ~ blank fp -> e_file w fp = Some c0 ->
  In p (patterns c0) -> e_glob w p = Some es -> In e es -> service_file e name s ->
  In name (map fst (c_services c0)) -> load_config w fp = None.
Proof.
  intros Hb Ef Hp Hg He Hs Hn. unfold load_config.
  destruct (trim_str fp) as [|x t] eqn:Et; [apply trim_blank in Et; contradiction|].
  rewrite (config_load_eq w fp c0 Ef), (include_patterns_taken w p es e name s _ _ Hp Hg He Hs Hn).
  now destruct (match c_workdir c0 with [] => false | d => negb (e_chdir w d) end).
Qed.
Lemma load_keeps w fp c0 c k s : world_ok w -> ~ blank fp -> e_file w fp = Some c0 -> load_config w fp = Some c ->
  In (k, s) (c_services c0) -> exists s', In (k, s') (c_services c)
               /\ s_kind s' = s_kind s /\ s_host s' = s_host s
               /\ s_tcp s' = tcp_autofix (s_tcp s) (Some (c_tcp c))
               /\ s_http s' = http_autofix (s_http s) (Some (c_http c))
               /\ l_appenders (s_logging s') = l_appenders (s_logging s)
               /\ l_disable (s_logging s') = l_disable (s_logging s).
Proof.
  intros Hw Hb Ef Hl Hi. unfold load_config in Hl.
  destruct (trim_str fp) as [|x t] eqn:Et; [apply trim_blank in Et; contradiction|].
  destruct (loaded_file w fp c0 c Hw Ef Hl) as (added & Hf). apply (fx_kept _ _ _ Hf).
  destruct (c_services c0 ++ added) as [|y l] eqn:E; [now destruct (c_services c0)|].
  rewrite <- E. apply in_or_app. now left.
Qed.
Lemma names_unique w arg c : world_ok w -> load_config w arg = Some c ->
  Forall (fun e => trimmed (fst e) (fst e)) (c_services c) -> NoDup (map (fun e => s_name (snd e)) (c_services c)).
Proof.
  intros Hw Hl Hk. destruct (names_trimmed w arg c Hw Hl) as [Hn Ht].
  assert (E : map (fun e => s_name (snd e)) (c_services c) = map fst (c_services c)); [|now rewrite E].
  apply map_ext_in. intros e He. rewrite Forall_forall in Hk, Ht. specialize (Hk e He). destruct (Ht e He) as [H _].
  apply trim_spec in H, Hk. congruence.
Qed.
