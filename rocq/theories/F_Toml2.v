(** Reading configuration files: crashes, unknown settings, and from files to configurations. *)
From Verif Require Import F_Load F_Units.
From Verif Require Export F_Toml.
Local Open Scope string_scope.
Local Open Scope list_scope.

(** ** Crashes *)
Section Crash.
Variable bad : str -> Prop.
(** a value, or a crash because of a text *)
Definition fine {A} (P : str -> Prop) (o : outcome A) : Prop :=
  match o with Ret _ => True | Panic => exists s, P s /\ bad s | _ => False end.
Definition sound {A} (d : de A) : Prop := forall t, fine (holds_text t) (d t).
Lemma fine_weaken {A} (P Q : str -> Prop) (o : outcome A) : (forall s, P s -> Q s) -> fine P o -> fine Q o.
Proof. intros H. destruct o; cbn; auto. intros (s & H1 & H2). eauto. Qed.
Lemma fine_bind {A B} P (o : outcome A) (f : A -> outcome B) : fine P o -> (forall a, fine P (f a)) -> fine P (a <- o ;; f a).
Proof. intros H Hf. destruct o; cbn in *; auto. Qed.
Lemma sound_ret {A} (f : toml -> option A) : sound (fun t => Ret (f t)).
Proof. intros t. exact I. Qed.
Lemma sound_fmap {A B} (f : A -> B) d : sound d -> sound (de_fmap f d).
Proof. intros H t. apply fine_bind; [apply H|]. intros a. exact I. Qed.
Lemma sound_all {A} (d : de A) l : sound d -> fine (fun s => exists t, In t l /\ holds_text t s) (de_all d l).
Proof.
  intros H. induction l as [|t l IH]; [exact I|]. cbn [de_all]. apply fine_bind.
  - eapply fine_weaken; [|apply H]. intros s Hs. exists t. cbn. auto.
  - intros [a|]; [|exact I]. apply fine_bind; [|intros; exact I]. eapply fine_weaken; [|exact IH].
    intros s (t' & H1 & H2). exists t'. cbn. auto.
Qed.
Lemma sound_vec {A} (d : de A) : sound d -> sound (de_vec d).
Proof.
  intros H t. destruct t as [| | | | |l|]; try exact I. eapply fine_weaken; [|apply sound_all, H].
  intros s (t & H1 & H2). eapply text_in_array; eauto.
Qed.
Lemma sound_entries {A} (d : de A) l : sound d -> fine (fun s => exists e, In e l /\ holds_text (snd e) s) (de_entries d l).
Proof.
  intros H. induction l as [|[k t] l IH]; [exact I|]. cbn [de_entries]. apply fine_bind.
  - eapply fine_weaken; [|apply H]. intros s Hs. exists (k, t). cbn. auto.
  - intros [a|]; [|exact I]. apply fine_bind; [|intros; exact I]. eapply fine_weaken; [|exact IH].
    intros s (e & H1 & H2). exists e. cbn. auto.
Qed.
(** a date is not a text for the numbers in it: nothing that can crash is read from one *)
Lemma sound_table {A} (d : de A) : sound d -> (forall s, fine (fun _ => False) (d (TStr s))) -> sound (de_table d).
Proof.
  intros H Hs t. destruct t as [| | | |x| |l]; try exact I; cbn [de_table].
  - cbn [de_entries]. specialize (Hs x). destruct (d (TStr x)) as [[a|]| | | |]; cbn in *; auto. now destruct Hs as (? & [] & _).
  - eapply fine_weaken; [|apply sound_entries, H]. intros s (e & H1 & H2). eapply text_in_table; eauto.
Qed.
Definition sound_field {R} (f : tfield R) : Prop := sound (fd_de f) /\ called private_key f = false.
Lemma sound_visit {R} (fs : list (tfield R)) l : Forall sound_field fs -> forall seen r,
  fine (fun s => exists e, In e l /\ holds_text (snd e) s) (visit_entries fs l seen r).
Proof.
  intros F. induction l as [|[k t] l IH]; intros seen r; [exact I|]. cbn [visit_entries].
  assert (W : forall seen r, fine (fun s => exists e, In e ((k, t) :: l) /\ holds_text (snd e) s) (visit_entries fs l seen r)).
  { intros. eapply fine_weaken; [|apply IH]. intros s (e & H1 & H2). exists e. cbn. auto. }
  destruct (find (called k) fs) as [f|] eqn:Ef; [|apply W]. destruct (existsb _ seen); [exact I|].
  apply find_some in Ef as [Hf _]. rewrite Forall_forall in F. destruct (F f Hf) as [Hs _]. apply fine_bind.
  - unfold read_field. apply fine_bind; [|intros; exact I]. eapply fine_weaken; [|apply Hs]. intros s H. exists (k, t). cbn. auto.
  - intros [r'|]; [apply W|exact I].
Qed.
Lemma sound_elements {R} (fs : list (tfield R)) : Forall sound_field fs -> forall l r,
  fine (fun s => exists t, In t l /\ holds_text t s) (visit_elements fs l r).
Proof.
  induction 1 as [|f fs [Hf _] F IH]; intros l r; [exact I|]. cbn [visit_elements]. destruct l as [|t l]; [exact I|]. apply fine_bind.
  - unfold read_field. apply fine_bind; [|intros; exact I]. eapply fine_weaken; [|apply Hf]. intros s H. exists t. cbn. auto.
  - intros [r'|]; [|exact I]. eapply fine_weaken; [|apply IH]. intros s (e & H1 & H2). exists e. cbn. auto.
Qed.
Lemma visit_date {R} (fs : list (tfield R)) x r : Forall sound_field fs -> visit_entries fs [(private_key, TStr x)] [] r = Ret (Some r).
Proof.
  intros F. cbn [visit_entries]. destruct (find (called private_key) fs) as [f|] eqn:E; [|reflexivity].
  apply find_some in E as [E1 E2]. rewrite Forall_forall in F. destruct (F f E1) as [_ Hp]. congruence.
Qed.
Lemma sound_struct {R} (fs : list (tfield R)) base : Forall sound_field fs -> sound (de_struct fs base).
Proof.
  intros F t. destruct t as [| | | |x|l|l]; try exact I; cbn [de_struct].
  - now rewrite (visit_date fs x base F).
  - eapply fine_weaken; [|apply sound_elements, F]. intros s (e & H1 & H2). eapply text_in_array; eauto.
  - eapply fine_weaken; [|apply sound_visit, F]. intros s (e & H1 & H2). eapply text_in_table; eauto.
Qed.
Lemma struct_of_text {R} (fs : list (tfield R)) base s : fine (fun _ => False) (de_struct fs base (TStr s)).
Proof. exact I. Qed.
Lemma sound_variant {R} (fs : list (tfield R)) base : Forall sound_field fs -> sound (de_variant fs base).
Proof. intros F t. unfold de_variant. destruct (match t with TTable _ => _ | _ => true end); [now apply sound_struct|exact I]. Qed.
Lemma sound_enum {E} rd (vs : list (variant E)) : Forall (fun v => sound (va_de v)) vs -> sound (de_enum rd vs).
Proof.
  intros F t. destruct t as [| | | | | |[|[k d] rest]]; try exact I. cbn [de_enum]. destruct (_ && _); [exact I|].
  destruct (find_variant vs k) as [v|] eqn:Ev; [|exact I]. apply find_variant_in in Ev as [Ev _]. rewrite Forall_forall in F.
  eapply fine_weaken; [|apply (F v Ev)]. intros s H. eapply text_in_table; [now left|exact H].
Qed.
End Crash.

Section Crashing.
Variable rd : reading.
Hypothesis Hrd : release rd.
Let bad := crashing (rd_unicode rd).
Lemma size_fine s : fine bad (eq s) (size_string (rd_unicode rd) false s).
Proof.
  destruct Hrd as [_ Hu]. destruct s as [|c0 s0]; [exact I|]. set (s := c0 :: s0).
  pose proof (units_total _ _ size_table_for size_spaceless _ s Hu ltac:(discriminate)) as H. unfold size_string.
  destruct (unspaced s) as [|c t] eqn:E; [now rewrite H|]. destruct (is_numeric (rd_unicode rd) c) eqn:Ec.
  - destruct H as [H|(vs & H)]; [now rewrite H|].
    rewrite (proj2 (units_exact _ _ size_table_for size_spaceless _ s _ Hu) (or_intror (ex_intro _ vs (conj H eq_refl)))). exact I.
  - rewrite H. exists s. split; [reflexivity|]. exists c, t. auto.
Qed.
Lemma duration_fine s : fine bad (eq s) (duration_string (rd_unicode rd) false s).
Proof.
  destruct Hrd as [_ Hu]. destruct s as [|c0 s0]; [exact I|]. set (s := c0 :: s0).
  pose proof (units_total _ _ duration_table_for duration_spaceless _ s Hu ltac:(discriminate)) as H. unfold duration_string.
  destruct (unspaced s) as [|c t] eqn:E; [now rewrite H|]. destruct (is_numeric (rd_unicode rd) c) eqn:Ec.
  - destruct H as [H|(vs & H)]; [now rewrite H|].
    rewrite (proj2 (units_exact _ _ duration_table_for duration_spaceless _ s _ Hu) (or_intror (ex_intro _ vs (conj H eq_refl)))). exact I.
  - rewrite H. exists s. split; [reflexivity|]. exists c, t. auto.
Qed.
Lemma sound_size : sound bad (de_size rd).
Proof.
  intros t. unfold de_size. destruct Hrd as [-> _]. destruct t; try exact I. eapply fine_weaken; [|apply size_fine].
  intros x <-. constructor.
Qed.
Lemma sound_duration : sound bad (de_duration rd).
Proof.
  intros t. unfold de_duration. destruct Hrd as [-> _]. destruct t; try exact I. eapply fine_weaken; [|apply duration_fine].
  intros x <-. constructor.
Qed.
Lemma sound_string : sound bad de_string. Proof. intros t. exact I. Qed.
Lemma sound_bool : sound bad de_bool. Proof. intros t. exact I. Qed.
Lemma sound_match : sound bad de_match. Proof. intros t. exact I. Qed.
Lemma sound_u32 : sound bad de_u32. Proof. intros t. exact I. Qed.
Lemma sound_i32 : sound bad de_i32. Proof. intros t. exact I. Qed.
Lemma sound_bytes : sound bad de_bytes. Proof. apply sound_fmap, sound_string. Qed.
Lemma sound_opt {A} (d : de A) : sound bad d -> sound bad (de_opt d). Proof. apply sound_fmap. Qed.
Lemma sound_unused {A} (d : de A) : sound bad d -> sound bad (unused d). Proof. apply sound_fmap. Qed.
Lemma sound_empty {E} (e : E) : sound bad (de_empty e). Proof. intros t. exact I. Qed.
Hint Resolve sound_size sound_duration sound_string sound_bool sound_match sound_u32 sound_i32 sound_bytes sound_opt sound_unused sound_empty sound_fmap sound_vec : toml.
Ltac fields_by := repeat (apply Forall_nil || apply Forall_cons); (split; [cbn [fd_de fd_type aside]; auto with toml|vm_compute; reflexivity]).
Ltac variants_by := repeat (apply Forall_nil || apply Forall_cons); cbn [va_de]; auto with toml.
Lemma sound_ws : sound bad (de_ws rd). Proof. apply sound_struct. fields_by. Qed.
Hint Resolve sound_ws : toml.
Lemma sound_http : sound bad (de_http rd). Proof. apply sound_struct. fields_by. Qed.
Lemma sound_tls : sound bad (de_tls rd). Proof. apply sound_struct. fields_by. Qed.
Hint Resolve sound_http sound_tls : toml.
Lemma sound_tcp : sound bad (de_tcp rd). Proof. apply sound_struct. fields_by. Qed.
Lemma sound_runtime : sound bad de_runtime. Proof. apply sound_struct. fields_by. Qed.
Lemma sound_console : sound bad (de_variant console_fields None). Proof. apply sound_variant. fields_by. Qed.
Lemma sound_log_file : sound bad (de_variant (file_fields rd) (LogFile None None false 0)). Proof. apply sound_variant. fields_by. Qed.
Hint Resolve sound_tcp sound_runtime sound_console sound_log_file : toml.
Lemma sound_appender : sound bad (de_appender rd). Proof. apply sound_enum. variants_by. Qed.
Hint Resolve sound_appender : toml.
Lemma sound_logging : sound bad (de_logging rd). Proof. apply sound_struct. fields_by. Qed.
Lemma sound_rewrite : sound bad de_rewrite. Proof. apply sound_struct. constructor. Qed.
Lemma sound_body : sound bad (de_enum rd body_variants). Proof. apply sound_enum. variants_by. Qed.
Hint Resolve sound_logging sound_rewrite sound_body : toml.
Lemma sound_response : sound bad (de_struct (response_fields rd) tt). Proof. apply sound_struct. fields_by. Qed.
Hint Resolve sound_response : toml.
Lemma sound_early_return : sound bad (de_struct (early_fields rd) tt). Proof. apply sound_struct. fields_by. Qed.
Hint Resolve sound_early_return : toml.
Lemma sound_early : sound bad (de_early rd). Proof. unfold de_early. auto with toml. Qed.
Lemma sound_rule : sound bad de_rule. Proof. apply sound_struct. fields_by. Qed.
Hint Resolve sound_early sound_rule : toml.
Lemma sound_rewrites : sound bad (de_table de_rewrite). Proof. apply sound_table; auto with toml. intros s. exact I. Qed.
Lemma sound_rules : sound bad (de_table de_rule). Proof. apply sound_table; auto with toml. intros s. exact I. Qed.
Hint Resolve sound_rewrites sound_rules : toml.
Lemma sound_hello : sound bad (de_variant (hello_fields rd) tt). Proof. apply sound_variant. fields_by. Qed.
Lemma sound_fs : sound bad (de_variant (fs_fields rd) []). Proof. apply sound_variant. fields_by. Qed.
Lemma sound_forward : sound bad (de_variant (forward_fields rd) tt). Proof. apply sound_variant. fields_by. Qed.
Lemma sound_upstream : sound bad (de_variant (upstream_fields rd) tt). Proof. apply sound_variant. fields_by. Qed.
Hint Resolve sound_hello sound_fs sound_forward sound_upstream : toml.
Lemma sound_kind : sound bad (de_kind rd). Proof. apply sound_enum. variants_by. Qed.
Hint Resolve sound_kind : toml.
Lemma sound_service : sound bad (de_service rd). Proof. apply sound_struct. fields_by. Qed.
Hint Resolve sound_service : toml.
Lemma sound_services : sound bad (de_table (de_service rd)). Proof. apply sound_table; auto with toml. intros s. exact I. Qed.
Hint Resolve sound_services : toml.
Lemma sound_config : sound bad (de_config rd). Proof. apply sound_struct. fields_by. Qed.
End Crashing.

(** ** Unknown settings *)
Lemma visit_unknown {R} (fs : list (tfield R)) l2 k v : Forall (fun f => called k f = false) fs -> forall l1 seen r,
  visit_entries fs (l1 ++ (k, v) :: l2) seen r = visit_entries fs (l1 ++ l2) seen r.
Proof.
  intros F.
  assert (N : find (called k) fs = None).
  { induction F as [|f fs Hf F IH]; [reflexivity|]. cbn [find]. now rewrite Hf. }
  assert (S : forall l seen seen' r, (forall f, In f fs -> existsb (fun k' => called k' f) seen = existsb (fun k' => called k' f) seen') ->
            visit_entries fs l seen r = visit_entries fs l seen' r).
  { induction l as [|[k' t] l IH]; intros seen seen' r H; [reflexivity|]. cbn [visit_entries].
    assert (H' : forall f, In f fs -> existsb (fun k'0 => called k'0 f) (k' :: seen) = existsb (fun k'0 => called k'0 f) (k' :: seen')).
    { intros f Hf. cbn [existsb]. now rewrite H. }
    destruct (find (called k') fs) as [f|] eqn:E; [|now apply IH]. apply find_some in E as [Ef _]. rewrite (H f Ef).
    destruct (existsb _ seen'); [reflexivity|]. destruct (read_field f t r) as [[r'|]| | | |]; cbn [obind]; auto. }
  induction l1 as [|[k' t] l1 IH]; intros seen r; cbn [app visit_entries].
  - rewrite N. apply S. intros f Hf. cbn [existsb]. rewrite Forall_forall in F. now rewrite F.
  - destruct (find (called k') fs) as [f|]; [|apply IH]. destruct (existsb _ seen); [reflexivity|].
    destruct (read_field f t r) as [[r'|]| | | |]; cbn [obind]; auto.
Qed.
(** two values that every setting of that name reads alike *)
Lemma visit_same {R} (fs : list (tfield R)) l2 k t t' : Forall (fun f => called k f = true -> fd_de f t = fd_de f t') fs -> forall l1 seen r,
  visit_entries fs (l1 ++ (k, t) :: l2) seen r = visit_entries fs (l1 ++ (k, t') :: l2) seen r.
Proof.
  intros F. induction l1 as [|[k' x] l1 IH]; intros seen r; cbn [app visit_entries].
  - destruct (find (called k) fs) as [f|] eqn:E; [|reflexivity]. apply find_some in E as [E1 E2]. rewrite Forall_forall in F.
    unfold read_field. now rewrite (F f E1 E2).
  - destruct (find (called k') fs) as [f|]; [|apply IH]. destruct (existsb _ seen); [reflexivity|].
    destruct (read_field f x r) as [[r'|]| | | |]; cbn [obind]; auto.
Qed.
Lemma entries_same {A} (d : de A) n t t' e2 : d t = d t' -> forall e1, de_entries d (e1 ++ (n, t) :: e2) = de_entries d (e1 ++ (n, t') :: e2).
Proof. intros H. induction e1 as [|[k x] e1 IH]; cbn [app de_entries]; [now rewrite H|]. now rewrite IH. Qed.
Lemma unknown_fields {R} (fs : list (tfield R)) (ss : list (setting R)) k : map fd_names fs = map st_names ss -> ~ one_of (names_of ss) k ->
  Forall (fun f => called k f = false) fs.
Proof.
  intros E H. apply Forall_forall. intros f Hf. unfold called. destruct (is_one_of k (fd_names f)) eqn:C; [|reflexivity].
  apply is_one_of_spec in C as (n & Hn & ->). exfalso. apply H. exists n. split; [|reflexivity]. unfold names_of.
  apply in_concat. exists (fd_names f). split; [|exact Hn]. rewrite <- E. now apply in_map.
Qed.
Definition reads_alike (rd : reading) (sec : section) (t t' : toml) : Prop :=
  match sec with
  | SMain => de_config rd t = de_config rd t'
  | SService => de_service rd t = de_service rd t'
  | SHttp => de_http rd t = de_http rd t'
  | SWebsocket => de_ws rd t = de_ws rd t'
  | STcp => de_tcp rd t = de_tcp rd t'
  | STls => de_tls rd t = de_tls rd t'
  | SRuntime => de_runtime t = de_runtime t'
  | SLogging => de_logging rd t = de_logging rd t'
  end.
Ltac not_called k Hk := exfalso; destruct Hk as (n & Hn & ->);
  cbn [In] in Hn; repeat destruct Hn as [<-|Hn]; try contradiction.
Lemma alike rd sec t t' : adds_unknown (rd_first rd) sec t t' -> reads_alike rd sec t t'.
Proof.
  induction 1 as [sec l1 k v l2 H|sec names sub l1 k t t' l2 Hin Hk H IH|l1 k e1 n t t' e2 l2 Hk H IH].
  - destruct sec; cbn [reads_alike]; symmetry;
      (apply (visit_unknown _ l2 k v); eapply unknown_fields; [|exact H]; reflexivity).
  - assert (X : forall R (fs : list (tfield R)) base, Forall (fun f => called k f = true -> fd_de f t = fd_de f t') fs ->
              de_struct fs base (TTable (l1 ++ (k, t) :: l2)) = de_struct fs base (TTable (l1 ++ (k, t') :: l2))).
    { intros R fs base F. now apply visit_same. }
    destruct Hk as (n & Hn & ->).
    destruct sec; cbn [within] in Hin; cbn [In] in Hin;
      repeat (destruct Hin as [Hin|Hin]; [injection Hin as <- <-|]); try contradiction; cbn [reads_alike] in *; apply X;
      cbn [In] in Hn; repeat (destruct Hn as [<-|Hn]); try contradiction;
      (repeat (apply Forall_nil || apply Forall_cons); intros C; vm_compute in C; try discriminate; cbn [fd_de]; first [exact IH|unfold de_opt, de_fmap; now rewrite IH]).
  - cbn [reads_alike] in *. apply visit_same. destruct Hk as (m & Hm & ->).
    cbn [In] in Hm; repeat (destruct Hm as [<-|Hm]); try contradiction;
      (repeat (apply Forall_nil || apply Forall_cons); intros C; vm_compute in C; try discriminate; cbn [fd_de]; unfold de_table; now apply entries_same).
Qed.

(** ** From files to configurations *)
Section Bridge.
Variable rd : reading.
Hypothesis Hrd : release rd.
Let bad := crashing (rd_unicode rd).
Let w z := world_of rd z.

Lemma read_all_ret es : forall services o, read_all rd services es = Ret o -> include_all services (map (option_map (matched_of rd)) es) = o.
Proof.
  induction es as [|e es IH]; intros services o; cbn [read_all map include_all]; [now intros [= <-]|].
  destruct (entry_panics rd e); [discriminate|]. destruct (include_one services (option_map (matched_of rd) e)); [apply IH|]. now intros [= <-].
Qed.
Definition crashing_entry (e : option file_match) : Prop :=
  exists m t s, e = Some m /\ d_is_file m = true /\ d_tree m = Some t /\ holds_text t s /\ bad s.
Lemma entry_crash e : entry_panics rd e = true -> crashing_entry e.
Proof.
  unfold entry_panics. destruct e as [m|]; [|discriminate]. destruct (file_name (d_path m)); [|discriminate].
  destruct (d_tree m) as [t|] eqn:Et; [|discriminate]. intros H. apply andb_true_iff in H as [H H2]. apply andb_true_iff in H as [H1 _].
  unfold panics in H2. pose proof (sound_service rd Hrd t) as S. destruct (de_service rd t); try discriminate.
  destruct S as (s & S1 & S2). exists m, t, s. auto.
Qed.
Lemma read_all_outcome es : forall services, match read_all rd services es with
  | Ret _ => True | Panic => exists e, In e es /\ crashing_entry e | _ => False end.
Proof.
  induction es as [|e es IH]; intros services; cbn [read_all]; [exact I|]. destruct (entry_panics rd e) eqn:E.
  - exists e. split; [now left|now apply entry_crash].
  - destruct (include_one _ _) as [s'|]; [|exact I]. specialize (IH s'). destruct (read_all rd s' es); auto.
    destruct IH as (x & H1 & H2). exists x. cbn. auto.
Qed.
Lemma read_patterns_ret z ps : forall services o, read_patterns rd z services ps = Ret o -> include_patterns (w z) services ps = o.
Proof.
  induction ps as [|p ps IH]; intros services o; cbn [read_patterns include_patterns]; [now intros [= <-]|].
  unfold include_pattern. cbn [w world_of e_glob]. destruct (z_glob z p) as [es|]; cbn [option_map]; [|now intros [= <-]].
  destruct (read_all rd services es) as [[s'|]| | | |] eqn:E; cbn [obind]; try discriminate; apply read_all_ret in E; rewrite E.
  - apply IH.
  - now intros [= <-].
Qed.
Definition crashing_match (z : disk) (p : str) : Prop := exists es e, z_glob z p = Some es /\ In e es /\ crashing_entry e.
Lemma read_patterns_outcome z ps : forall services, match read_patterns rd z services ps with
  | Ret _ => True | Panic => exists p, In p ps /\ crashing_match z p | _ => False end.
Proof.
  induction ps as [|p ps IH]; intros services; cbn [read_patterns]; [exact I|]. destruct (z_glob z p) as [es|] eqn:Eg; [|exact I].
  pose proof (read_all_outcome es services) as H. destruct (read_all rd services es) as [[s'|]| | | |]; cbn [obind]; auto.
  - specialize (IH s'). destruct (read_patterns rd z s' ps); auto. destruct IH as (x & H1 & H2). exists x. cbn. auto.
  - destruct H as (e & H1 & H2). exists p. split; [now left|]. exists es, e. auto.
Qed.
Lemma include_split z c : (match (match c_include c with [] => Some (c_services c) | p => include_pattern (w z) (c_services c) p end) with
   | None => None | Some s1 => include_patterns (w z) s1 (c_includes c) end) = include_patterns (w z) (c_services c) (patterns c).
Proof. unfold patterns. destruct (c_include c); reflexivity. Qed.
Lemma read_config_ret z fp o : read_config rd z fp = Ret o -> config_load (w z) fp = o.
Proof.
  unfold read_config, config_load. cbn [w world_of e_file e_chdir]. unfold tree_as. destruct (z_file z fp) as [t|]; [|now intros [= <-]].
  destruct (de_config rd t) as [[c|]| | | |]; cbn [obind]; try discriminate; [|now intros [= <-]].
  destruct (match c_workdir c with [] => false | _ => _ end); [now intros [= <-]|].
  pose proof (include_split z c) as Hs. fold (patterns c).
  destruct (read_patterns rd z (c_services c) (patterns c)) as [[s'|]| | | |] eqn:E; cbn [obind]; try discriminate; apply read_patterns_ret in E;
    rewrite E in Hs; intros [= <-]; fold (w z);
    destruct (match c_include c with [] => Some (c_services c) | p => include_pattern (w z) (c_services c) p end) as [s1|]; try discriminate; try reflexivity; now rewrite Hs.
Qed.
Lemma read_config_outcome z fp : match read_config rd z fp with
  | Ret _ => True
  | Panic => exists t s, some_file z fp t /\ holds_text t s /\ bad s
  | _ => False end.
Proof.
  unfold read_config. destruct (z_file z fp) as [t|] eqn:Et; [|exact I]. pose proof (sound_config rd Hrd t) as H.
  destruct (de_config rd t) as [[c|]| | | |]; cbn [obind]; auto.
  - destruct (match c_workdir c with [] => false | _ => _ end); [exact I|]. fold (patterns c).
    pose proof (read_patterns_outcome z (patterns c) (c_services c)) as P.
    destruct (read_patterns rd z (c_services c) (patterns c)) as [[s'|]| | | |]; cbn [obind]; auto.
    destruct P as (p & _ & es & e & P1 & P2 & m & t' & s & -> & P3 & P4 & P5 & P6).
    exists t', s. split; [|auto]. right. exists p, es, m. auto.
  - destruct H as (s & H1 & H2). exists t, s. splits; auto. now left.
Qed.
Theorem program_outcome z arg : match read_program rd z arg with
  | Ret o => load_config (w z) arg = o
  | Panic => exists t s, some_file z arg t /\ holds_text t s /\ bad s
  | _ => False end.
Proof.
  unfold read_program, load_config. destruct (trim_str arg); [reflexivity|].
  pose proof (read_config_outcome z arg) as H. destruct (read_config rd z arg) eqn:E; auto. now apply read_config_ret.
Qed.

Lemma says_wf t c : keys_once t -> says_config (rd_first rd) t c -> NoDup (map fst (c_services c)) /\ c_slab c = [].
Proof.
  intros K [H1 H2]. split; [|exact H2].
  assert (S : forall t', keys_once t' -> says_map (says_service (rd_first rd)) t' (c_services c) -> NoDup (map fst (c_services c))).
  { intros t' K' (es & -> & F). inversion K' as [l N _| |? X]; subst; [|destruct X].
    replace (map fst (c_services c)) with (map fst es); [exact N|]. clear -F. induction F as [|? ? ? ? [E _]]; cbn; congruence. }
  assert (N : c_services c = [] -> NoDup (map fst (c_services c))) by (intros ->; constructor).
  destruct t as [| | | |x|l|l]; cbn [says_record] in H1; try contradiction.
  - apply N. rewrite Forall_forall in H1. exact (H1 _ (or_intror (or_intror (or_intror (or_intror (or_intror (or_intror (or_intror (or_intror (or_intror (or_introl eq_refl))))))))))).
  - inversion K as [|? K'|? X]; subst; [|destruct X]. unfold config_settings in H1.
    do 9 (destruct l as [|? l]; [cbn [said_in_order st_get st_default] in H1; apply N; tauto|cbn [said_in_order] in H1; destruct H1 as [_ H1]; assert (K2 : forall t, In t l -> keys_once t) by (intros; apply K'; now right); clear K'; rename K2 into K']).
    destruct l as [|tx l]; cbn [said_in_order st_get st_default st_says] in H1; [apply N; tauto|]. apply (S tx); [apply K'; now left|tauto].
  - inversion K as [? K0 K'| |? X]; subst; [|destruct X]. rewrite Forall_forall in H1.
    destruct (H1 _ (or_intror (or_intror (or_intror (or_intror (or_intror (or_intror (or_intror (or_intror (or_intror (or_introl eq_refl)))))))))))
      as [[_ H]|(l1 & k & t & l2 & -> & _ & _ & H)]; [now apply N|]. apply (S t); [|exact H]. apply (K' (k, t)), in_elt.
Qed.
Lemma world_fine z : files_ok z -> world_ok (w z).
Proof.
  intros [H1 H2]. split; [exact H1|]. intros fp c H. cbn [w world_of e_file] in H. unfold tree_as in H.
  destruct (z_file z fp) as [t|] eqn:E; [|discriminate]. destruct (de_config rd t) as [x| | | |] eqn:Ed; try discriminate. subst x.
  apply (exact_config rd Hrd) in Ed. eapply says_wf; eauto.
Qed.
Theorem files_load z fp t c : files_ok z -> ~ blank fp -> z_file z fp = Some t -> read_program rd z fp = Ret (Some c) ->
  exists c0, says_config (rd_first rd) t c0 /\ loads (w z) fp c0 c.
Proof.
  intros Hz Hb Ht H. pose proof (program_outcome z fp) as P. rewrite H in P.
  assert (E : exists c0, e_file (w z) fp = Some c0).
  { destruct (e_file (w z) fp) eqn:E; [eauto|]. unfold load_config, config_load in P. rewrite E in P. destruct (trim_str fp) eqn:Etr; [|discriminate].
    apply trim_blank in Etr. contradiction. }
  destruct E as (c0 & E). exists c0. split.
  - cbn [w world_of e_file] in E. unfold tree_as in E. rewrite Ht in E. destruct (de_config rd t) as [x| | | |] eqn:Ed; try discriminate. subst x.
    now apply (exact_config rd Hrd).
  - unfold loads. splits; auto. now apply world_fine.
Qed.
Lemma service_file_says e k s : service_file (option_map (matched_of rd) e) k s <-> exists m, e = Some m /\ says_service_file (rd_first rd) m k s.
Proof.
  split.
  - intros (m' & c & E1 & E2 & E3 & E4 & E5 & E6). destruct e as [m|]; [|discriminate]. exists m. split; [reflexivity|].
    injection E1 as <-. cbn [matched_of m_service m_is_file m_path] in *. unfold tree_as in E5. destruct (d_tree m) as [t|] eqn:Et; [|discriminate].
    destruct (de_service rd t) as [x| | | |] eqn:Ed; try discriminate. subst x. exists t. splits; auto.
    + now apply (exact_service rd Hrd).
    + exists (Matched (d_path m) (d_is_file m) (Some s)), c. splits; auto.
  - intros (m & -> & t & Et & Es & m' & c & [= <-] & E2 & E3 & E4 & E5 & E6). apply (exact_service rd Hrd) in Es.
    exists (matched_of rd m), c. cbn [matched_of m_service m_is_file m_path option_map] in *. unfold tree_as. rewrite Et, Es. splits; auto.
Qed.
Theorem given_says z c0 k s : given (w z) c0 k s <-> In (k, s) (c_services c0)
  \/ exists p es m, In p (patterns c0) /\ z_glob z p = Some es /\ In (Some m) es /\ says_service_file (rd_first rd) m k s.
Proof.
  unfold given. apply or_iff_compat_l. cbn [w world_of e_glob]. split.
  - intros (p & es' & e' & H1 & H2 & H3 & H4). destruct (z_glob z p) as [es|] eqn:Eg; [|discriminate]. injection H2 as <-.
    apply in_map_iff in H3 as (e & <- & H3). apply service_file_says in H4 as (m & -> & H4). exists p, es, m. auto.
  - intros (p & es & m & H1 & H2 & H3 & H4). exists p. rewrite H2. cbn [option_map]. eexists. exists (option_map (matched_of rd) (Some m)).
    splits; eauto; [now apply in_map|]. apply service_file_says. eauto.
Qed.
End Bridge.
Lemma struct_panic {R} (fs : list (tfield R)) base k t f : find (called k) fs = Some f -> fd_de f t = Panic -> de_struct fs base (TTable [(k, t)]) = Panic.
Proof. intros H1 H2. cbn [de_struct visit_entries]. rewrite H1. cbn [existsb]. unfold read_field. now rewrite H2. Qed.
