(** Facts about the header table. *)
From Verif Require Export S_MultiMap F_Base.
From Coq Require Import Permutation.

Definition keys (l : list entry) : list bytes := map fst l.

(** ** association lists *)
Lemma h_get_vec l k : vec_getall l k = h_get k l.
Proof.
  induction l as [|[k' vs] l IH]; simpl; [easy|]. now destruct (bytes_eqb k' k).
Qed.

Lemma h_get_in k l vs : h_get k l = Some vs -> In (k, vs) l.
Proof.
  induction l as [|[k' vs'] l IH]; simpl; [easy|].
  destruct (bytes_eqb k' k) eqn:E.
  - apply bytes_eqb_eq in E as ->. intros [= ->]. now left.
  - intros H. right. now apply IH.
Qed.

Lemma h_get_none k l : h_get k l = None <-> ~ In k (keys l).
Proof.
  induction l as [|[k' vs'] l IH]; simpl; [tauto|].
  destruct (bytes_eqb k' k) eqn:E.
  - apply bytes_eqb_eq in E as ->. split; [easy|]. tauto.
  - apply bytes_eqb_neq in E. rewrite IH. tauto.
Qed.

Lemma h_get_nodup k l vs : NoDup (keys l) -> (h_get k l = Some vs <-> In (k, vs) l).
Proof.
  intros Hnd. split; [apply h_get_in|].
  induction l as [|[k' vs'] l IH]; simpl; [easy|].
  inversion Hnd as [|? ? Hn Hnd']; subst. intros [H|H].
  - injection H as -> ->. now rewrite bytes_eqb_refl.
  - destruct (bytes_eqb k' k) eqn:E.
    + apply bytes_eqb_eq in E as ->. exfalso. apply Hn.
      change k with (fst (k, vs)). now apply in_map.
    + now apply IH.
Qed.

Lemma h_get_perm k l l' : NoDup (keys l) -> Permutation l' l -> h_get k l' = h_get k l.
Proof.
  intros Hnd Hp.
  assert (Hnd' : NoDup (keys l')).
  { eapply Permutation_NoDup; [|exact Hnd]. apply Permutation_map. now symmetry. }
  destruct (h_get k l) as [vs|] eqn:E.
  - apply h_get_nodup; [easy|]. eapply Permutation_in; [symmetry; exact Hp|]. now apply h_get_in.
  - apply h_get_none. apply h_get_none in E. intros H. apply E.
    eapply Permutation_in; [apply Permutation_map; exact Hp|]. exact H.
Qed.

Lemma h_get_insert k x vs l :
  h_get x (h_insert k vs l) = if bytes_same x k then Some vs else h_get x l.
Proof.
  induction l as [|[k' vs'] l IH]; simpl.
  - destruct (bytes_same x k) as [->|N].
    + now rewrite bytes_eqb_refl.
    + destruct (bytes_eqb k x) eqn:E; [apply bytes_eqb_eq in E; congruence|easy].
  - destruct (bytes_eqb k' k) eqn:E; simpl.
    + apply bytes_eqb_eq in E as ->. destruct (bytes_same x k) as [->|N].
      * now rewrite bytes_eqb_refl.
      * destruct (bytes_eqb k x) eqn:E; [apply bytes_eqb_eq in E; congruence|easy].
    + rewrite IH. destruct (bytes_eqb k' x) eqn:E2; [|easy].
      apply bytes_eqb_eq in E2 as ->. apply bytes_eqb_neq in E.
      destruct (bytes_same x k); congruence.
Qed.

Lemma h_insert_keys k vs l : In k (keys l) -> keys (h_insert k vs l) = keys l.
Proof.
  induction l as [|[k' vs'] l IH]; simpl; [easy|].
  destruct (bytes_eqb k' k) eqn:E; simpl; [easy|].
  intros [H|H]; [apply bytes_eqb_neq in E; congruence|]. now rewrite IH.
Qed.

Lemma h_insert_new k vs l : ~ In k (keys l) -> h_insert k vs l = l ++ [(k, vs)].
Proof.
  induction l as [|[k' vs'] l IH]; simpl; [easy|].
  intros H. destruct (bytes_eqb k' k) eqn:E.
  - apply bytes_eqb_eq in E. tauto.
  - now rewrite IH by tauto.
Qed.

Lemma nodup_snoc {A} (l : list A) x : NoDup l -> ~ In x l -> NoDup (l ++ [x]).
Proof.
  intros H Hn. eapply Permutation_NoDup; [apply Permutation_cons_append|].
  now constructor.
Qed.

Lemma h_insert_nodup k vs l : NoDup (keys l) -> NoDup (keys (h_insert k vs l)).
Proof.
  intros H. destruct (in_dec bytes_same k (keys l)) as [Hi|Hi].
  - now rewrite h_insert_keys.
  - rewrite h_insert_new by easy. unfold keys. rewrite map_app. simpl. now apply nodup_snoc.
Qed.

Lemma h_insert_in k vs l x : In x (keys (h_insert k vs l)) <-> x = k \/ In x (keys l).
Proof.
  destruct (in_dec bytes_same k (keys l)) as [Hi|Hi].
  - rewrite h_insert_keys by easy. split; [tauto|]. intros [->|]; easy.
  - rewrite h_insert_new by easy. unfold keys. rewrite map_app, in_app_iff. simpl.
    split; [intros [?|[?|[]]]; [tauto|left; congruence]|]. intros [->|]; tauto.
Qed.

Lemma h_remove_in k l x : In x (keys (h_remove k l)) -> In x (keys l).
Proof.
  induction l as [|[k' vs'] l IH]; simpl; [easy|].
  destruct (bytes_eqb k' k); simpl; [tauto|]. intros [?|?]; tauto.
Qed.

Lemma h_remove_nodup k l : NoDup (keys l) -> NoDup (keys (h_remove k l)).
Proof.
  induction l as [|[k' vs'] l IH]; simpl; [easy|].
  inversion 1 as [|? ? Hn Hnd]; subst. destruct (bytes_eqb k' k); simpl; [easy|].
  constructor; [|now apply IH]. intros H'. apply Hn. eapply h_remove_in; exact H'.
Qed.

Lemma h_get_remove k x l : NoDup (keys l) ->
  h_get x (h_remove k l) = if bytes_same x k then None else h_get x l.
Proof.
  induction l as [|[k' vs'] l IH]; simpl.
  - now destruct (bytes_same x k).
  - inversion 1 as [|? ? Hn Hnd]; subst. destruct (bytes_eqb k' k) eqn:E; simpl.
    + apply bytes_eqb_eq in E as ->. destruct (bytes_same x k) as [->|N].
      * now apply h_get_none.
      * destruct (bytes_eqb k x) eqn:E; [apply bytes_eqb_eq in E; congruence|easy].
    + rewrite IH by easy. destruct (bytes_eqb k' x) eqn:E2; [|easy].
      apply bytes_eqb_eq in E2 as ->. apply bytes_eqb_neq in E.
      destruct (bytes_same x k); congruence.
Qed.

(** ** the vector *)
Lemma vec_find_some l k pos :
  vec_find l k = Some pos ->
  exists a vs b, l = a ++ (k, vs) :: b /\ length a = pos /\ ~ In k (keys a).
Proof.
  unfold vec_find. intros H. apply position_some in H as (a & [k' vs] & b & -> & <- & Hx & Ha).
  simpl in Hx. apply bytes_eqb_eq in Hx as ->. exists a, vs, b. repeat split.
  rewrite forallb_forall in Ha. unfold keys. rewrite in_map_iff.
  intros ([k' vs'] & E & Hi). simpl in E. subst. specialize (Ha _ Hi). simpl in Ha.
  now rewrite bytes_eqb_refl in Ha.
Qed.

Lemma vec_find_none l k : vec_find l k = None <-> ~ In k (keys l).
Proof.
  unfold vec_find. rewrite position_none, forallb_forall. unfold keys. rewrite in_map_iff. split.
  - intros H ([k' vs] & E & Hi). simpl in E. subst. specialize (H _ Hi). simpl in H.
    now rewrite bytes_eqb_refl in H.
  - intros H [k' vs] Hi. simpl. destruct (bytes_eqb k' k) eqn:E; [|easy].
    apply bytes_eqb_eq in E as ->. exfalso. apply H. now exists (k, vs).
Qed.

Lemma foe_no_empty l k : ~ In [] (keys l) -> vec_find_or_empty l k = vec_find l k.
Proof.
  unfold vec_find_or_empty, vec_find.
  induction l as [|[k' vs] l IH]; simpl; [easy|]. intros H.
  destruct k' as [|c k']; [tauto|]. simpl is_nil. rewrite orb_false_r.
  destruct (bytes_eqb (c :: k') k); [easy|]. rewrite IH by tauto. easy.
Qed.

Lemma h_get_app k a b : h_get k (a ++ b)
  = match h_get k a with Some x => Some x | None => h_get k b end.
Proof.
  induction a as [|[k' vs] a IH]; simpl; [easy|]. now destruct (bytes_eqb k' k).
Qed.

Lemma h_get_cons k k' vs b : h_get k ((k', vs) :: b) = if bytes_same k k' then Some vs else h_get k b.
Proof.
  simpl. destruct (bytes_same k k') as [->|N].
  - now rewrite bytes_eqb_refl.
  - destruct (bytes_eqb k' k) eqn:E; [apply bytes_eqb_eq in E; congruence|easy].
Qed.

Lemma keys_app a b : keys (a ++ b) = keys a ++ keys b.
Proof. apply map_app. Qed.

(** replacing the values at the first slot holding [k] *)
Lemma h_get_mid a k vs vs' b x : ~ In k (keys a) ->
  h_get x (a ++ (k, vs') :: b) = if bytes_same x k then Some vs' else h_get x (a ++ (k, vs) :: b).
Proof.
  intros Hn. rewrite !h_get_app, !h_get_cons. destruct (bytes_same x k) as [->|N]; [|easy].
  apply h_get_none in Hn. now rewrite Hn.
Qed.

Lemma h_get_at a k vs b : ~ In k (keys a) -> h_get k (a ++ (k, vs) :: b) = Some vs.
Proof.
  intros H. rewrite (h_get_mid a k vs vs b k H). destruct (bytes_same k k); easy.
Qed.

(** ** value removal *)
Lemma without_app v a b : without v (a ++ b) = without v a ++ without v b.
Proof. apply filter_app. Qed.
Lemma without_none v l : position (fun e => bytes_eqb e v) l = None -> without v l = l.
Proof.
  rewrite position_none. induction l as [|x l IH]; simpl; [easy|].
  rewrite andb_true_iff. intros [Hx Hl]. destruct (bytes_same x v) as [->|N].
  - now rewrite bytes_eqb_refl in Hx.
  - now rewrite (IH Hl).
Qed.
Lemma without_clean v l : forallb (fun e => negb (bytes_eqb e v)) l = true -> without v l = l.
Proof. intros H. apply without_none. now apply position_none. Qed.

Lemma vec_remove_loop_spec v : forall fuel vs skip,
  length vs < fuel -> (skip <= length vs)%nat ->
  forallb (fun e => negb (bytes_eqb e v)) (firstn skip vs) = true ->
  vec_remove_loop fuel vs v skip = Ret (without v vs).
Proof.
  induction fuel as [|f IH]; intros vs skip Hf Hs Hc; [lia|]. simpl.
  destruct (position (fun e => bytes_eqb e v) (skipn skip vs)) as [pos|] eqn:E.
  - destruct (position_some _ _ _ E) as (a & x & b & Es & Hl & Hx & Ha).
    apply bytes_eqb_eq in Hx. subst x.
    assert (Hvs : vs = (firstn skip vs ++ a) ++ v :: b).
    { rewrite <- app_assoc, <- Es. symmetry. apply firstn_skipn. }
    assert (Hfl : length (firstn skip vs) = skip) by (rewrite firstn_length; lia).
    assert (Hidx : pos + skip = length (firstn skip vs ++ a)) by (rewrite app_length; lia).
    rewrite Hidx. set (p := firstn skip vs ++ a) in *.
    assert (Hp : forallb (fun e => negb (bytes_eqb e v)) p = true).
    { unfold p. rewrite forallb_app, Hc. exact Ha. }
    rewrite Hvs, remove_nth_app. rewrite IH.
    + f_equal. rewrite !without_app. simpl. now destruct (bytes_same v v).
    + rewrite Hvs in Hf. rewrite app_length in *. simpl in Hf. lia.
    + rewrite app_length. unfold p. rewrite app_length. lia.
    + rewrite firstn_app. assert (pos <= length p)%nat by (unfold p; rewrite app_length; lia).
      replace (pos - length p) with 0 by lia. simpl. rewrite app_nil_r.
      rewrite <- (firstn_skipn pos p), forallb_app in Hp. now apply andb_true_iff in Hp.
  - f_equal. symmetry.
    rewrite <- (firstn_skipn skip vs) at 1. rewrite without_app.
    rewrite (without_none v _ E), (without_clean v _ Hc). apply firstn_skipn.
Qed.

Lemma vec_remove_by_value_spec vs v : vec_remove_by_value vs v = Ret (without v vs).
Proof. apply vec_remove_loop_spec; simpl; lia. Qed.

(** ** tables a program can reach *)

(** representation: map mode has a map with distinct keys and an empty vector; vector mode has
    no map, or an empty one left behind by [clear] *)
Definition wf (m : mmap) : Prop :=
  if mm_ismap m then mm_vec m = [] /\ exists mp, mm_map m = Some mp /\ NoDup (keys mp)
  else mm_map m = None \/ mm_map m = Some [].

Lemma tomap_fold l : forall base,
  NoDup (keys base) -> NoDup (keys (fold_left (fun mp e => h_insert (fst e) (snd e) mp) l base)).
Proof.
  induction l as [|[k vs] l IH]; simpl; intros base H; [easy|].
  apply IH. now apply h_insert_nodup.
Qed.

Lemma tomap_wf m : wf m -> mm_ismap m = false -> wf (tomap m) /\ mm_ismap (tomap m) = true.
Proof.
  unfold wf. intros H E. rewrite E in H. unfold tomap. simpl. split; [|easy]. split; [easy|].
  eexists. split; [reflexivity|]. apply tomap_fold. destruct H as [-> | ->]; constructor.
Qed.

Lemma map_append_wf m k v : wf m -> mm_ismap m = true ->
  exists m', map_append m k v = Ret m' /\ wf m' /\ mm_ismap m' = true.
Proof.
  unfold wf, map_append. intros H E. rewrite E in H. destruct H as (Hv & mp & Hm & Hnd).
  rewrite Hm. destruct (h_get k mp); (eexists; split; [reflexivity|]; simpl; rewrite E;
   split; [|easy]; split; [easy|]; eexists; split; [reflexivity|]; now apply h_insert_nodup).
Qed.

Lemma each_mut_map_keys f l : keys (each_mut_list (fun k vs => (f k vs, true)) l) = keys l.
Proof. induction l as [|[k vs] l IH]; simpl; [easy|]. now rewrite IH. Qed.

Lemma each_mut_get f l k :
  h_get k (each_mut_list (fun k vs => (f k vs, true)) l) = option_map (f k) (h_get k l).
Proof.
  induction l as [|[k' vs] l IH]; simpl; [easy|].
  destruct (bytes_eqb k' k) eqn:E; [|exact IH]. apply bytes_eqb_eq in E as ->. easy.
Qed.

(** no operation panics or loops, and the representation stays well formed *)
Lemma step_wf ho m o : order_ok ho -> wf m -> exists m', mm_step ho m o = Ret m' /\ wf m'.
Proof.
  intros Hho Hw. destruct o as [k v|k v|k v|k| |f]; simpl.
  - (* append *) unfold mm_append. destruct (mm_ismap m) eqn:E.
    + destruct (map_append_wf m k v Hw E) as (m' & H1 & H2 & _). eauto.
    + destruct (Nat.leb 36 (length (mm_vec m))).
      * destruct (tomap_wf m Hw E) as [H1 H2].
        destruct (map_append_wf _ k v H1 H2) as (m' & H3 & H4 & _). eauto.
      * unfold wf in *. rewrite E in Hw.
        destruct (vec_find_or_empty (mm_vec m) k); eexists; (split; [reflexivity|]); exact Hw.
  - (* set *) unfold mm_set. destruct (mm_ismap m) eqn:E.
    + unfold wf in *. rewrite E in Hw. destruct Hw as (Hv & mp & Hm & Hnd). rewrite Hm.
      destruct (h_get k mp); (eexists; split; [reflexivity|]; simpl; split; [easy|];
        eexists; split; [reflexivity|]; now apply h_insert_nodup).
    + unfold wf in *. rewrite E in Hw.
      destruct (vec_find_or_empty (mm_vec m) k); eexists; (split; [reflexivity|]); exact Hw.
  - (* remove *) unfold mm_remove. destruct (mm_ismap m) eqn:E.
    + unfold wf in *. rewrite E in Hw. destruct Hw as (Hv & mp & Hm & Hnd). rewrite Hm.
      destruct (h_get k mp) as [vs|].
      * rewrite vec_remove_by_value_spec. eexists. split; [reflexivity|]. simpl.
        split; [easy|]. eexists; split; [reflexivity|]. now apply h_insert_nodup.
      * eexists. split; [reflexivity|]. rewrite E. eauto.
    + destruct (vec_find (mm_vec m) k) as [pos|] eqn:Ef.
      * apply vec_find_some in Ef as (a & vs & b & Hl & Hp & Hn).
        rewrite Hl, <- Hp. rewrite nth_error_app2 by lia. rewrite Nat.sub_diag. simpl.
        rewrite vec_remove_by_value_spec. eexists. split; [reflexivity|].
        unfold wf in *. rewrite E in Hw. exact Hw.
      * eauto.
  - (* delete *) unfold mm_delete. destruct (mm_ismap m) eqn:E.
    + unfold wf in *. rewrite E in Hw. destruct Hw as (Hv & mp & Hm & Hnd). rewrite Hm.
      eexists. split; [reflexivity|]. simpl. split; [easy|].
      eexists; split; [reflexivity|]. now apply h_remove_nodup.
    + destruct (vec_find (mm_vec m) k).
      * eexists. split; [reflexivity|]. unfold wf in *. rewrite E in Hw. exact Hw.
      * eauto.
  - (* clear *) eexists. split; [reflexivity|]. unfold mm_clear, wf. simpl.
    destruct (mm_map m); auto.
  - (* each_mut *) unfold mm_each_mut. destruct (mm_ismap m) eqn:E.
    + unfold wf in *. rewrite E in Hw. destruct Hw as (Hv & mp & Hm & Hnd). rewrite Hm.
      eexists. split; [reflexivity|]. simpl. split; [easy|].
      eexists; split; [reflexivity|]. rewrite each_mut_map_keys.
      eapply Permutation_NoDup; [|exact Hnd]. apply Permutation_map. symmetry. apply Hho.
    + eexists. split; [reflexivity|]. unfold wf in *. rewrite E in Hw. exact Hw.
Qed.

Lemma new_wf : wf mm_new.
Proof. left. reflexivity. Qed.

Lemma run_app ho ops1 : forall m ops2,
  mm_run ho m (ops1 ++ ops2) = (m' <- mm_run ho m ops1 ;; mm_run ho m' ops2).
Proof.
  induction ops1 as [|o ops1 IH]; intros m ops2; simpl; [easy|].
  destruct (mm_step ho m o); simpl; auto.
Qed.

Lemma run_wf ho ops : order_ok ho -> forall m, wf m ->
  exists m', mm_run ho m ops = Ret m' /\ wf m'.
Proof.
  intros Hho. induction ops as [|o ops IH]; intros m Hw; simpl; [eauto|].
  destruct (step_wf ho m o Hho Hw) as (m1 & H1 & H2). rewrite H1. simpl. now apply IH.
Qed.

(** the table's content *)
Definition content (m : mmap) : list entry :=
  if mm_ismap m then match mm_map m with Some mp => mp | None => [] end else mm_vec m.
Definition view (m : mmap) (k : bytes) : option (list bytes) := h_get k (content m).

Lemma getall_view m k : wf m -> mm_getall m k = Ret (view m k).
Proof.
  unfold wf, mm_getall, view, content. destruct (mm_ismap m).
  - intros (_ & mp & -> & _). easy.
  - intros _. now rewrite h_get_vec.
Qed.

Lemma get_view m k : wf m ->
  mm_get m k = Ret (match view m k with Some vs => hd_error vs | None => None end).
Proof. intros H. unfold mm_get. now rewrite getall_view. Qed.

(** ** refinement: [ok dirty] tables.  In vector mode live names are distinct; without
    deletions there is no empty slot, with deletions empty slots hold no values. *)
Definition ok (dirty : bool) (m : mmap) : Prop :=
  wf m /\
  (if mm_ismap m then (if dirty then True else ~ In [] (keys (content m)))
   else NoDup (filter (fun k => negb (is_nil k)) (keys (mm_vec m)))
        /\ (if dirty then forall vs, In ([], vs) (mm_vec m) -> vs = []
            else ~ In [] (keys (mm_vec m)))).

Definition agree (m : mmap) (a : amap) : Prop := forall k, k <> [] -> view m k = a k.

Lemma keep_nonnil (l : list bytes) : ~ In [] l -> filter (fun k => negb (is_nil k)) l = l.
Proof.
  induction l as [|x l IH]; simpl; [easy|]. intros H.
  destruct x as [|c x]; [tauto|]. simpl. rewrite IH by tauto. easy.
Qed.

Lemma in_keep (l : list bytes) k : k <> [] ->
  (In k (filter (fun k => negb (is_nil k)) l) <-> In k l).
Proof.
  intros Hk. rewrite filter_In. destruct k; [easy|]. simpl. tauto.
Qed.

Lemma nodup_keep (l : list bytes) : NoDup l -> NoDup (filter (fun k => negb (is_nil k)) l).
Proof. apply NoDup_filter. Qed.

(** conversion to a map *)
Lemma tomap_get l : forall base k,
  NoDup (filter (fun k => negb (is_nil k)) (keys l)) -> k <> [] ->
  h_get k (fold_left (fun mp e => h_insert (fst e) (snd e) mp) l base)
  = match h_get k l with Some vs => Some vs | None => h_get k base end.
Proof.
  induction l as [|[k' vs] l IH]; intros base k Hnd Hk; [easy|].
  cbn [fold_left fst snd]. rewrite h_get_cons. cbn [keys map fst filter] in Hnd.
  assert (Hnd' : NoDup (filter (fun k => negb (is_nil k)) (keys l))).
  { destruct (negb (is_nil k')); [now inversion Hnd|easy]. }
  rewrite IH by easy. rewrite h_get_insert.
  destruct (bytes_same k k') as [->|N]; [|easy].
  destruct (is_nil k') eqn:En; [destruct k'; easy|]. simpl in Hnd.
  inversion Hnd as [|? ? Hn _]; subst.
  assert (Hg : h_get k' l = None).
  { apply h_get_none. intros Hi. apply Hn. now apply in_keep. }
  now rewrite Hg.
Qed.

Lemma tomap_view dirty m k : ok dirty m -> mm_ismap m = false -> k <> [] ->
  view (tomap m) k = view m k.
Proof.
  intros [Hw H] E Hk. rewrite E in H. unfold view, content, tomap. simpl. rewrite E.
  unfold wf in Hw. rewrite E in Hw. rewrite tomap_get by tauto.
  destruct (h_get k (mm_vec m)); [easy|]. destruct Hw as [-> | ->]; reflexivity.
Qed.

Lemma tomap_in l : forall base x,
  In x (keys (fold_left (fun mp e => h_insert (fst e) (snd e) mp) l base))
  <-> In x (keys base) \/ In x (keys l).
Proof.
  induction l as [|[k vs] l IH]; intros base x; simpl; [tauto|].
  rewrite IH, h_insert_in. split; intros H; intuition congruence.
Qed.

Lemma tomap_ok dirty m : ok dirty m -> mm_ismap m = false -> ok dirty (tomap m).
Proof.
  intros [Hw H] E. destruct (tomap_wf m Hw E) as [H1 H2]. split; [easy|].
  rewrite H2. rewrite E in H. destruct dirty; [easy|]. unfold content. rewrite H2.
  unfold tomap. simpl. rewrite tomap_in. unfold wf in Hw. rewrite E in Hw.
  destruct Hw as [-> | ->]; simpl; tauto.
Qed.

Lemma map_append_ok dirty m k v : ok dirty m -> mm_ismap m = true -> k <> [] ->
  exists m', map_append m k v = Ret m' /\ ok dirty m'
    /\ forall x, view m' x = if bytes_same x k
        then Some (match view m k with Some vs => vs | None => [] end ++ [v]) else view m x.
Proof.
  intros [Hw H] E Hk. destruct (map_append_wf m k v Hw E) as (m' & H1 & H2 & H3).
  exists m'. split; [easy|]. unfold map_append in H1.
  pose proof Hw as Hw'. unfold wf in Hw'. rewrite E in Hw'. destruct Hw' as (_ & mp & Hm & Hnd).
  rewrite Hm in H1. rewrite E in H. unfold content in H. rewrite E, Hm in H. split.
  - split; [easy|]. rewrite H3. destruct dirty; [easy|].
    unfold content. rewrite H3. destruct (h_get k mp); injection H1 as <-; simpl;
      rewrite h_insert_in; intros [?|?]; [congruence|tauto|congruence|tauto].
  - intros x. unfold view, content. rewrite H3, E, Hm.
    destruct (h_get k mp) as [vs|]; injection H1 as <-; simpl; rewrite h_get_insert; easy.
Qed.

Lemma foe_some l k pos : vec_find_or_empty l k = Some pos ->
  exists a k' vs b, l = a ++ (k', vs) :: b /\ length a = pos /\ (k' = k \/ k' = [])
     /\ ~ In k (keys a) /\ ~ In [] (keys a).
Proof.
  unfold vec_find_or_empty. intros H.
  apply position_some in H as (a & [k' vs] & b & -> & <- & Hx & Ha).
  exists a, k', vs, b. simpl in Hx. rewrite forallb_forall in Ha.
  assert (Hall : forall x, In x (keys a) -> x <> k /\ x <> []).
  { unfold keys. intros x Hx'. apply in_map_iff in Hx' as ([x' w] & E & Hi). simpl in E. subst x'.
    specialize (Ha _ Hi). simpl in Ha. rewrite negb_orb, andb_true_iff, negb_true_iff in Ha.
    destruct Ha as [Ha1 Ha2]. apply bytes_eqb_neq in Ha1. destruct x; easy. }
  repeat split.
  - apply orb_true_iff in Hx as [Hx|Hx]; [left; now apply bytes_eqb_eq|right; now destruct k'].
  - intros Hi. now destruct (Hall _ Hi).
  - intros Hi. now destruct (Hall _ Hi).
Qed.

Lemma foe_none l k : vec_find_or_empty l k = None -> ~ In k (keys l) /\ ~ In [] (keys l).
Proof.
  unfold vec_find_or_empty. rewrite position_none, forallb_forall. intros H.
  assert (Hall : forall x, In x (keys l) -> x <> k /\ x <> []).
  { unfold keys. intros x Hx'. apply in_map_iff in Hx' as ([x' w] & E & Hi). simpl in E. subst x'.
    specialize (H _ Hi). simpl in H. rewrite negb_orb, andb_true_iff, negb_true_iff in H.
    destruct H as [Ha1 Ha2]. apply bytes_eqb_neq in Ha1. destruct x; easy. }
  split; intros Hi; now destruct (Hall _ Hi).
Qed.

Lemma keep_app (a b : list bytes) : filter (fun k => negb (is_nil k)) (a ++ b)
  = filter (fun k => negb (is_nil k)) a ++ filter (fun k => negb (is_nil k)) b.
Proof. apply filter_app. Qed.


Lemma append_ok dirty m k v : ok dirty m -> k <> [] -> (dirty = true -> view m k = None) ->
  exists m', mm_append m k v = Ret m' /\ ok dirty m'
    /\ forall x, x <> [] -> view m' x = if bytes_same x k
        then Some (match view m k with Some vs => vs | None => [] end ++ [v]) else view m x.
Proof.
  intros Hok Hk Hd. unfold mm_append. destruct (mm_ismap m) eqn:E.
  - destruct (map_append_ok dirty m k v Hok E Hk) as (m' & H1 & H2 & H3). exists m'. splits; auto.
  - destruct (Nat.leb 36 (length (mm_vec m))).
    + destruct (tomap_ok dirty m Hok E) as [Hw' Ht] eqn:Et. clear Et.
      destruct (map_append_ok dirty (tomap m) k v (conj Hw' Ht) eq_refl Hk) as (m' & H1 & H2 & H3).
      exists m'. splits; auto. intros x Hx. rewrite H3.
      rewrite !(tomap_view dirty m) by auto. reflexivity.
    + destruct Hok as [Hw H]. rewrite E in H. destruct H as [Hnd He].
      assert (Hwf' : forall l, wf (MM false l (mm_map m))).
      { intros l. unfold wf in *. simpl. now rewrite E in Hw. }
      destruct (vec_find_or_empty (mm_vec m) k) as [pos|] eqn:Ef.
      * apply foe_some in Ef as (a & k' & vs & b & Hl & Hp & Hk' & Hn1 & Hn2).
        eexists. split; [reflexivity|]. rewrite Hl, <- Hp, update_nth_app.
        unfold view, content. simpl. rewrite E. cbn [fst snd]. destruct Hk' as [->| ->].
        -- (* the slot already holds k *)
           assert (Hdf : dirty = false).
           { destruct dirty; [|easy]. exfalso. specialize (Hd eq_refl).
             unfold view, content in Hd. rewrite E, Hl, h_get_at in Hd by easy. easy. }
           subst dirty.
           assert (En : is_nil k = false) by now destruct k. rewrite En.
           split.
           ++ split; [apply Hwf'|]. simpl. rewrite Hl in Hnd, He.
              rewrite keys_app in *. split; [exact Hnd|exact He].
           ++ intros x Hx. rewrite Hl. rewrite (h_get_mid a k vs _ b x Hn1), h_get_at by easy. easy.
        -- (* a deleted slot is reused *)
           destruct dirty.
           2:{ exfalso. apply He. rewrite Hl, keys_app. apply in_or_app. right. now left. }
           simpl is_nil. cbn iota.
           assert (Hv0 : vs = []) by (apply He; rewrite Hl; apply in_or_app; right; now left).
           subst vs. specialize (Hd eq_refl). unfold view, content in Hd. rewrite E, Hl in Hd.
           rewrite h_get_app, h_get_cons in Hd.
           assert (Hka : h_get k a = None) by now apply h_get_none.
           rewrite Hka in Hd. destruct (bytes_same k []) as [->|_]; [easy|].
           split.
           ++ split; [apply Hwf'|]. simpl. rewrite Hl in Hnd. rewrite keys_app in *.
              simpl in *. rewrite keep_app in *. simpl in *.
              assert (En : is_nil k = false) by now destruct k. rewrite En. simpl. split.
              ** apply NoDup_Add with (a := k) (l := filter (fun k => negb (is_nil k)) (keys a)
                     ++ filter (fun k => negb (is_nil k)) (keys b)).
                 { apply Add_app. }
                 split; [exact Hnd|]. rewrite in_app_iff, !in_keep by easy.
                 intros [?|Hb]; [tauto|]. apply h_get_none in Hd. tauto.
              ** intros ws Hin. apply He. rewrite Hl. apply in_or_app. apply in_app_or in Hin as [?|[?|?]].
                 --- now left.
                 --- congruence.
                 --- right. now right.
           ++ intros x Hx. rewrite Hl. rewrite !h_get_app, !h_get_cons.
              destruct (bytes_same x []) as [->|_]; [easy|].
              destruct (bytes_same x k) as [->|N].
              ** rewrite Hka. destruct (bytes_same k []); [easy|]. now rewrite Hd.
              ** easy.
      * apply foe_none in Ef as [Hn1 Hn2]. eexists. split; [reflexivity|].
        unfold view, content. simpl. rewrite E. split.
        -- split; [apply Hwf'|]. simpl. rewrite keys_app, keep_app. simpl.
           assert (En : is_nil k = false) by now destruct k. rewrite En. simpl. split.
           ++ apply nodup_snoc; [easy|]. now rewrite in_keep.
           ++ destruct dirty.
              ** intros ws Hin. apply in_app_or in Hin as [?|[?|[]]]; [now apply He|congruence].
              ** rewrite in_app_iff. intros [?|[?|[]]]; [tauto|congruence].
        -- intros x Hx. rewrite h_get_app. assert (Hg : h_get k (mm_vec m) = None) by now apply h_get_none.
           rewrite Hg. destruct (bytes_same x k) as [->|N].
           ++ rewrite Hg. now rewrite h_get_cons; destruct (bytes_same k k).
           ++ destruct (h_get x (mm_vec m)); [easy|]. rewrite h_get_cons.
              destruct (bytes_same x k); easy.
Qed.

Lemma set_ok m k v : ok false m -> k <> [] ->
  exists m', mm_set m k v = Ret m' /\ ok false m'
    /\ forall x, view m' x = if bytes_same x k then Some [v] else view m x.
Proof.
  intros [Hw H] Hk. unfold mm_set. destruct (mm_ismap m) eqn:E.
  - unfold wf in Hw. rewrite E in Hw. destruct Hw as (Hv & mp & Hm & Hnd). rewrite Hm.
    unfold content in H. rewrite E, Hm in H.
    exists (MM true (mm_vec m) (Some (h_insert k [v] mp))).
    split; [now destruct (h_get k mp)|]. split.
    + split.
      * unfold wf. simpl. split; [easy|]. eexists; split; [reflexivity|]. now apply h_insert_nodup.
      * simpl. unfold content. simpl. rewrite h_insert_in. intros [?|?]; [congruence|tauto].
    + intros x. unfold view, content. simpl. rewrite E, Hm. apply h_get_insert.
  - destruct H as [Hnd He].
    assert (Hwf' : forall l, wf (MM false l (mm_map m))).
    { intros l. unfold wf in *. simpl. now rewrite E in Hw. }
    destruct (vec_find_or_empty (mm_vec m) k) as [pos|] eqn:Ef.
    + rewrite foe_no_empty in Ef by easy.
      apply vec_find_some in Ef as (a & vs & b & Hl & Hp & Hn).
      eexists. split; [reflexivity|]. rewrite Hl, <- Hp, update_nth_app. cbn [fst].
      unfold view, content. simpl. rewrite E. split.
      * split; [apply Hwf'|]. simpl. rewrite Hl in Hnd, He. rewrite keys_app in *. split; easy.
      * intros x. rewrite Hl. exact (h_get_mid a k vs [v] b x Hn).
    + apply foe_none in Ef as [Hn1 Hn2]. eexists. split; [reflexivity|].
      unfold view, content. simpl. rewrite E. split.
      * split; [apply Hwf'|]. simpl. rewrite keys_app, keep_app. simpl.
        assert (En : is_nil k = false) by now destruct k. rewrite En. simpl. split.
        -- apply nodup_snoc; [easy|]. now rewrite in_keep.
        -- rewrite in_app_iff. intros [?|[?|[]]]; [tauto|congruence].
      * intros x. rewrite h_get_app. assert (Hg : h_get k (mm_vec m) = None) by now apply h_get_none.
        destruct (bytes_same x k) as [->|N].
        -- rewrite Hg. now rewrite h_get_cons; destruct (bytes_same k k).
        -- destruct (h_get x (mm_vec m)); [easy|]. rewrite h_get_cons.
           destruct (bytes_same x k); easy.
Qed.

(** remove acts as specified on every well-formed table, deletions or not *)
Lemma remove_view m k v : wf m ->
  exists m', mm_remove m k v = Ret m' /\ wf m'
    /\ mm_ismap m' = mm_ismap m /\ keys (content m') = keys (content m)
    /\ (forall ks vs, In (ks, vs) (content m') -> exists vs0, In (ks, vs0) (content m)
           /\ (vs = vs0 \/ vs = without v vs0))
    /\ forall x, view m' x = if bytes_same x k then option_map (without v) (view m k) else view m x.
Proof.
  intros Hw. pose proof Hw as Hw0. unfold mm_remove, view, content. destruct (mm_ismap m) eqn:E.
  - unfold wf in Hw. rewrite E in Hw. destruct Hw as (Hv & mp & Hm & Hnd). rewrite Hm.
    destruct (h_get k mp) as [vs|] eqn:Eg.
    + rewrite vec_remove_by_value_spec. eexists. split; [reflexivity|]. simpl.
      splits; try easy.
      * unfold wf. simpl. split; [easy|]. eexists; split; [reflexivity|]. now apply h_insert_nodup.
      * apply h_insert_keys. apply h_get_in in Eg. change k with (fst (k, vs)). now apply in_map.
      * intros ks ws Hi.
        apply h_get_nodup in Hi; [|now apply h_insert_nodup]. rewrite h_get_insert in Hi.
        destruct (bytes_same ks k) as [->|N].
        -- injection Hi as <-. exists vs. split; [now apply h_get_in|now right].
        -- exists ws. split; [now apply h_get_in|now left].
      * intros x. rewrite h_get_insert. easy.
    + eexists. split; [reflexivity|]. rewrite E, Hm. splits; try easy.
      * intros ks vs Hi. exists vs. auto.
      * intros x. destruct (bytes_same x k) as [->|]; [now rewrite Eg|easy].
  - destruct (vec_find (mm_vec m) k) as [pos|] eqn:Ef.
    + apply vec_find_some in Ef as (a & vs & b & Hl & Hp & Hn).
      rewrite Hl, <- Hp. rewrite nth_error_app2 by lia. rewrite Nat.sub_diag. cbn [nth_error].
      rewrite vec_remove_by_value_spec. cbn [obind snd]. eexists. split; [reflexivity|].
      cbn [mm_ismap mm_vec mm_map]. rewrite update_nth_app. cbn [fst]. splits; try easy.
      * unfold wf in *. now rewrite E in Hw.
      * now rewrite !keys_app.
      * intros ks ws Hi. apply in_app_or in Hi as [Hi|[Hi|Hi]].
        -- exists ws. split; [apply in_or_app; now left|now left].
        -- injection Hi as <- <-. exists vs. split; [apply in_or_app; right; now left|now right].
        -- exists ws. split; [apply in_or_app; right; now right|now left].
      * intros x. rewrite (h_get_mid a k vs _ b x Hn), h_get_at by easy. easy.
    + eexists. split; [reflexivity|]. rewrite E. splits; try easy.
      * intros ks vs Hi. exists vs. auto.
      * intros x. destruct (bytes_same x k) as [->|]; [|easy].
        apply vec_find_none in Ef. apply h_get_none in Ef. now rewrite Ef.
Qed.

Lemma remove_ok dirty m k v : ok dirty m ->
  exists m', mm_remove m k v = Ret m' /\ ok dirty m'
    /\ forall x, view m' x = if bytes_same x k then option_map (without v) (view m k) else view m x.
Proof.
  intros [Hw H]. destruct (remove_view m k v Hw) as (m' & H1 & H2 & H3 & H4 & H5 & H6).
  exists m'. splits; auto. split; [easy|]. rewrite H3. unfold content in *. rewrite H3 in *.
  destruct (mm_ismap m).
  - destruct dirty; [easy|]. now rewrite H4.
  - rewrite H4. destruct H as [Hnd He]. split; [easy|]. destruct dirty; [|easy].
    intros vs Hi. destruct (H5 _ _ Hi) as (vs0 & Hi0 & [->| ->]).
    + now apply He.
    + apply He in Hi0. now subst.
Qed.

Lemma nodup_h_get_after a k vs b : ~ In k (keys a) -> k <> [] ->
  NoDup (filter (fun k => negb (is_nil k)) (keys (a ++ (k, vs) :: b))) -> h_get k b = None.
Proof.
  intros Hn Hk Hnd. rewrite keys_app, keep_app in Hnd. simpl in Hnd.
  assert (En : is_nil k = false) by now destruct k. rewrite En in Hnd. simpl in Hnd.
  apply NoDup_remove_2 in Hnd. rewrite in_app_iff, !in_keep in Hnd by easy.
  apply h_get_none. tauto.
Qed.

Lemma delete_ok dirty m k : ok dirty m ->
  exists m', mm_delete m k = Ret m' /\ ok true m'
    /\ forall x, x <> [] -> view m' x = if bytes_same x k then None else view m x.
Proof.
  intros [Hw H]. unfold mm_delete. destruct (mm_ismap m) eqn:E.
  - pose proof Hw as Hw0. unfold wf in Hw. rewrite E in Hw. destruct Hw as (Hv & mp & Hm & Hnd).
    rewrite Hm. eexists. split; [reflexivity|]. split.
    + split; [|easy]. unfold wf. simpl. split; [easy|].
      eexists; split; [reflexivity|]. now apply h_remove_nodup.
    + intros x Hx. unfold view, content. simpl. rewrite E, Hm. now apply h_get_remove.
  - destruct H as [Hnd He].
    assert (Hwf' : forall l, wf (MM false l (mm_map m))).
    { intros l. unfold wf in *. simpl. now rewrite E in Hw. }
    assert (He' : forall vs, In ([], vs) (mm_vec m) -> vs = []).
    { destruct dirty; [exact He|]. intros vs Hi. exfalso. apply He.
      change [] with (fst (([] : bytes), vs)). now apply in_map. }
    destruct (vec_find (mm_vec m) k) as [pos|] eqn:Ef.
    + apply vec_find_some in Ef as (a & vs & b & Hl & Hp & Hn).
      eexists. split; [reflexivity|]. rewrite Hl, <- Hp, update_nth_app.
      unfold view, content. simpl. rewrite E. split.
      * split; [apply Hwf'|]. simpl. split.
        -- rewrite Hl, keys_app, keep_app in Hnd. rewrite keys_app, keep_app. simpl in *.
           destruct (is_nil k); simpl in *; [easy|]. now apply NoDup_remove_1 in Hnd.
        -- intros ws Hi. apply in_app_or in Hi as [Hi|[Hi|Hi]].
           ++ apply He'. rewrite Hl. apply in_or_app. now left.
           ++ congruence.
           ++ apply He'. rewrite Hl. apply in_or_app. right. now right.
      * intros x Hx. rewrite Hl. rewrite !h_get_app, !h_get_cons.
        destruct (bytes_same x []); [easy|]. destruct (bytes_same x k) as [->|N].
        -- assert (Hg : h_get k a = None) by now apply h_get_none. rewrite Hg.
           rewrite Hl in Hnd. now apply (nodup_h_get_after a k vs b).
        -- easy.
    + eexists. split; [reflexivity|]. split.
      * split; [easy|]. rewrite E. split; [easy|exact He'].
      * intros x Hx. destruct (bytes_same x k) as [->|]; [|easy].
        unfold view, content. rewrite E. apply h_get_none. now apply vec_find_none.
Qed.

Lemma clear_ok m : ok false (mm_clear m) /\ forall x, view (mm_clear m) x = None.
Proof.
  split; [|easy]. split; [|simpl; split; [constructor|easy]].
  unfold wf. simpl. destruct (mm_map m); auto.
Qed.

Lemma map_ok ho m f : order_ok ho -> ok false m ->
  exists m', mm_each_mut ho m (fun k vs => (f k vs, true)) = Ret m' /\ ok false m'
    /\ forall x, view m' x = option_map (f x) (view m x).
Proof.
  intros Hho [Hw H]. unfold mm_each_mut. destruct (mm_ismap m) eqn:E.
  - unfold wf in Hw. rewrite E in Hw. destruct Hw as (Hv & mp & Hm & Hnd). rewrite Hm.
    unfold content in H. rewrite E, Hm in H.
    eexists. split; [reflexivity|]. split.
    + split.
      * unfold wf. simpl. split; [easy|]. eexists; split; [reflexivity|].
        rewrite each_mut_map_keys. eapply Permutation_NoDup; [|exact Hnd].
        apply Permutation_map. symmetry. apply Hho.
      * simpl. unfold content. simpl. rewrite each_mut_map_keys. intros Hi. apply H.
        eapply Permutation_in; [apply Permutation_map, Hho|exact Hi].
    + intros x. unfold view, content. simpl. rewrite E, Hm, each_mut_get.
      f_equal. now apply h_get_perm.
  - destruct H as [Hnd He]. eexists. split; [reflexivity|]. split.
    + split.
      * unfold wf in *. simpl. now rewrite E in Hw.
      * simpl. rewrite each_mut_map_keys. easy.
    + intros x. unfold view, content. simpl. rewrite E. apply each_mut_get.
Qed.

Lemma agree_update m m' a k y :
  agree m a -> (forall x, x <> [] -> view m' x = if bytes_same x k then y else view m x) ->
  agree m' (a_update a k y).
Proof.
  intros Ha Hv x Hx. rewrite Hv by easy. unfold a_update.
  destruct (bytes_same x k); [easy|]. now apply Ha.
Qed.

Lemma agree_ext m a b : agree m a -> (forall k, k <> [] -> a k = b k) -> agree m b.
Proof. intros H E k Hk. rewrite H by easy. now apply E. Qed.

(** Histories in which, once something has been deleted, names are neither [set] nor mapped, and
    only absent names are appended, until the next [clear]. *)
Fixpoint careful (dirty : bool) (a : amap) (ops : list mop) : Prop :=
  match ops with
  | [] => True
  | o :: r =>
      match o with
      | OAppend k _ => k <> [] /\ (dirty = true -> a k = None) /\ careful dirty (a_step a o) r
      | OSet k _ => k <> [] /\ dirty = false /\ careful dirty (a_step a o) r
      | OMap _ => dirty = false /\ careful dirty (a_step a o) r
      | ORemove _ _ => careful dirty (a_step a o) r
      | ODelete _ => careful true (a_step a o) r
      | OClear => careful false (a_step a o) r
      end
  end.

(** the main refinement, for careful histories *)
Lemma run_careful ho ops : order_ok ho -> forall dirty m a,
  ok dirty m -> agree m a -> careful dirty a ops ->
  exists m', mm_run ho m ops = Ret m' /\ wf m' /\ agree m' (a_run ops a).
Proof.
  intros Hho. induction ops as [|o ops IH]; intros dirty m a Hok Ha Hc.
  - exists m. split; [easy|]. split; [apply Hok|exact Ha].
  - unfold a_run. cbn [fold_left mm_run]. destruct o as [k v|k v|k v|k| |f]; cbn [careful] in Hc.
    + destruct Hc as (Hk & Hd & Hc).
      destruct (append_ok dirty m k v Hok Hk) as (m' & H1 & H2 & H3).
      { intros E. rewrite Ha by easy. now apply Hd. }
      cbn [mm_step]. rewrite H1. cbn [obind]. eapply IH; [exact H2| |exact Hc].
      cbn [a_step]. rewrite <- (Ha k Hk). eapply agree_update; eassumption.
    + destruct Hc as (Hk & -> & Hc).
      destruct (set_ok m k v Hok Hk) as (m' & H1 & H2 & H3).
      cbn [mm_step]. rewrite H1. cbn [obind]. eapply IH; [exact H2| |exact Hc].
      cbn [a_step]. eapply agree_update; [exact Ha|]. intros; apply H3.
    + destruct (remove_ok dirty m k v Hok) as (m' & H1 & H2 & H3).
      cbn [mm_step]. rewrite H1. cbn [obind]. eapply IH; [exact H2| |exact Hc].
      cbn [a_step]. intros x Hx. rewrite H3. unfold a_update.
      destruct (bytes_same x k) as [->|]; [now rewrite Ha|now apply Ha].
    + destruct (delete_ok dirty m k Hok) as (m' & H1 & H2 & H3).
      cbn [mm_step]. rewrite H1. cbn [obind]. eapply IH; [exact H2| |exact Hc].
      cbn [a_step]. eapply agree_update; eassumption.
    + cbn [mm_step obind]. destruct (clear_ok m) as [H1 H2].
      eapply IH; [exact H1| |exact Hc]. intros x _. now rewrite H2.
    + destruct Hc as (-> & Hc). destruct (map_ok ho m f Hho Hok) as (m' & H1 & H2 & H3).
      cbn [mm_step]. rewrite H1. cbn [obind]. eapply IH; [exact H2| |exact Hc].
      intros x Hx. rewrite H3, Ha by easy. reflexivity.
Qed.

(** the refinement for clean histories also covers the empty name *)
Lemma ok_view_nil m : ok false m -> view m [] = None.
Proof.
  intros [Hw H]. unfold view, content in *. apply h_get_none. destruct (mm_ismap m); tauto.
Qed.

Lemma clean_careful ops a : clean ops -> careful false a ops.
Proof.
  revert a; induction ops as [|o ops IH]; intros a H; [easy|].
  inversion H as [|? ? [H1 H2] H3]; subst.
  destruct o; simpl in *; splits; try easy; auto.
Qed.

Lemma new_ok : ok false mm_new.
Proof. split; [apply new_wf|]. simpl. split; [constructor|easy]. Qed.

Lemma run_clean ho ops : order_ok ho -> forall m a,
  ok false m -> (forall k, view m k = a k) -> clean ops ->
  exists m', mm_run ho m ops = Ret m' /\ ok false m' /\ forall k, view m' k = a_run ops a k.
Proof.
  intros Hho. induction ops as [|o ops IH]; intros m a Hok Ha Hc.
  - exists m. auto.
  - inversion Hc as [|? ? [H1 H2] H3]; subst. unfold a_run. cbn [fold_left mm_run].
    destruct o as [k v|k v|k v|k| |f]; cbn [named not_delete] in *; [..|easy| |].
    + destruct (append_ok false m k v Hok H1) as (m' & E1 & E2 & E3); [easy|].
      cbn [mm_step]. rewrite E1. cbn [obind]. apply IH; [exact E2| |easy].
      intros x. cbn [a_step]. unfold a_update. destruct (bytes_same x k) as [->|N].
      * rewrite E3 by easy. destruct (bytes_same k k); [|easy]. now rewrite Ha.
      * destruct x as [|c x]; [now rewrite <- Ha, !ok_view_nil|].
        rewrite E3 by easy. destruct (bytes_same (c :: x) k); easy.
    + destruct (set_ok m k v Hok H1) as (m' & E1 & E2 & E3).
      cbn [mm_step]. rewrite E1. cbn [obind]. apply IH; [exact E2| |easy].
      intros x. rewrite E3. cbn [a_step]. unfold a_update. now rewrite Ha.
    + destruct (remove_ok false m k v Hok) as (m' & E1 & E2 & E3).
      cbn [mm_step]. rewrite E1. cbn [obind]. apply IH; [exact E2| |easy].
      intros x. rewrite E3. cbn [a_step]. unfold a_update. now rewrite !Ha.
    + cbn [mm_step obind]. destruct (clear_ok m) as [E1 E2].
      apply IH; [exact E1| |easy]. intros x. now rewrite E2.
    + destruct (map_ok ho m f Hho Hok) as (m' & E1 & E2 & E3).
      cbn [mm_step]. rewrite E1. cbn [obind]. apply IH; [exact E2| |easy].
      intros x. rewrite E3. cbn [a_step]. now rewrite Ha.
Qed.

(** ** iteration *)
Lemma each_list_visit {S} (f : S -> bytes -> list bytes -> S * bool) l s :
  each_list f l s = visit f l s.
Proof.
  revert s; induction l as [|[k vs] l IH]; intros s; simpl; [easy|].
  destruct (f s k vs) as [s' []]; simpl; auto.
Qed.

Lemma keep_id_nodup (l : list bytes) : ~ In [] l ->
  NoDup (filter (fun k => negb (is_nil k)) l) -> NoDup l.
Proof. intros H. now rewrite keep_nonnil. Qed.

Lemma each_spec {S} ho m (f : S -> bytes -> list bytes -> S * bool) :
  order_ok ho -> ok false m ->
  exists l, NoDup (map fst l) /\ (forall k vs, In (k, vs) l <-> view m k = Some vs)
    /\ forall s, mm_each ho m f s = Ret (visit f l s).
Proof.
  intros Hho [Hw H]. unfold mm_each, view, content in *. destruct (mm_ismap m) eqn:E.
  - unfold wf in Hw. rewrite E in Hw. destruct Hw as (Hv & mp & Hm & Hnd). rewrite Hm.
    exists (ho mp). splits.
    + eapply Permutation_NoDup; [|exact Hnd]. apply Permutation_map. symmetry. apply Hho.
    + intros k vs. rewrite h_get_nodup by easy. split; apply Permutation_in; [|symmetry]; apply Hho.
    + intros s. now rewrite each_list_visit.
  - exists (mm_vec m). destruct H as [Hnd He]. apply keep_id_nodup in Hnd; [|easy]. splits.
    + exact Hnd.
    + intros k vs. now rewrite h_get_nodup.
    + intros s. now rewrite each_list_visit.
Qed.

(** visiting with updates, up to a stop *)
Lemma each_mut_cut f : forall l, exists a b, l = a ++ b
  /\ each_mut_list f l = map (fun e => (fst e, fst (f (fst e) (snd e)))) a ++ b
  /\ (forall a' e a'', a = a' ++ e :: a'' -> a'' <> [] -> snd (f (fst e) (snd e)) = true)
  /\ (b <> [] -> exists a' e, a = a' ++ [e] /\ snd (f (fst e) (snd e)) = false).
Proof.
  induction l as [|[k vs] l IH].
  - exists [], []. splits; try easy. intros a' e a'' H. now destruct a'.
  - cbn [each_mut_list]. destruct (f k vs) as [vs' go] eqn:Ef. destruct go.
    + destruct IH as (a & b & -> & E & H1 & H2). exists ((k, vs) :: a), b. splits.
      * reflexivity.
      * rewrite E. cbn. now rewrite Ef.
      * intros [|x a'] e a'' H Hne; cbn in H; injection H as <- H; [cbn; now rewrite Ef|eauto].
      * intros Hb. destruct (H2 Hb) as (a' & e & -> & H3). now exists ((k, vs) :: a'), e.
    + exists [(k, vs)], l. splits.
      * reflexivity.
      * cbn. now rewrite Ef.
      * intros [|x a'] e a'' H Hne; cbn in H; injection H as <- H; [now subst|]. now destruct a'.
      * intros _. exists [], (k, vs). cbn. now rewrite Ef.
Qed.
Lemma each_mut_spec ho m f : order_ok ho -> ok false m ->
  exists l a b m', NoDup (map fst l) /\ (forall k vs, In (k, vs) l <-> view m k = Some vs)
    /\ mm_each_mut ho m f = Ret m' /\ l = a ++ b
    /\ (forall a' e a'', a = a' ++ e :: a'' -> a'' <> [] -> snd (f (fst e) (snd e)) = true)
    /\ (b <> [] -> exists a' e, a = a' ++ [e] /\ snd (f (fst e) (snd e)) = false)
    /\ (forall k vs, In (k, vs) a -> mm_getall m' k = Ret (Some (fst (f k vs))))
    /\ (forall k vs, In (k, vs) b -> mm_getall m' k = Ret (Some vs))
    /\ (forall k, view m k = None -> mm_getall m' k = Ret None).
Proof.
  intros Hho [Hw H].
  assert (G : exists l, NoDup (map fst l) /\ (forall k vs, In (k, vs) l <-> view m k = Some vs)
    /\ exists m', mm_each_mut ho m f = Ret m' /\ forall k, mm_getall m' k = Ret (h_get k (each_mut_list f l))).
  { unfold mm_each_mut, view, content in *. destruct (mm_ismap m) eqn:E.
    - unfold wf in Hw. rewrite E in Hw. destruct Hw as (Hv & mp & Hm & Hnd). rewrite Hm in *.
      exists (ho mp). splits.
      + eapply Permutation_NoDup; [|exact Hnd]. apply Permutation_map. symmetry. apply Hho.
      + intros k vs. rewrite h_get_nodup by easy. split; apply Permutation_in; [|symmetry]; apply Hho.
      + eexists. split; [reflexivity|]. intros k. reflexivity.
    - exists (mm_vec m). destruct H as [Hnd He]. apply keep_id_nodup in Hnd; [|easy]. splits.
      + exact Hnd.
      + intros k vs. now rewrite h_get_nodup.
      + eexists. split; [reflexivity|]. intros k. unfold mm_getall. cbn [mm_ismap mm_vec]. now rewrite h_get_vec. }
  destruct G as (l & Hnd & Hin & m' & E & Hg). destruct (each_mut_cut f l) as (a & b & -> & Ec & H1 & H2).
  assert (Hk : NoDup (keys (each_mut_list f (a ++ b)))).
  { rewrite Ec, keys_app. unfold keys in *. rewrite map_map. cbn [fst]. now rewrite <- map_app. }
  exists (a ++ b), a, b, m'. splits; auto.
  - intros k vs Hi. rewrite Hg. f_equal. apply h_get_nodup; auto. rewrite Ec. apply in_or_app. left.
    apply in_map_iff. now exists (k, vs).
  - intros k vs Hi. rewrite Hg. f_equal. apply h_get_nodup; auto. rewrite Ec. apply in_or_app. now right.
  - intros k Hn. rewrite Hg. f_equal. apply h_get_none. intros Hi. rewrite Ec, keys_app in Hi. unfold keys in Hi.
    rewrite map_map in Hi. cbn [fst] in Hi. rewrite <- map_app in Hi. apply in_map_iff in Hi as ([k' vs] & <- & Hi).
    cbn [fst] in Hn. apply Hin in Hi. congruence.
Qed.
Lemma len_spec m : ok false m -> exists l, NoDup (map fst l) /\ (forall k vs, In (k, vs) l <-> view m k = Some vs)
  /\ mm_len m = Ret (length l).
Proof.
  intros [Hw H]. unfold mm_len, view, content in *. destruct (mm_ismap m) eqn:E.
  - unfold wf in Hw. rewrite E in Hw. destruct Hw as (Hv & mp & Hm & Hnd). rewrite Hm in *.
    exists mp. splits; auto. intros k vs. now rewrite h_get_nodup.
  - exists (mm_vec m). destruct H as [Hnd He]. apply keep_id_nodup in Hnd; [|easy]. splits; auto.
    intros k vs. now rewrite h_get_nodup.
Qed.

(** ** clear: bisimulation with a new table *)
Definition same (m n : mmap) : Prop :=
  m = n \/ (mm_ismap m = false /\ mm_ismap n = false /\ mm_vec m = mm_vec n
            /\ (mm_map m = None \/ mm_map m = Some []) /\ (mm_map n = None \/ mm_map n = Some [])).

Definition osame (x y : outcome mmap) : Prop :=
  match x, y with
  | Ret m, Ret n => same m n
  | _, _ => x = y
  end.

Lemma same_refl m : same m m.
Proof. now left. Qed.

Lemma same_tomap m n : mm_ismap m = false -> mm_ismap n = false -> mm_vec m = mm_vec n ->
  (mm_map m = None \/ mm_map m = Some []) -> (mm_map n = None \/ mm_map n = Some []) ->
  tomap m = tomap n.
Proof.
  intros E1 E2 Ev H1 H2. unfold tomap. rewrite Ev.
  destruct H1 as [-> | ->], H2 as [-> | ->]; easy.
Qed.

Lemma osame_refl x : osame x x.
Proof. destruct x; simpl; auto using same_refl. Qed.

Lemma step_same ho m n o : same m n -> osame (mm_step ho m o) (mm_step ho n o).
Proof.
  intros [->|(E1 & E2 & Ev & H1 & H2)]; [apply osame_refl|].
  assert (Hv : forall l, same (MM false l (mm_map m)) (MM false l (mm_map n))).
  { intros l. right. simpl. tauto. }
  assert (Hmn : same m n) by (right; tauto).
  destruct o as [k v|k v|k v|k| |f]; cbn [mm_step].
  - unfold mm_append. rewrite E1, E2, <- Ev. rewrite (same_tomap m n) by easy.
    destruct (Nat.leb 36 (length (mm_vec m))); [apply osame_refl|].
    destruct (vec_find_or_empty (mm_vec m) k); simpl; auto.
  - unfold mm_set. rewrite E1, E2, <- Ev.
    destruct (vec_find_or_empty (mm_vec m) k); simpl; auto.
  - unfold mm_remove. rewrite E1, E2, <- Ev.
    destruct (vec_find (mm_vec m) k); [|simpl; auto].
    destruct (nth_error (mm_vec m) n0); [|simpl; auto].
    destruct (vec_remove_by_value (snd e) v); simpl; auto.
  - unfold mm_delete. rewrite E1, E2, <- Ev.
    destruct (vec_find (mm_vec m) k); simpl; auto.
  - simpl. right. unfold mm_clear. simpl. splits; try easy.
    + destruct (mm_map m); auto.
    + destruct (mm_map n); auto.
  - unfold mm_each_mut. rewrite E1, E2, <- Ev. simpl. auto.
Qed.

Lemma run_same ho ops : forall m n, same m n -> osame (mm_run ho m ops) (mm_run ho n ops).
Proof.
  induction ops as [|o ops IH]; intros m n H; simpl; [exact H|].
  pose proof (step_same ho m n o H) as Hs.
  destruct (mm_step ho m o), (mm_step ho n o); simpl in *; try easy. now apply IH.
Qed.

Lemma same_getall m n k : same m n -> mm_getall m k = mm_getall n k.
Proof.
  intros [->|(E1 & E2 & Ev & _)]; [easy|]. unfold mm_getall. now rewrite E1, E2, Ev.
Qed.
Lemma same_each {S} ho m n (f : S -> bytes -> list bytes -> S * bool) s :
  same m n -> mm_each ho m f s = mm_each ho n f s.
Proof.
  intros [->|(E1 & E2 & Ev & _)]; [easy|]. unfold mm_each. now rewrite E1, E2, Ev.
Qed.
Lemma same_len m n : same m n -> mm_len m = mm_len n.
Proof.
  intros [->|(E1 & E2 & Ev & _)]; [easy|]. unfold mm_len. now rewrite E1, E2, Ev.
Qed.

Lemma clear_same m : wf m -> same (mm_clear m) mm_new.
Proof.
  intros _. right. simpl. splits; try easy; [|now left]. destruct (mm_map m); auto.
Qed.
