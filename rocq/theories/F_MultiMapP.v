(** The statements of P_MultiMap, proved. *)
From Verif Require Export F_MultiMap.
From Coq Require Import Permutation.

Lemma table_refines_map : forall (ho : hash_order) (ops : list mop),
  (forall l, Permutation (ho l) l) -> clean ops ->
  exists m, mm_run ho mm_new ops = Ret m
    /\ forall k, mm_getall m k = Ret (a_run ops a_empty k)
              /\ mm_get m k = Ret (match a_run ops a_empty k with
                                   | Some vs => hd_error vs | None => None end).
Proof.
  intros ho ops Hho Hc.
  destruct (run_clean ho ops Hho mm_new a_empty new_ok (fun _ => eq_refl) Hc) as (m & H1 & H2 & H3).
  exists m. split; [easy|]. intros k. destruct H2 as [Hw _].
  rewrite getall_view, get_view, H3 by easy. easy.
Qed.

Lemma neq_eqb (a b : bytes) : a <> b -> bytes_eqb a b = false.
Proof. apply bytes_eqb_neq. Qed.

Lemma nil_eqb_l (k : bytes) : k <> [] -> bytes_eqb [] k = false.
Proof. destruct k; easy. Qed.

Lemma is_nil_false {A} (k : list A) : k <> [] -> is_nil k = false.
Proof. now destruct k. Qed.

Lemma a_update_eq a k x : a_update a k x k = x.
Proof. unfold a_update. destruct (bytes_same k k); easy. Qed.
Lemma a_update_neq a k x y : y <> k -> a_update a k x y = a y.
Proof. unfold a_update. destruct (bytes_same y k); easy. Qed.

Lemma delete_then_set : forall ho k k' v v',
  k <> [] -> k' <> [] -> k <> k' ->
  exists m, mm_run ho mm_new [OAppend k v; ODelete k; OSet k' v'] = Ret m
    /\ mm_getall m k' = Ret None
    /\ a_run [OAppend k v; ODelete k; OSet k' v'] a_empty k' = Some [v'].
Proof.
  intros ho k k' v v' Hk Hk' Hn. eexists. split; [|split].
  - unfold mm_run, mm_step, mm_append, mm_delete, mm_set, mm_new. simpl.
    unfold vec_find. simpl. rewrite bytes_eqb_refl. simpl.
    unfold vec_find_or_empty. simpl. rewrite orb_true_r. simpl. reflexivity.
  - now destruct k'.
  - unfold a_run. simpl. apply a_update_eq.
Qed.

Lemma delete_then_append : forall ho k k' v w w',
  k <> [] -> k' <> [] -> k <> k' ->
  exists m m2, mm_run ho mm_new [OAppend k v; OAppend k' w; ODelete k; OAppend k' w'] = Ret m
    /\ mm_getall m k' = Ret (Some [w'])
    /\ a_run [OAppend k v; OAppend k' w; ODelete k; OAppend k' w'] a_empty k' = Some [w; w']
    /\ mm_delete m k' = Ret m2
    /\ mm_getall m2 k' = Ret (Some [w]).
Proof.
  intros ho k k' v w w' Hk Hk' Hn.
  assert (Hr : mm_run ho mm_new [OAppend k v; OAppend k' w; ODelete k; OAppend k' w']
               = Ret (MM false [(k', [w']); (k', [w])] None)).
  { unfold mm_run, mm_step, mm_append, mm_delete, mm_new. simpl.
    unfold vec_find_or_empty. simpl. rewrite (neq_eqb k k') by easy.
    rewrite (is_nil_false k) by easy. simpl.
    unfold vec_find. simpl. rewrite bytes_eqb_refl. simpl. rewrite orb_true_r. simpl. reflexivity. }
  exists (MM false [(k', [w']); (k', [w])] None), (MM false [([], []); (k', [w])] None).
  split; [exact Hr|]. split; [|split; [|split]].
  - unfold mm_getall. simpl. now rewrite bytes_eqb_refl.
  - unfold a_run. simpl. rewrite !a_update_eq.
    rewrite (a_update_neq _ k) by congruence. rewrite !a_update_eq.
    rewrite (a_update_neq _ k) by congruence. reflexivity.
  - unfold mm_delete. simpl. unfold vec_find. simpl. now rewrite bytes_eqb_refl.
  - unfold mm_getall. simpl. rewrite bytes_eqb_refl. now destruct k'.
Qed.

Lemma C26_ex :
  let ops := map (fun i => OAppend (B "n" ++ dec (N.of_nat i)) (B "v")) (seq 0 50)
             ++ [OAppend (B "n3") (B "w"); OSet (B "n4") (B "x"); ORemove (B "n3") (B "v")] in
  clean ops
  /\ (m <- mm_run (fun l => rev l) mm_new ops ;; mm_getall m (B "n3")) = Ret (Some [B "w"])
  /\ (m <- mm_run (fun l => rev l) mm_new ops ;; Ret (mm_ismap m)) = Ret true.
Proof.
  cbv zeta. split; [|split; vm_compute; reflexivity].
  unfold clean. rewrite Forall_app. split.
  - rewrite Forall_map. apply Forall_forall. intros i _. simpl. split; [discriminate|exact I].
  - repeat constructor; discriminate.
Qed.

Lemma remove_value : forall (ho : hash_order) (ops : list mop) (m : mmap) (k v : bytes),
  (forall l, Permutation (ho l) l) -> mm_run ho mm_new ops = Ret m ->
  exists m', mm_remove m k v = Ret m'
    /\ (forall vs, mm_getall m k = Ret (Some vs) ->
          mm_getall m' k = Ret (Some (filter (fun x => if bytes_same x v then false else true) vs)))
    /\ (mm_getall m k = Ret None -> mm_getall m' k = Ret None)
    /\ forall x, x <> k -> mm_getall m' x = mm_getall m x.
Proof.
  intros ho ops m k v Hho Hr.
  destruct (run_wf ho ops Hho mm_new new_wf) as (m0 & H1 & Hw). rewrite Hr in H1.
  injection H1 as <-.
  destruct (remove_view m k v Hw) as (m' & E1 & E2 & _ & _ & _ & E3).
  exists m'. split; [easy|]. rewrite !getall_view by easy. split; [|split].
  - intros vs [= E]. rewrite E3. destruct (bytes_same k k); [|easy]. now rewrite E.
  - intros [= E]. rewrite E3. destruct (bytes_same k k); [|easy]. now rewrite E.
  - intros x Hx. rewrite !getall_view, E3 by easy. destruct (bytes_same x k); easy.
Qed.

Lemma clean_run ho ops m :
  order_ok ho -> clean ops -> mm_run ho mm_new ops = Ret m ->
  ok false m /\ forall k, view m k = a_run ops a_empty k.
Proof.
  intros Hho Hc Hr.
  destruct (run_clean ho ops Hho mm_new a_empty new_ok (fun _ => eq_refl) Hc) as (m0 & H1 & H2 & H3).
  rewrite Hr in H1. injection H1 as <-. auto.
Qed.

Lemma each_visits_once : forall (ho : hash_order) (ops : list mop) (m : mmap)
    (S : Type) (visitor : S -> bytes -> list bytes -> S * bool),
  (forall l, Permutation (ho l) l) -> clean ops -> mm_run ho mm_new ops = Ret m ->
  exists l, NoDup (map fst l)
    /\ (forall k vs, In (k, vs) l <-> a_run ops a_empty k = Some vs)
    /\ forall s, mm_each ho m visitor s = Ret (visit visitor l s).
Proof.
  intros ho ops m S visitor Hho Hc Hr. destruct (clean_run ho ops m Hho Hc Hr) as [Hok Hv].
  destruct (each_spec ho m visitor Hho Hok) as (l & H1 & H2 & H3).
  exists l. splits; auto. intros k vs. now rewrite <- Hv.
Qed.

Lemma each_mut_visits : forall (ho : hash_order) (ops : list mop) (m : mmap) visitor,
  (forall l, Permutation (ho l) l) -> clean ops -> mm_run ho mm_new ops = Ret m ->
  exists visited rest m', mm_each_mut ho m visitor = Ret m'
    /\ NoDup (map fst (visited ++ rest))
    /\ (forall k vs, In (k, vs) (visited ++ rest) <-> a_run ops a_empty k = Some vs)
    /\ (forall a e b, visited = a ++ e :: b -> b <> [] -> snd (visitor (fst e) (snd e)) = true)
    /\ (rest <> [] -> exists a e, visited = a ++ [e] /\ snd (visitor (fst e) (snd e)) = false)
    /\ (forall k vs, In (k, vs) visited -> mm_getall m' k = Ret (Some (fst (visitor k vs))))
    /\ (forall k vs, In (k, vs) rest -> mm_getall m' k = Ret (Some vs))
    /\ (forall k, a_run ops a_empty k = None -> mm_getall m' k = Ret None).
Proof.
  intros ho ops m f Hho Hc Hr. destruct (clean_run ho ops m Hho Hc Hr) as [Hok Hv].
  destruct (each_mut_spec ho m f Hho Hok) as (l & a & b & m' & H1 & H2 & H3 & -> & H4 & H5 & H6 & H7 & H8).
  exists a, b, m'. splits; auto.
  - intros k vs. now rewrite <- Hv.
  - intros k. rewrite <- Hv. auto.
Qed.
Lemma len_names : forall (ho : hash_order) (ops : list mop) (m : mmap),
  (forall l, Permutation (ho l) l) -> clean ops -> mm_run ho mm_new ops = Ret m ->
  exists names, NoDup names /\ (forall k, In k names <-> a_run ops a_empty k <> None)
    /\ mm_len m = Ret (length names).
Proof.
  intros ho ops m Hho Hc Hr. destruct (clean_run ho ops m Hho Hc Hr) as [Hok Hv].
  destruct (len_spec m Hok) as (l & H1 & H2 & H3). exists (map fst l). rewrite map_length. splits; auto.
  intros k. rewrite in_map_iff. split.
  - intros ([k' vs] & <- & Hi). cbn [fst]. apply H2 in Hi. rewrite <- Hv. congruence.
  - intros Hn. destruct (a_run ops a_empty k) as [vs|] eqn:E; [|easy]. exists (k, vs). split; [easy|].
    apply H2. now rewrite Hv.
Qed.
Lemma len_with_delete : forall ho k v, k <> [] ->
  exists m, mm_run ho mm_new [OAppend k v; ODelete k] = Ret m /\ mm_len m = Ret 1
    /\ forall x, a_run [OAppend k v; ODelete k] a_empty x = None.
Proof.
  intros ho k v Hk. exists (MM false [([], [])] None). splits.
  - unfold mm_run, mm_step, mm_append, mm_delete, mm_new. simpl.
    unfold vec_find. simpl. now rewrite bytes_eqb_refl.
  - reflexivity.
  - intros x. cbn. unfold a_update. now destruct (bytes_same x k).
Qed.

Lemma each_with_delete : forall ho k v, k <> [] ->
  exists m, mm_run ho mm_new [OAppend k v; ODelete k] = Ret m
    /\ mm_each ho m (fun s k vs => (s ++ [(k, vs)], true)) [] = Ret [([], [])].
Proof.
  intros ho k v Hk. exists (MM false [([], [])] None). split; [|easy].
  unfold mm_run, mm_step, mm_append, mm_delete, mm_new. simpl.
  unfold vec_find. simpl. now rewrite bytes_eqb_refl.
Qed.

Lemma switch_refuted : exists ops m m' k,
  mm_run (fun l => l) mm_new ops = Ret m /\ mm_ismap m = false
  /\ mm_append m (B "x") (B "y") = Ret m' /\ mm_ismap m' = true
  /\ k <> B "x" /\ mm_getall m k <> mm_getall m' k.
Proof.
  pose (ops := map (fun i => OAppend (B "n" ++ dec (N.of_nat i)) (B "v")) (seq 0 35)
               ++ [ODelete (B "n0"); OAppend (B "n7") (B "w"); OAppend (B "n35") (B "v")]).
  exists ops. do 2 eexists. exists (B "n7").
  split; [vm_compute; reflexivity|]. split; [reflexivity|].
  split; [vm_compute; reflexivity|]. split; [reflexivity|].
  split; vm_compute; discriminate.
Qed.

Lemma view_tomap_nil m : ok false m -> mm_ismap m = false -> view (tomap m) [] = view m [].
Proof.
  intros Hok E. rewrite !ok_view_nil; [easy|easy|]. now apply tomap_ok.
Qed.

Lemma switch_transparent : forall (ho : hash_order) (ops : list mop) (m : mmap) k,
  (forall l, Permutation (ho l) l) -> clean ops -> mm_run ho mm_new ops = Ret m ->
  mm_ismap m = false -> mm_getall (tomap m) k = mm_getall m k.
Proof.
  intros ho ops m k Hho Hc Hr E. destruct (clean_run ho ops m Hho Hc Hr) as [Hok Hv].
  pose proof (tomap_ok false m Hok E) as Hok'.
  rewrite !getall_view by (apply Hok || apply Hok'). f_equal.
  destruct k as [|c k].
  - now apply view_tomap_nil.
  - apply (tomap_view false); easy.
Qed.

Lemma C30_ex : exists m,
  mm_run (fun l => l) mm_new (map (fun i => OAppend (B "n" ++ dec (N.of_nat i)) (B "v")) (seq 0 36))
    = Ret m /\ mm_ismap m = false /\ length (mm_vec m) = 36.
Proof. eexists. split; [vm_compute; reflexivity|]. split; reflexivity. Qed.

Lemma C31_ex : exists m,
  mm_run (fun l => l) mm_new
    (map (fun i => OAppend (B "n" ++ dec (N.of_nat i)) (B "v")) (seq 0 40)) = Ret m
  /\ mm_ismap m = true.
Proof. eexists. split; [vm_compute; reflexivity|]. reflexivity. Qed.

Lemma clear_is_new : forall (ho : hash_order) (before after : list mop) (m : mmap),
  mm_run ho mm_new before = Ret m ->
  (forall n, mm_run ho mm_new after = Ret n ->
     exists n', mm_run ho (mm_clear m) after = Ret n'
       /\ (forall k, mm_getall n' k = mm_getall n k)
       /\ mm_len n' = mm_len n
       /\ forall (S : Type) (f : S -> bytes -> list bytes -> S * bool) s,
            mm_each ho n' f s = mm_each ho n f s)
  /\ (forall n', mm_run ho (mm_clear m) after = Ret n' ->
        exists n, mm_run ho mm_new after = Ret n).
Proof.
  intros ho before after m Hr.
  assert (Hs : same (mm_clear m) mm_new).
  { right. simpl. splits; try easy; [|now left]. destruct (mm_map m); auto. }
  pose proof (run_same ho after _ _ Hs) as H.
  destruct (mm_run ho (mm_clear m) after) as [n1| | | |],
           (mm_run ho mm_new after) as [n2| | | |]; simpl in H; try easy; split; try easy.
  - intros n [= <-]. exists n1. splits; auto.
    + intros k. now apply same_getall.
    + now apply same_len.
    + intros S f s. now apply same_each.
  - intros n' _. now exists n2.
Qed.

Lemma starts_with_spec s p : starts_with s p = true <-> exists b, s = p ++ b.
Proof.
  revert s; induction p as [|y p IH]; intros s; simpl.
  - split; [intros _; now exists s|now destruct s].
  - destruct s as [|x s]; [split; [easy|intros (b & ?); easy]|].
    cbn [starts_with app]. rewrite andb_true_iff, Ascii.eqb_eq, IH. split.
    + intros (-> & b & ->). now exists b.
    + intros (b & [= -> ->]). split; [easy|]. now exists b.
Qed.

Lemma str_contains_spec s p : str_contains s p = true <-> exists a b, s = a ++ p ++ b.
Proof.
  induction s as [|x s IH]; cbn [str_contains]; rewrite orb_true_iff, starts_with_spec.
  - split.
    + intros [(b & H)|H]; [|easy]. exists [], b. exact H.
    + intros (a & b & H). left. destruct a; [|easy]. exists b. exact H.
  - rewrite IH. split.
    + intros [(b & H)|(a & b & ->)].
      * exists [], b. exact H.
      * exists (x :: a), b. reflexivity.
    + intros (a & b & H). destruct a as [|y a].
      * left. exists b. exact H.
      * right. injection H as -> ->. exists a, b. reflexivity.
Qed.

Lemma contains_is_substring : forall (vs : option (list bytes)) (target : bytes),
  header_contains vs target = true <->
  exists l v a b, vs = Some l /\ In v l /\ v = a ++ target ++ b.
Proof.
  intros [l|] target; simpl.
  - rewrite existsb_exists. split.
    + intros (v & Hi & H). apply orb_true_iff in H as [H|H].
      * apply bytes_eqb_eq in H. exists l, v, [], []. rewrite app_nil_r. auto.
      * apply str_contains_spec in H as (a & b & H). exists l, v, a, b. auto.
    + intros (l' & v & a & b & [= <-] & Hi & H). exists v. split; [easy|].
      apply orb_true_iff. right. apply str_contains_spec. eauto.
  - split; [easy|]. intros (l & v & a & b & H & _). easy.
Qed.
