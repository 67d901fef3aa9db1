(** Properties C26-C31 and C68: the header table. *)
From Verif Require Import F_MultiMap F_MultiMapP F_Slots.
From Coq Require Import Permutation.

(** C26: for every history of append/set/remove/clear/each_mut with non-empty names, no
    operation fails and every lookup agrees with the abstract multi-value map. *)
Theorem C26_table_refines_map : forall (ho : hash_order) (ops : list mop),
  (forall l, Permutation (ho l) l) -> clean ops ->
  exists m, mm_run ho mm_new ops = Ret m
    /\ forall k, mm_getall m k = Ret (a_run ops a_empty k)
              /\ mm_get m k = Ret (match a_run ops a_empty k with
                                   | Some vs => hd_error vs | None => None end).
Proof. exact table_refines_map. Qed.
Print Assumptions C26_table_refines_map.
(** a history of 50 names, so crossing the switch to a hash map *)
Example C26_nonvacuous :
  let ops := map (fun i => OAppend (B "n" ++ dec (N.of_nat i)) (B "v")) (seq 0 50)
             ++ [OAppend (B "n3") (B "w"); OSet (B "n4") (B "x"); ORemove (B "n3") (B "v")] in
  clean ops
  /\ (m <- mm_run (fun l => rev l) mm_new ops ;; mm_getall m (B "n3")) = Ret (Some [B "w"])
  /\ (m <- mm_run (fun l => rev l) mm_new ops ;; Ret (mm_ismap m)) = Ret true.
Proof. exact C26_ex. Qed.

(** C27 fails.  Deleting a name and setting another one loses the new value... *)
Theorem C27_delete_then_set_refuted : forall ho k k' v v',
  k <> [] -> k' <> [] -> k <> k' ->
  exists m, mm_run ho mm_new [OAppend k v; ODelete k; OSet k' v'] = Ret m
    /\ mm_getall m k' = Ret None
    /\ a_run [OAppend k v; ODelete k; OSet k' v'] a_empty k' = Some [v'].
Proof. exact delete_then_set. Qed.
Print Assumptions C27_delete_then_set_refuted.

(** ... and deleting a name and appending to a later one hides its values, which come back when
    that name is deleted. *)
Theorem C27_delete_then_append_refuted : forall ho k k' v w w',
  k <> [] -> k' <> [] -> k <> k' ->
  exists m m2, mm_run ho mm_new [OAppend k v; OAppend k' w; ODelete k; OAppend k' w'] = Ret m
    /\ mm_getall m k' = Ret (Some [w'])
    /\ a_run [OAppend k v; OAppend k' w; ODelete k; OAppend k' w'] a_empty k' = Some [w; w']
    /\ mm_delete m k' = Ret m2
    /\ mm_getall m2 k' = Ret (Some [w]).
Proof. exact delete_then_append. Qed.
Print Assumptions C27_delete_then_append_refuted.

(** C27, the part that holds: histories in which, while there is a gap left by a deletion, only
    names standing before it are set, and only those or absent names appended to.  Missing: all
    other histories; the next two theorems show that they go wrong with the first other write. *)
Theorem C27_table_refines_map_with_delete_partial : forall (ho : hash_order) (ops : list mop),
  (forall l, Permutation (ho l) l) -> all_sound (Row []) ops ->
  exists m, mm_run ho mm_new ops = Ret m
    /\ forall k, k <> [] -> mm_getall m k = Ret (a_run ops a_empty k).
Proof. exact table_sound. Qed.
Print Assumptions C27_table_refines_map_with_delete_partial.
Example C27_nonvacuous :
  all_sound (Row []) [OAppend (B "a") (B "1"); OAppend (B "b") (B "2"); OAppend (B "c") (B "3");
                      ODelete (B "b"); OSet (B "a") (B "4"); OAppend (B "a") (B "5");
                      OAppend (B "d") (B "6"); OSet (B "c") (B "7"); ODelete (B "c"); OClear;
                      OSet (B "b") (B "8")].
Proof. exact C27_ex. Qed.

(** every other set is lost: the name keeps what it had *)
Theorem C27_every_other_set_refuted : forall (ho : hash_order) (ops : list mop) k v,
  (forall l, Permutation (ho l) l) -> all_sound (Row []) ops -> k <> [] ->
  ~ sound (fold_left l_step ops (Row [])) (OSet k v) ->
  exists m, mm_run ho mm_new (ops ++ [OSet k v]) = Ret m
    /\ mm_getall m k = Ret (a_run ops a_empty k).
Proof. exact unsound_set. Qed.
Print Assumptions C27_every_other_set_refuted.
(** every other append hides the values the name had *)
Theorem C27_every_other_append_refuted : forall (ho : hash_order) (ops : list mop) k v,
  (forall l, Permutation (ho l) l) -> all_sound (Row []) ops -> k <> [] ->
  ~ sound (fold_left l_step ops (Row [])) (OAppend k v) ->
  a_run ops a_empty k <> None
  /\ exists m, mm_run ho mm_new (ops ++ [OAppend k v]) = Ret m
    /\ mm_getall m k = Ret (Some [v]).
Proof. exact unsound_append. Qed.
Print Assumptions C27_every_other_append_refuted.
Example C27_others_nonvacuous :
  let ops := [OAppend (B "a") (B "1"); OAppend (B "b") (B "2"); ODelete (B "a")] in
  all_sound (Row []) ops /\ ~ sound (fold_left l_step ops (Row [])) (OSet (B "c") (B "3"))
  /\ ~ sound (fold_left l_step ops (Row [])) (OAppend (B "b") (B "3")).
Proof. cbv. intuition (try discriminate; try lia). Qed.

(** C28: removing a value, on every reachable table (deletions included). *)
Theorem C28_remove_value : forall (ho : hash_order) (ops : list mop) (m : mmap) (k v : bytes),
  (forall l, Permutation (ho l) l) -> mm_run ho mm_new ops = Ret m ->
  exists m', mm_remove m k v = Ret m'
    /\ (forall vs, mm_getall m k = Ret (Some vs) ->
          mm_getall m' k = Ret (Some (filter (fun x => if bytes_same x v then false else true) vs)))
    /\ (mm_getall m k = Ret None -> mm_getall m' k = Ret None)
    /\ forall x, x <> k -> mm_getall m' x = mm_getall m x.
Proof. exact remove_value. Qed.
Print Assumptions C28_remove_value.
Example C28_nonvacuous :
  (m <- mm_run (fun l => l) mm_new [OAppend (B "k") (B "a"); OAppend (B "k") (B "b");
                                    OAppend (B "k") (B "a"); OAppend (B "k") (B "c")] ;;
   m <- mm_remove m (B "k") (B "a") ;; mm_getall m (B "k")) = Ret (Some [B "b"; B "c"]).
Proof. vm_compute. reflexivity. Qed.

(** C29: iteration, on every table reachable without deletion: the visitor is called along a
    duplicate-free list of exactly the live names with their complete values, and stops after
    its first refusal. *)
Theorem C29_each_visits_once : forall (ho : hash_order) (ops : list mop) (m : mmap)
    (S : Type) (visitor : S -> bytes -> list bytes -> S * bool),
  (forall l, Permutation (ho l) l) -> clean ops -> mm_run ho mm_new ops = Ret m ->
  exists l, NoDup (map fst l)
    /\ (forall k vs, In (k, vs) l <-> a_run ops a_empty k = Some vs)
    /\ forall s, mm_each ho m visitor s = Ret (visit visitor l s).
Proof. exact each_visits_once. Qed.
Print Assumptions C29_each_visits_once.
Example C29_nonvacuous :
  (m <- mm_run (fun l => l) mm_new [OAppend (B "a") (B "1"); OAppend (B "b") (B "2");
                                    OAppend (B "a") (B "3"); OAppend (B "c") (B "4")] ;;
   mm_each (fun l => l) m (fun s k vs => (s ++ [(k, vs)], negb (bytes_eqb k (B "b")))) [])
  = Ret [(B "a", [B "1"; B "3"]); (B "b", [B "2"])].
Proof. vm_compute. reflexivity. Qed.

(** With a deletion the visitor is also called for the hole, with an empty name. *)
Theorem C29_each_with_delete_refuted : forall ho k v, k <> [] ->
  exists m, mm_run ho mm_new [OAppend k v; ODelete k] = Ret m
    /\ mm_each ho m (fun s k vs => (s ++ [(k, vs)], true)) [] = Ret [([], [])].
Proof. exact each_with_delete. Qed.
Print Assumptions C29_each_with_delete_refuted.

(** visiting with updates: the names visited, up to a stop, get the visitor's values, all others
    keep theirs *)
Theorem C29_each_mut : forall (ho : hash_order) (ops : list mop) (m : mmap) visitor,
  (forall l, Permutation (ho l) l) -> clean ops -> mm_run ho mm_new ops = Ret m ->
  exists visited rest m', mm_each_mut ho m visitor = Ret m'
    /\ NoDup (map fst (visited ++ rest))
    /\ (forall k vs, In (k, vs) (visited ++ rest) <-> a_run ops a_empty k = Some vs)
    /\ (forall a e b, visited = a ++ e :: b -> b <> [] -> snd (visitor (fst e) (snd e)) = true)
    /\ (rest <> [] -> exists a e, visited = a ++ [e] /\ snd (visitor (fst e) (snd e)) = false)
    /\ (forall k vs, In (k, vs) visited -> mm_getall m' k = Ret (Some (fst (visitor k vs))))
    /\ (forall k vs, In (k, vs) rest -> mm_getall m' k = Ret (Some vs))
    /\ (forall k, a_run ops a_empty k = None -> mm_getall m' k = Ret None).
Proof. exact each_mut_visits. Qed.
Print Assumptions C29_each_mut.
Example C29_mut_nonvacuous :
  (m <- mm_run (fun l => l) mm_new [OAppend (B "a") (B "1"); OAppend (B "b") (B "2"); OAppend (B "c") (B "4")] ;;
   m <- mm_each_mut (fun l => l) m (fun k vs => (vs ++ [B "x"], negb (bytes_eqb k (B "b")))) ;;
   Ret (mm_vec m))
  = Ret [(B "a", [B "1"; B "x"]); (B "b", [B "2"; B "x"]); (B "c", [B "4"])].
Proof. vm_compute. reflexivity. Qed.
(** the length is the number of names, ... *)
Theorem C29_length : forall (ho : hash_order) (ops : list mop) (m : mmap),
  (forall l, Permutation (ho l) l) -> clean ops -> mm_run ho mm_new ops = Ret m ->
  exists names, NoDup names /\ (forall k, In k names <-> a_run ops a_empty k <> None)
    /\ mm_len m = Ret (length names).
Proof. exact len_names. Qed.
Print Assumptions C29_length.
Example C29_length_nonvacuous :
  (m <- mm_run (fun l => l) mm_new [OAppend (B "a") (B "1"); OAppend (B "b") (B "2"); OAppend (B "a") (B "4")] ;;
   mm_len m) = Ret 2.
Proof. vm_compute. reflexivity. Qed.
(** ... but a deleted name still counts. *)
Theorem C29_length_with_delete_refuted : forall ho k v, k <> [] ->
  exists m, mm_run ho mm_new [OAppend k v; ODelete k] = Ret m /\ mm_len m = Ret 1
    /\ forall x, a_run [OAppend k v; ODelete k] a_empty x = None.
Proof. exact len_with_delete. Qed.
Print Assumptions C29_length_with_delete_refuted.

(** C30 fails on tables with deleted slots: a lookup changes when another name is appended and
    the table switches representation. *)
Theorem C30_switch_refuted : exists ops m m' k,
  mm_run (fun l => l) mm_new ops = Ret m /\ mm_ismap m = false
  /\ mm_append m (B "x") (B "y") = Ret m' /\ mm_ismap m' = true
  /\ k <> B "x" /\ mm_getall m k <> mm_getall m' k.
Proof. exact switch_refuted. Qed.
Print Assumptions C30_switch_refuted.

(** C30 without deletions. Missing: tables with deleted slots (false, see above). *)
Theorem C30_switch_transparent_partial : forall (ho : hash_order) (ops : list mop) (m : mmap) k,
  (forall l, Permutation (ho l) l) -> clean ops -> mm_run ho mm_new ops = Ret m ->
  mm_ismap m = false -> mm_getall (tomap m) k = mm_getall m k.
Proof. exact switch_transparent. Qed.
Print Assumptions C30_switch_transparent_partial.
Example C30_nonvacuous : exists m,
  mm_run (fun l => l) mm_new (map (fun i => OAppend (B "n" ++ dec (N.of_nat i)) (B "v")) (seq 0 36))
    = Ret m /\ mm_ismap m = false /\ length (mm_vec m) = 36.
Proof. exact C30_ex. Qed.

(** ... and with deletions, as long as the table still is a map *)
Theorem C30_with_delete_partial : forall (ho : hash_order) (ops : list mop) (m : mmap) k,
  (forall l, Permutation (ho l) l) -> all_sound (Row []) ops -> mm_run ho mm_new ops = Ret m ->
  mm_ismap m = false -> k <> [] -> mm_getall (tomap m) k = mm_getall m k.
Proof. exact switch_sound. Qed.
Print Assumptions C30_with_delete_partial.
Example C30_with_delete_nonvacuous : exists m,
  let ops := map (fun i => OAppend (B "n" ++ dec (N.of_nat i)) (B "v")) (seq 0 36) ++ [ODelete (B "n7")] in
  all_sound (Row []) ops /\ mm_run (fun l => l) mm_new ops = Ret m /\ mm_ismap m = false
  /\ mm_getall m (B "n8") = Ret (Some [B "v"]).
Proof. exact C30_delete_ex. Qed.

(** C31: after clear every later history gives the same outcomes, lookups, lengths and
    iterations as on a new table; any reachable table, deletions included. *)
Theorem C31_clear_is_new : forall (ho : hash_order) (before after : list mop) (m : mmap),
  mm_run ho mm_new before = Ret m ->
  (forall n, mm_run ho mm_new after = Ret n ->
     exists n', mm_run ho (mm_clear m) after = Ret n'
       /\ (forall k, mm_getall n' k = mm_getall n k)
       /\ mm_len n' = mm_len n
       /\ forall (S : Type) (f : S -> bytes -> list bytes -> S * bool) s,
            mm_each ho n' f s = mm_each ho n f s)
  /\ (forall n', mm_run ho (mm_clear m) after = Ret n' ->
        exists n, mm_run ho mm_new after = Ret n).
Proof. exact clear_is_new. Qed.
Print Assumptions C31_clear_is_new.
Example C31_nonvacuous : exists m,
  mm_run (fun l => l) mm_new
    (map (fun i => OAppend (B "n" ++ dec (N.of_nat i)) (B "v")) (seq 0 40)) = Ret m
  /\ mm_ismap m = true.
Proof. exact C31_ex. Qed.

(** C68: a coding is found exactly when it is a substring of some value. *)
Theorem C68_contains_is_substring : forall (vs : option (list bytes)) (target : bytes),
  header_contains vs target = true <->
  exists l v a b, vs = Some l /\ In v l /\ v = a ++ target ++ b.
Proof. exact contains_is_substring. Qed.
Print Assumptions C68_contains_is_substring.
Example C68_nonvacuous :
  header_contains (Some [B "gzip"; B "gzip, chunked"]) (B "chunked") = true
  /\ header_contains (Some [B "gzip"; B "identity"]) (B "chunked") = false
  /\ header_contains None (B "chunked") = false.
Proof. vm_compute. auto. Qed.
