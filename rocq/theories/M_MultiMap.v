(** Model of src/internal/multi_map.rs (the header/form table) and src/internal/header.rs. *)
From Verif Require Export M_Base.

(** src/internal/multi_map.rs:3  [(String, Vec<String>)] *)
Definition entry := (bytes * list bytes)%type.

(** src/internal/multi_map.rs:9-13.  The [HashMap] is represented by an association list with
    distinct keys; nothing may depend on its order (iteration takes an order oracle, below). *)
Record mmap := MM {
  mm_ismap : bool;
  mm_vec : list entry;
  mm_map : option (list entry)
}.

(** src/internal/multi_map.rs:15-23, 26-29 *)
Definition mm_new : mmap := MM false [] None.

(** ** std::collections::HashMap, as association list *)
Fixpoint h_get (k : bytes) (m : list entry) : option (list bytes) :=
  match m with
  | [] => None
  | (k', vs) :: m' => if bytes_eqb k' k then Some vs else h_get k m'
  end.
Fixpoint h_insert (k : bytes) (vs : list bytes) (m : list entry) : list entry :=
  match m with
  | [] => [(k, vs)]
  | (k', vs') :: m' =>
      if bytes_eqb k' k then (k', vs) :: m' else (k', vs') :: h_insert k vs m'
  end.
Fixpoint h_remove (k : bytes) (m : list entry) : list entry :=
  match m with
  | [] => []
  | (k', vs') :: m' => if bytes_eqb k' k then m' else (k', vs') :: h_remove k m'
  end.

(** src/internal/multi_map.rs:31-34 *)
Definition vec_find (pairs : list entry) (k : bytes) : option nat :=
  position (fun e => bytes_eqb (fst e) k) pairs.

Definition is_nil {A} (l : list A) : bool := match l with [] => true | _ => false end.

(** src/internal/multi_map.rs:36-39 *)
Definition vec_find_or_empty (pairs : list entry) (k : bytes) : option nat :=
  position (fun e => bytes_eqb (fst e) k || is_nil (fst e)) pairs.

(** src/internal/multi_map.rs:41-51 *)
Definition map_append (m : mmap) (k v : bytes) : outcome mmap :=
  match mm_map m with
  | None => Panic
  | Some mp =>
      match h_get k mp with
      | Some vs => Ret (MM (mm_ismap m) (mm_vec m) (Some (h_insert k (vs ++ [v]) mp)))
      | None => Ret (MM (mm_ismap m) (mm_vec m) (Some (h_insert k [v] mp)))
      end
  end.

(** src/internal/multi_map.rs:53-79.  Note lines 69-74: when the slot found is a deleted one
    (empty key) its key is left empty. *)
Definition mm_set (m : mmap) (k v : bytes) : outcome mmap :=
  if mm_ismap m then
    match mm_map m with
    | None => Panic
    | Some mp =>
        match h_get k mp with
        | Some _ => Ret (MM true (mm_vec m) (Some (h_insert k [v] mp)))
        | None => Ret (MM true (mm_vec m) (Some (h_insert k [v] mp)))
        end
    end
  else
    match vec_find_or_empty (mm_vec m) k with
    | Some pos => Ret (MM false (update_nth pos (fun e => (fst e, [v])) (mm_vec m)) (mm_map m))
    | None => Ret (MM false (mm_vec m ++ [(k, [v])]) (mm_map m))
    end.

(** src/internal/multi_map.rs:176-186 *)
Definition tomap (m : mmap) : mmap :=
  let base := match mm_map m with None => [] | Some mp => mp end in
  MM true [] (Some (fold_left (fun mp e => h_insert (fst e) (snd e) mp) (mm_vec m) base)).

(** src/internal/multi_map.rs:81-107; the literal 36 is at line 87 *)
Definition mm_append (m : mmap) (k v : bytes) : outcome mmap :=
  if mm_ismap m then map_append m k v
  else if Nat.leb 36 (length (mm_vec m)) then map_append (tomap m) k v
  else
    match vec_find_or_empty (mm_vec m) k with
    | Some pos =>
        Ret (MM false
               (update_nth pos
                  (fun e => (if is_nil (fst e) then k else fst e, snd e ++ [v]))
                  (mm_vec m))
               (mm_map m))
    | None => Ret (MM false (mm_vec m ++ [(k, [v])]) (mm_map m))
    end.

(** src/internal/multi_map.rs:109-123.  [skip] is reset to [pos] (not [pos + skip]) at line 116. *)
Fixpoint vec_remove_loop (fuel : nat) (vs : list bytes) (v : bytes) (skip : nat)
  : outcome (list bytes) :=
  match fuel with
  | O => NoFuel
  | S f =>
      match position (fun e => bytes_eqb e v) (skipn skip vs) with
      | Some pos => vec_remove_loop f (remove_nth (pos + skip) vs) v pos
      | None => Ret vs
      end
  end.
(** One iteration per removed element plus one: [S (length vs)] iterations suffice
    (F_MultiMap: [vec_remove_by_value_spec]). *)
Definition vec_remove_by_value (vs : list bytes) (v : bytes) : outcome (list bytes) :=
  vec_remove_loop (S (length vs)) vs v 0.

(** src/internal/multi_map.rs:125-145 *)
Definition mm_remove (m : mmap) (k v : bytes) : outcome mmap :=
  if mm_ismap m then
    match mm_map m with
    | None => Panic
    | Some mp =>
        match h_get k mp with
        | Some vs =>
            vs' <- vec_remove_by_value vs v ;;
            Ret (MM true (mm_vec m) (Some (h_insert k vs' mp)))
        | None => Ret m
        end
    end
  else
    match vec_find (mm_vec m) k with
    | Some pos =>
        match nth_error (mm_vec m) pos with
        | Some e =>
            vs' <- vec_remove_by_value (snd e) v ;;
            Ret (MM false (update_nth pos (fun e => (fst e, vs')) (mm_vec m)) (mm_map m))
        | None => UB
        end
    | None => Ret m
    end.

(** src/internal/multi_map.rs:147-163: in vector mode the slot stays, with empty key and values *)
Definition mm_delete (m : mmap) (k : bytes) : outcome mmap :=
  if mm_ismap m then
    match mm_map m with
    | None => Panic
    | Some mp => Ret (MM true (mm_vec m) (Some (h_remove k mp)))
    end
  else
    match vec_find (mm_vec m) k with
    | Some pos => Ret (MM false (update_nth pos (fun _ => ([], [])) (mm_vec m)) (mm_map m))
    | None => Ret m
    end.

(** src/internal/multi_map.rs:165-174 *)
Definition mm_clear (m : mmap) : mmap :=
  MM false [] (match mm_map m with Some _ => Some [] | None => None end).

(** src/internal/multi_map.rs:188-198 *)
Fixpoint vec_getall (pairs : list entry) (k : bytes) : option (list bytes) :=
  match pairs with
  | [] => None
  | (key, vs) :: r => if bytes_eqb key k then Some vs else vec_getall r k
  end.
Definition mm_getall (m : mmap) (k : bytes) : outcome (option (list bytes)) :=
  if mm_ismap m then
    match mm_map m with
    | None => Panic
    | Some mp => Ret (h_get k mp)
    end
  else Ret (vec_getall (mm_vec m) k).

(** src/internal/multi_map.rs:200-205 *)
Definition mm_get (m : mmap) (k : bytes) : outcome (option bytes) :=
  o <- mm_getall m k ;;
  Ret (match o with Some vs => hd_error vs | None => None end).

(** HashMap iteration order: an arbitrary rearrangement chosen by the hasher.  Theorems assume
    only [forall l, Permutation (ho l) l]. *)
Definition hash_order := list entry -> list entry.

(** src/internal/multi_map.rs:207-222; the visitor threads a state and says whether to go on *)
Fixpoint each_list {S : Type} (visitor : S -> bytes -> list bytes -> S * bool)
    (l : list entry) (s : S) : S :=
  match l with
  | [] => s
  | (k, vs) :: r =>
      let '(s', go) := visitor s k vs in
      if go then each_list visitor r s' else s'
  end.
Definition mm_each {S : Type} (ho : hash_order) (m : mmap)
    (visitor : S -> bytes -> list bytes -> S * bool) (s : S) : outcome S :=
  if mm_ismap m then
    match mm_map m with
    | None => Panic
    | Some mp => Ret (each_list visitor (ho mp) s)
    end
  else Ret (each_list visitor (mm_vec m) s).

(** src/internal/multi_map.rs:224-239; the visitor returns the new values and whether to go on.
    (The map is given back in visiting order, which is invisible.) *)
Fixpoint each_mut_list (visitor : bytes -> list bytes -> list bytes * bool)
    (l : list entry) : list entry :=
  match l with
  | [] => []
  | (k, vs) :: r =>
      let '(vs', go) := visitor k vs in
      (k, vs') :: (if go then each_mut_list visitor r else r)
  end.
Definition mm_each_mut (ho : hash_order) (m : mmap)
    (visitor : bytes -> list bytes -> list bytes * bool) : outcome mmap :=
  if mm_ismap m then
    match mm_map m with
    | None => Panic
    | Some mp => Ret (MM true (mm_vec m) (Some (each_mut_list visitor (ho mp))))
    end
  else Ret (MM false (each_mut_list visitor (mm_vec m)) (mm_map m)).

(** src/internal/multi_map.rs:241-247 *)
Definition mm_len (m : mmap) : outcome nat :=
  if mm_ismap m then
    match mm_map m with
    | None => Panic
    | Some mp => Ret (length mp)
    end
  else Ret (length (mm_vec m)).

(** str::starts_with / str::contains (naive search; same result as the two-way algorithm) *)
Fixpoint starts_with (s p : bytes) : bool :=
  match p, s with
  | [], _ => true
  | y :: p', x :: s' => Ascii.eqb x y && starts_with s' p'
  | _ :: _, [] => false
  end.
Fixpoint str_contains (s p : bytes) : bool :=
  starts_with s p || match s with [] => false | _ :: s' => str_contains s' p end.

(** src/internal/header.rs:1-13 *)
Definition header_contains (ovs : option (list bytes)) (target : bytes) : bool :=
  match ovs with
  | Some vs => existsb (fun v => bytes_eqb v target || str_contains v target) vs
  | None => false
  end.
