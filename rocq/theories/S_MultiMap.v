(** Specification of a multi-value map, independent of how src/internal/multi_map.rs stores it:
    a function from names to the list of values (or nothing). *)
From Verif Require Export M_MultiMap.
From Coq Require Import Permutation.

Definition amap := bytes -> option (list bytes).
Definition a_empty : amap := fun _ => None.

(** The operations of a header table's client.  [OMap f] is [each_mut] with a visitor that
    replaces the values of every name and never stops. *)
Inductive mop :=
| OAppend (k v : bytes)
| OSet (k v : bytes)
| ORemove (k v : bytes)
| ODelete (k : bytes)
| OClear
| OMap (f : bytes -> list bytes -> list bytes).

Definition bytes_same (a b : bytes) : {a = b} + {a <> b} := list_eq_dec ascii_dec a b.

Definition a_update (a : amap) (k : bytes) (x : option (list bytes)) : amap :=
  fun k' => if bytes_same k' k then x else a k'.

Definition without (v : bytes) (vs : list bytes) : list bytes :=
  filter (fun x => if bytes_same x v then false else true) vs.

Definition a_step (a : amap) (o : mop) : amap :=
  match o with
  | OAppend k v => a_update a k (Some (match a k with Some vs => vs | None => [] end ++ [v]))
  | OSet k v => a_update a k (Some [v])
  | ORemove k v => a_update a k (option_map (without v) (a k))
  | ODelete k => a_update a k None
  | OClear => a_empty
  | OMap f => fun k => option_map (f k) (a k)
  end.
Definition a_run (ops : list mop) (a : amap) : amap := fold_left a_step ops a.

(** Running the same history on the table of the code. *)
Definition mm_step (ho : hash_order) (m : mmap) (o : mop) : outcome mmap :=
  match o with
  | OAppend k v => mm_append m k v
  | OSet k v => mm_set m k v
  | ORemove k v => mm_remove m k v
  | ODelete k => mm_delete m k
  | OClear => Ret (mm_clear m)
  | OMap f => mm_each_mut ho m (fun k vs => (f k vs, true))
  end.
Fixpoint mm_run (ho : hash_order) (m : mmap) (ops : list mop) : outcome mmap :=
  match ops with
  | [] => Ret m
  | o :: r => m' <- mm_step ho m o ;; mm_run ho m' r
  end.

(** Histories whose appended/set names are non-empty; with or without deletions. *)
Definition named (o : mop) : Prop :=
  match o with OAppend k _ | OSet k _ => k <> [] | _ => True end.
Definition not_delete (o : mop) : Prop :=
  match o with ODelete _ => False | _ => True end.
Definition clean (ops : list mop) : Prop := Forall (fun o => named o /\ not_delete o) ops.

(** Where the names stand: up to 36 names in a row, in which deleting a name leaves a gap and a
    new name takes the first gap, or (after an append to a row of 36) anywhere in a hash table. *)
Inductive layout := Row (slots : list (option bytes)) | Hashed.
(** the names before the first gap *)
Fixpoint front (s : list (option bytes)) : list bytes :=
  match s with Some k :: r => k :: front r | _ => [] end.
Fixpoint take_gap (k : bytes) (s : list (option bytes)) : list (option bytes) :=
  match s with [] => [Some k] | None :: r => Some k :: r | x :: r => x :: take_gap k r end.
Definition leave_gap (k : bytes) (x : option bytes) : option bytes :=
  match x with Some k' => if bytes_same k' k then None else x | None => None end.
Definition has (k : bytes) (s : list (option bytes)) : bool :=
  existsb (fun x => match x with Some k' => if bytes_same k' k then true else false | None => false end) s.
Definition l_step (L : layout) (o : mop) : layout :=
  match L, o with
  | _, OClear => Row []
  | Hashed, _ => Hashed
  | Row s, OAppend k _ => if Nat.leb 36 (length s) then Hashed
                          else if has k s then Row s else Row (take_gap k s)
  | Row s, OSet k _ => if has k s then Row s else Row (take_gap k s)
  | Row s, ODelete k => Row (map (leave_gap k) s)
  | Row s, _ => Row s
  end.
(** The writes that cannot go wrong: in a row with a gap, set only what stands before the first
    gap, append only to that or to a name that is absent; visitors leave nothing in gaps. *)
Definition sound (L : layout) (o : mop) : Prop :=
  match o, L with
  | OAppend k _, Row s => k <> [] /\ (36 <= length s \/ has k s = false \/ In k (front s))
  | OSet k _, Row s => k <> [] /\ (In k (front s) \/ ~ In None s)
  | OAppend k _, Hashed | OSet k _, Hashed => k <> []
  | OMap f, Row s => In None s -> f [] [] = []
  | _, _ => True
  end.
Fixpoint all_sound (L : layout) (ops : list mop) : Prop :=
  match ops with
  | [] => True
  | o :: r => sound L o /\ all_sound (l_step L o) r
  end.

(** Visiting entries one after the other until the visitor says stop. *)
Fixpoint visit {S : Type} (f : S -> bytes -> list bytes -> S * bool) (l : list entry) (s : S) : S :=
  match l with
  | [] => s
  | e :: r => if snd (f s (fst e) (snd e)) then visit f r (fst (f s (fst e) (snd e)))
              else fst (f s (fst e) (snd e))
  end.

(** a hash map is visited in any order *)
Definition order_ok (ho : hash_order) : Prop := forall l, Permutation (ho l) l.
