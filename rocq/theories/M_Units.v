(** Model of size and duration strings: src/config/split_uint.rs, src/config/bytes_size.rs,
    src/config/duration_in_millis.rs.  A string is its list of code points. *)
From Verif Require Export M_Base.

(** The parts of Unicode the code asks for and the model does not fix: char::is_numeric and
    char::to_lowercase above U+007F.  Simplification: str::to_lowercase treats a final capital
    sigma specially; neither sigma occurs in a unit. *)
Record unicode := Unicode { u_numeric : N -> bool; u_lower : N -> list N }.

(** char::is_numeric *)
Definition is_numeric (u : unicode) (c : N) : bool :=
  if (c <? 128)%N then in_range 48 57 c else u_numeric u c.
(** str::to_lowercase, character by character *)
Definition char_lower (u : unicode) (c : N) : list N :=
  if (c <? 128)%N then [if in_range 65 90 c then (c + 32)%N else c] else u_lower u c.
Definition str_lower (u : unicode) (s : list N) : list N := concat (map (char_lower u) s).

(** src/config/split_uint.rs:1-34.  [done] and [cur] together are [items], [cur] being its last
    element; [prev] and [ub] are the locals [prev] and [unit_begin]. *)
Fixpoint split_chars (u : unicode) (s : list N) (done : list (list N * list N))
    (cur : list N * list N) (prev : option N) (ub : bool) : outcome (list (list N * list N)) :=
  match s with
  | [] => Ret (done ++ [cur])
  | c :: s' =>
      if is_ws c then split_chars u s' done cur prev ub
      else
        let ub_after ub := match prev with
                           | Some p => if is_numeric u p && negb (is_numeric u c) then true else ub
                           | None => ub
                           end in
        if is_numeric u c then
          if ub then split_chars u s' (done ++ [cur]) ([c], []) (Some c) (ub_after false)
          else split_chars u s' done (fst cur ++ [c], snd cur) (Some c) (ub_after ub)
        else
          match fst cur with
          | [] => Panic
          | _ => split_chars u s' done (fst cur, snd cur ++ [c]) (Some c) (ub_after ub)
          end
  end.
Definition split_unit (u : unicode) (s : list N) : outcome (list (list N * list N)) :=
  split_chars u s [] ([], []) None false.

(** &str == "..." in the match arms *)
Fixpoint chars_eqb (a b : list N) : bool :=
  match a, b with
  | [], [] => true
  | x :: a', y :: b' => (x =? y)%N && chars_eqb a' b'
  | _, _ => false
  end.
Definition chars (s : string) : list N := map code (B s).
Definition is_one_of (s : list N) (names : list string) : bool :=
  existsb (fun n => chars_eqb s (chars n)) names.

(** src/config/bytes_size.rs:53-70 *)
Definition size_unit (s : list N) : option N :=
  if is_one_of s ["" ; "b"]%string then Some 1%N
  else if is_one_of s ["k"; "kb"]%string then Some 1024%N
  else if is_one_of s ["m"; "mb"]%string then Some (1024 * 1024)%N
  else if is_one_of s ["g"; "gb"]%string then Some (1204 * 1024 * 1024)%N
  else None.
(** src/config/duration_in_millis.rs:59-84 *)
Definition duration_unit (s : list N) : option N :=
  if is_one_of s ["" ; "ms"]%string then Some 1%N
  else if is_one_of s ["s"]%string then Some 1000%N
  else if is_one_of s ["m"]%string then Some (60 * 1000)%N
  else if is_one_of s ["h"]%string then Some (60 * 60 * 1000)%N
  else if is_one_of s ["d"]%string then Some (24 * 60 * 60 * 1000)%N
  else if is_one_of s ["w"]%string then Some (7 * 24 * 60 * 60 * 1000)%N
  else None.

(** u64/usize [+] and [*]: with overflow checks (dev profile) a panic, otherwise wrapping
    (release profile; Cargo.toml sets no overflow-checks).  usize is 64 bits. *)
Definition u64_op (checked : bool) (n : N) : outcome N :=
  if (n <? two64)%N then Ret n else if checked then Panic else Ret (n mod two64)%N.

(** the loop of visit_string: bytes_size.rs:42-73, duration_in_millis.rs:48-87 *)
Fixpoint sum_items (unit_of : list N -> option N) (u : unicode) (checked : bool)
    (items : list (list N * list N)) (amount : N) : outcome (option N) :=
  match items with
  | [] => Ret (Some amount)
  | (nums, units) :: rest =>
      match parse_uint u64max nums with
      | None => Ret None
      | Some num =>
          match unit_of (trim_by is_ws (str_lower u units)) with
          | None => Ret None
          | Some unit =>
              p <- u64_op checked (num * unit) ;;
              a <- u64_op checked (amount + p) ;;
              sum_items unit_of u checked rest a
          end
      end
  end.

(** visit_string: bytes_size.rs:31-76, duration_in_millis.rs:37-90.  [Ret None] is the error
    given to serde. *)
Definition visit_units (unit_of : list N -> option N) (u : unicode) (checked : bool) (s : list N)
    : outcome (option N) :=
  match s with
  | [] => Ret (Some 0%N)
  | _ => items <- split_unit u s ;; sum_items unit_of u checked items 0
  end.
Definition size_string := visit_units size_unit.
Definition duration_string := visit_units duration_unit.
