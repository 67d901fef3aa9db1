(** Size and duration strings, independently of how they are parsed. *)
From Verif Require Export M_Units S_Wire.

(** a number and a unit, as written *)
Definition group := (list N * list N)%type.
Definition text (gs : list group) : list N := concat (map (fun g => fst g ++ snd g) gs).

(** the characters of [s] that are not white space *)
Definition unspaced (s : list N) : list N := filter (fun c => negb (is_ws c)) s.

(** decimal digits and their value *)
Definition dig (c : N) : Prop := (48 <= c <= 57)%N.
Definition value (ds : list N) : N := fold_left (fun v c => 10 * v + (c - 48))%N ds 0%N.

(** [unit] is one of the names, in upper or lower case ASCII letters *)
Definition case_char (c : N) : N := if ((65 <=? c) && (c <=? 90))%N then (c + 32)%N else c.
Definition named_as (unit : list N) (name : string) : Prop := map case_char unit = chars name.

(** groups with their meaning: digits, a unit of the table, and only the last unit may be left out *)
Definition means (table : list (string * N)) (g : group) (v : N) : Prop :=
  fst g <> [] /\ Forall dig (fst g) /\ (value (fst g) < 2 ^ 64)%N
  /\ exists name factor, In (name, factor) table /\ named_as (snd g) name
     /\ v = (value (fst g) * factor)%N.
Fixpoint separated (gs : list group) : Prop :=
  match gs with
  | [] => False
  | [_] => True
  | g :: gs' => snd g <> [] /\ separated gs'
  end.
Definition sum (vs : list N) : N := fold_right N.add 0%N vs.

Definition size_table : list (string * N) :=
  [("", 1); ("b", 1); ("k", 1024); ("kb", 1024); ("m", 1024 ^ 2); ("mb", 1024 ^ 2)]%string%N.
Definition giga_table : list (string * N) := [("g", 1024 ^ 3); ("gb", 1024 ^ 3)]%string%N.
(** what the code multiplies by instead *)
Definition giga_factor : N := (1204 * 1024 ^ 2)%N.
Definition coded_table : list (string * N) :=
  size_table ++ [("g", giga_factor); ("gb", giga_factor)]%string%N.
Definition duration_table : list (string * N) :=
  [("", 1); ("ms", 1); ("s", 1000); ("m", 60 * 1000); ("h", 3600 * 1000); ("d", 24 * 3600 * 1000);
   ("w", 7 * 24 * 3600 * 1000)]%string%N.

(** Everything that is accepted: as above, the Kelvin sign (U+212A) counting as a K. *)
Definition kelvin : N := 8490.
Definition loose_char (c : N) : N := if (c =? kelvin)%N then 107%N else case_char c.
Definition loosely_means (table : list (string * N)) (g : group) (v : N) : Prop :=
  fst g <> [] /\ Forall dig (fst g) /\ (value (fst g) < 2 ^ 64)%N
  /\ exists name factor, In (name, factor) table /\ map loose_char (snd g) = chars name
     /\ v = (value (fst g) * factor)%N.
Definition accepted (table : list (string * N)) (s : list N) (vs : list N) : Prop :=
  exists gs, unspaced s = text gs /\ separated gs /\ Forall2 (loosely_means table) gs vs.

(** What is used of Unicode: the Kelvin sign is no digit and its lower case is k; the lower case
    of every other non-ASCII character contains a non-ASCII character that is no white space. *)
Definition unicode_ok (u : unicode) : Prop :=
  u_numeric u kelvin = false /\ u_lower u kelvin = [107%N]
  /\ forall c, (128 <= c)%N -> c <> kelvin -> is_ws c = false ->
     exists d, In d (u_lower u c) /\ (128 <= d)%N /\ is_ws d = false.
