(** Model of luxon::fmtlocal (src/utils/luxon.rs:29-33): chrono's DateTime<Local>::format for
    layouts made of ASCII characters and the specifiers in [specifiers]; what other layouts give is
    left open. *)
From Verif Require Export M_Files M_Item.
Local Open Scope Z_scope.

(** chrono::format::Item, as far as [specifiers] needs it *)
Inductive fpart :=
| PLit (c : N) | PYear | PYear2 | PMonth | PDay | PDaySp | POrdinal | PHour | PHourSp | PMinute | PSecond
| PNanos | PFrac (dot : bool) (digits : Z) | PBad.

(** chrono::format::StrftimeItems: the specifiers after '%' *)
Definition specifiers : list (str * list fpart) :=
  [(chars "Y", [PYear]); (chars "y", [PYear2]); (chars "m", [PMonth]); (chars "d", [PDay]); (chars "e", [PDaySp]);
   (chars "j", [POrdinal]); (chars "H", [PHour]); (chars "k", [PHourSp]); (chars "M", [PMinute]); (chars "S", [PSecond]);
   (chars "f", [PNanos]); (chars ".3f", [PFrac true 3]); (chars ".6f", [PFrac true 6]); (chars ".9f", [PFrac true 9]);
   (chars "3f", [PFrac false 3]); (chars "6f", [PFrac false 6]); (chars "9f", [PFrac false 9]);
   (chars "%", [PLit 37]); (chars "n", [PLit 10]); (chars "t", [PLit 9]);
   (chars "F", [PYear; PLit 45; PMonth; PLit 45; PDay]); (chars "T", [PHour; PLit 58; PMinute; PLit 58; PSecond]);
   (chars "R", [PHour; PLit 58; PMinute]); (chars "D", [PMonth; PLit 47; PDay; PLit 47; PYear2])].
Fixpoint after (key s : str) : option str :=
  match key, s with
  | [], _ => Some s
  | a :: key', b :: s' => if (a =? b)%N then after key' s' else None
  | _ :: _, [] => None
  end.
Fixpoint specifier (table : list (str * list fpart)) (s : str) : option (list fpart * str) :=
  match table with
  | [] => None
  | (key, ps) :: rest =>
      match after key s with Some s' => Some (ps, s') | None => specifier rest s end
  end.
(** letters that are no specifiers: Item::Error, as for a '%' at the end *)
Definition no_specifier (s : str) : bool :=
  match s with [] => true | c :: _ => existsb (N.eqb c) (chars "EJKOQio") end.
Fixpoint parts_of (fuel : nat) (s : str) : option (list fpart) :=
  match fuel with
  | O => match s with [] => Some [] | _ => None end
  | S f =>
      match s with
      | [] => Some []
      | c :: s' =>
          if (c =? 37)%N then
            if no_specifier s' then Some [PBad]
            else match specifier specifiers s' with
            | Some (ps, s2) => option_map (app ps) (parts_of f s2)
            | None => None
            end
          else if (c <? 128)%N then option_map (cons (PLit c)) (parts_of f s') else None
      end
  end.
Definition layout_parts (s : str) : option (list fpart) := parts_of (length s) s.

(** numbers with padding: write_two, write_n of chrono::format::formatting *)
Definition padded (c : N) (width : nat) (n : Z) : str :=
  let ds := map code (dec (Z.to_N n)) in repeat c (width - length ds) ++ ds.
(** years outside 0..9999 have a sign *)
Definition year_text (y : Z) : str :=
  if (0 <=? y) && (y <=? 9999) then padded 48 4 y
  else (if y <? 0 then 45%N else 43%N) :: padded 48 4 (Z.abs y).
(** one part, for a local time [l] (seconds) and nanoseconds [ns] *)
Definition part_text (l ns : Z) (p : fpart) : str :=
  let '(y, m, d) := civil (l / day) in
  let '(h, mi, s) := hms (l mod day) in
  match p with
  | PLit c => [c]
  | PYear => year_text y
  | PYear2 => padded 48 2 (y mod 100)
  | PMonth => padded 48 2 m
  | PDay => padded 48 2 d
  | PDaySp => padded 32 2 d
  | POrdinal => padded 48 3 (snd (year_ordinal (l / day)))
  | PHour => padded 48 2 h
  | PHourSp => padded 32 2 h
  | PMinute => padded 48 2 mi
  | PSecond => padded 48 2 s
  | PNanos => padded 48 9 ns
  | PFrac dot digits => (if dot then [46%N] else []) ++ padded 48 (Z.to_nat digits) (ns / 10 ^ (9 - digits))
  | PBad => []
  end.
Definition parts_text (l ns : Z) (ps : list fpart) : str := concat (map (part_text l ns) ps).
(** an Item::Error makes Display fail *)
Definition is_bad (p : fpart) : bool := match p with PBad => true | _ => false end.
Definition display (l ns : Z) (ps : list fpart) : option str :=
  if existsb is_bad ps then None else Some (parts_text l ns ps).
(** src/utils/luxon.rs:29-33, the time in nanoseconds since the epoch; None for layouts that are
    not modelled, Some None if to_string panics *)
Definition local_text (z : zone) (now : Z) (layout : str) : option (option str) :=
  option_map (display (local_secs z now) (now mod nano)) (layout_parts layout).
(** as the formatter of the renderers (M_Item); [other] for layouts that are not modelled *)
Definition fmtlocal (z : zone) (other : formatter) : formatter := fun t layout =>
  match local_text z (Z.of_N t) layout with
  | Some r => option_map (map ascii_of_N) r
  | None => other t layout
  end.
(** src/logging/rotation_file_appender.rs:135-153: the stamps of a rotating file, by the number of
    the local hour or day *)
Definition stamp_layout (k : rotation_kind) : str :=
  match k with Hourly => chars ".%Y%m%d%H" | Daily_ => chars ".%Y%m%d" end.
Definition stamps (k : rotation_kind) (n : Z) : str :=
  match layout_parts (stamp_layout k) with
  | Some ps => parts_text (n * period_of k) 0 ps
  | None => []
  end.
(** luxon::unixnanos (src/utils/luxon.rs:21-27) as text *)
Definition nanos_text (now : Z) : str := map code (dec (Z.to_N now)).
