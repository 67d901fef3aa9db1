(** Specification: what several writers may leave on one standard output.  A history of the output
    is the list of the texts it received, each with the appender it came from (None: printed by
    another thread). *)
From Verif Require Export M_Console S_Log.

Definition from_source (w : option nat) (l : list (option nat * bytes)) : list bytes :=
  map snd (filter (fun e => match fst e, w with
                            | None, None => true
                            | Some i, Some j => i =? j
                            | _, _ => false
                            end) l).
Definition whole_screen (l : list (option nat * bytes)) : bytes := concat (map snd l).
Definition is_start {A} (a b : list A) : Prop := exists rest, b = a ++ rest.

(** what the consumer asks of an appender, and what other threads print *)
Definition asked_of (h : nat) (calls : list console_call) : list bytes :=
  flat_map (fun c => match c with WriteAll i x => if i =? h then [x] else [] | FlushAll _ => [] end) calls.
Definition printed (l : list turn) : list bytes :=
  flat_map (fun x => match x with Print text => [text] | _ => [] end) l.

(** the calls are of the [n] appenders *)
Definition addresses (n : nat) (calls : list console_call) : Prop :=
  Forall (fun c => match c with WriteAll h _ => h < n | FlushAll h => h < n end) calls.
(** no write to the standard output fails *)
Definition output_works (l : list turn) : Prop := forall h k, ~ In (Land h (Some k)) l.
(** how many writes to it failed *)
Definition failures (l : list turn) : nat :=
  length (filter (fun x => match x with Land _ (Some _) => true | _ => false end) l).
(** lines of a usual size: not empty and at most two mebibytes *)
Definition usual_lines (calls : list console_call) : Prop :=
  Forall (fun c => match c with
                   | WriteAll _ x => x <> [] /\ (N.of_nat (length x) <= 2 * 1024 * 1024)%N
                   | FlushAll _ => True
                   end) calls.

(** what survives of some lines when some are cut short and some are lost *)
Inductive survives : list bytes -> list bytes -> Prop :=
| sv_end : survives [] []
| sv_whole x l w : survives l w -> survives (x :: l) (x :: w)
| sv_cut x k l w : survives l w -> survives (firstn k x :: l) (x :: w)
| sv_lost x l w : survives l w -> survives l (x :: w).

(** the lines an appender must have written for some records: those of the records that belong
    there, in the order of the records *)
Inductive log_of (fmt : formatter) (layout : str) (a : appender) : list item -> list bytes -> Prop :=
| log_end : log_of fmt layout a [] []
| log_line it its b bs : belongs a it -> line fmt layout a it b -> log_of fmt layout a its bs ->
    log_of fmt layout a (it :: its) (b :: bs)
| log_other it its bs : ~ belongs a it -> log_of fmt layout a its bs -> log_of fmt layout a (it :: its) bs.
