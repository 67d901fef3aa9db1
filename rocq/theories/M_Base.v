(** Base vocabulary of the model: bytes, outcomes, and the few Rust standard-library
    functions (integer parsing/printing, trimming, UTF-8 validation) the code relies on.
    Definitions only. *)
From Coq Require Export String Ascii.
From Coq Require Export NArith ZArith Bool Lia.
From Coq Require Export List.
Export ListNotations.
Open Scope list_scope.

(** [u8].  [ascii] has exactly 256 inhabitants. *)
Notation byte := ascii (only parsing).
Notation bytes := (list ascii) (only parsing).

(** Literal helper: the bytes of a string literal. *)
Definition B (s : string) : bytes := list_ascii_of_string s.

Definition code (b : byte) : N := N_of_ascii b.

Definition CR : byte := ascii_of_N 13.
Definition LF : byte := ascii_of_N 10.
Definition SP : byte := ascii_of_N 32.
Definition COLON : byte := ascii_of_N 58.
Definition CRLF : bytes := [CR; LF].

Fixpoint bytes_eqb (a b : bytes) : bool :=
  match a, b with
  | [], [] => true
  | x :: a', y :: b' => Ascii.eqb x y && bytes_eqb a' b'
  | _, _ => false
  end.

(** What running a piece of Rust code can amount to.
    [Panic]: unwrap on None, panic!, todo!.  [UB]: out-of-bounds unchecked access.
    [Blocked]: an await that never completes.  [NoFuel]: the loop has not finished within the
    given number of iterations (never a normal result). *)
Inductive outcome (A : Type) : Type :=
| Ret (a : A)
| Panic
| UB
| Blocked
| NoFuel.
Arguments Ret {A} a.
Arguments Panic {A}.
Arguments UB {A}.
Arguments Blocked {A}.
Arguments NoFuel {A}.

Definition obind {A C : Type} (x : outcome A) (f : A -> outcome C) : outcome C :=
  match x with
  | Ret a => f a
  | Panic => Panic
  | UB => UB
  | Blocked => Blocked
  | NoFuel => NoFuel
  end.
Notation "x <- e ;; k" := (obind e (fun x => k))
  (at level 61, e at next level, right associativity).

(** [2^64 - 1]: usize::MAX / u64::MAX on the 64-bit targets the project builds for. *)
Definition u64max : N := 18446744073709551615%N.
Definition two64 : N := 18446744073709551616%N.
Definition u32max : N := 4294967295%N.
Definition u8max : N := 255%N.

(** core::char / core::u8 classification. *)
Definition in_range (lo hi c : N) : bool := (lo <=? c)%N && (c <=? hi)%N.

(** u8::is_ascii_graphic: 0x21..=0x7E *)
Definition is_graphic (b : byte) : bool := in_range 33 126 (code b).

(** the test used by ensure_ascii! (src/message.rs:362-370) and by the header loop
    (src/message.rs:457): graphic or space *)
Definition is_printable (b : byte) : bool := is_graphic b || Ascii.eqb b SP.

(** u8::to_ascii_lowercase *)
Definition to_lower (b : byte) : byte :=
  if in_range 65 90 (code b) then ascii_of_N (code b + 32) else b.
Definition lower (s : bytes) : bytes := map to_lower s.

(** str::eq_ignore_ascii_case *)
Definition eq_ignore_case (a b : bytes) : bool := bytes_eqb (lower a) (lower b).

(** char::is_whitespace (Unicode White_Space), on code points; complete table. *)
Definition is_ws (c : N) : bool :=
  in_range 9 13 c || (c =? 32)%N || (c =? 133)%N || (c =? 160)%N || (c =? 5760)%N
  || in_range 8192 8202 c || (c =? 8232)%N || (c =? 8233)%N || (c =? 8239)%N
  || (c =? 8287)%N || (c =? 12288)%N.

Fixpoint drop_while {A} (p : A -> bool) (l : list A) : list A :=
  match l with
  | [] => []
  | x :: l' => if p x then drop_while p l' else l
  end.

(** str::trim, for a given white-space test *)
Definition trim_by {A} (p : A -> bool) (l : list A) : list A :=
  rev (drop_while p (rev (drop_while p l))).

(** str::trim on a string known to be ASCII *)
Definition byte_ws (b : byte) : bool := is_ws (code b).
Definition trim (s : bytes) : bytes := trim_by byte_ws s.

(** <unsigned>::from_str (radix 10) of core::num, on code points: an optional '+', at least one
    digit, checked multiplication and addition against the type's maximum. *)
Definition digit_val (c : N) : option N :=
  if in_range 48 57 c then Some (c - 48)%N else None.

Fixpoint parse_digits (max acc : N) (s : list N) : option N :=
  match s with
  | [] => Some acc
  | c :: s' =>
      match digit_val c with
      | None => None
      | Some d =>
          let m := (acc * 10)%N in
          if (max <? m)%N then None
          else let a := (m + d)%N in
               if (max <? a)%N then None else parse_digits max a s'
      end
  end.

Definition parse_uint (max : N) (s : list N) : option N :=
  match s with
  | [] => None
  | c :: s' =>
      if (c =? 43)%N then
        match s' with
        | [] => None
        | _ => parse_digits max 0 s'
        end
      else parse_digits max 0 s
  end.

Definition parse_uint_b (max : N) (s : bytes) : option N := parse_uint max (map code s).

(** usize::to_string / u8::to_string / u16::to_string (Display of unsigned integers) *)
Definition digit_byte (d : N) : byte := ascii_of_N (48 + d).
Fixpoint dec_aux (fuel : nat) (n : N) (acc : bytes) : bytes :=
  match fuel with
  | O => acc
  | S f =>
      let acc' := digit_byte (n mod 10) :: acc in
      if (n / 10 =? 0)%N then acc' else dec_aux f (n / 10)%N acc'
  end.
(** [N.size_nat n + 1] steps always suffice (proved in F_Base: [dec_value]). *)
Definition dec (n : N) : bytes := dec_aux (S (N.size_nat n)) n [].

(** core::str::from_utf8: decoding to code points, [None] when the bytes are not UTF-8.
    Table 3-7 of the Unicode standard (no surrogates, no overlong forms, <= U+10FFFF). *)
Definition cont (b : byte) : bool := in_range 128 191 (code b).
Definition low6 (b : byte) : N := (code b - 128)%N.

Fixpoint utf8_decode (s : bytes) : option (list N) :=
  match s with
  | [] => Some []
  | a :: s1 =>
      let c := code a in
      if (c <? 128)%N then option_map (cons c) (utf8_decode s1)
      else match s1 with
      | [] => None
      | b :: s2 =>
        if in_range 194 223 c then
          if cont b then option_map (cons ((c - 192) * 64 + low6 b)%N) (utf8_decode s2)
          else None
        else match s2 with
        | [] => None
        | d :: s3 =>
          if in_range 224 239 c then
            if cont b && cont d
               && (if (c =? 224)%N then in_range 160 191 (code b) else true)
               && (if (c =? 237)%N then in_range 128 159 (code b) else true)
            then option_map (cons ((c - 224) * 4096 + low6 b * 64 + low6 d)%N)
                            (utf8_decode s3)
            else None
          else match s3 with
          | [] => None
          | e :: s4 =>
            if in_range 240 244 c then
              if cont b && cont d && cont e
                 && (if (c =? 240)%N then in_range 144 191 (code b) else true)
                 && (if (c =? 244)%N then in_range 128 143 (code b) else true)
              then option_map (cons ((c - 240) * 262144 + low6 b * 4096
                                     + low6 d * 64 + low6 e)%N) (utf8_decode s4)
              else None
            else None
          end
        end
      end
  end.

(** slice::iter().position *)
Fixpoint position {A} (p : A -> bool) (l : list A) : option nat :=
  match l with
  | [] => None
  | x :: l' => if p x then Some O else option_map S (position p l')
  end.

(** modify the element at an index (used where the code holds a valid [&mut] to it) *)
Fixpoint update_nth {A} (n : nat) (f : A -> A) (l : list A) : list A :=
  match l, n with
  | [], _ => []
  | x :: l', O => f x :: l'
  | x :: l', S n' => x :: update_nth n' f l'
  end.

(** Vec::remove *)
Fixpoint remove_nth {A} (n : nat) (l : list A) : list A :=
  match l, n with
  | [], _ => []
  | _ :: l', O => l'
  | x :: l', S n' => x :: remove_nth n' l'
  end.
