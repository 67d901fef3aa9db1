(** Text, independently of the model's helpers: UTF-8 by encoding (RFC 3629), decimal numbers by the
    standard library's, letter case and white space by tables. *)
From Coq Require Import Decimal.
From Verif Require Export S_Wire.

(** Unicode scalar values and their encoding *)
Definition scalar (c : N) : Prop := (c < 55296 \/ 57344 <= c < 1114112)%N.
Definition byte_of (n : N) : byte := ascii_of_N n.
(** the [i]-th group of six bits, as a continuation byte *)
Definition six (i c : N) : byte := byte_of (128 + (c / 64 ^ i) mod 64).
Definition encode (c : N) : bytes :=
  if (c <? 128)%N then [byte_of c]
  else if (c <? 2048)%N then [byte_of (192 + c / 64); six 0 c]
  else if (c <? 65536)%N then [byte_of (224 + c / 64 ^ 2); six 1 c; six 0 c]
  else [byte_of (240 + c / 64 ^ 3); six 2 c; six 1 c; six 0 c].
Definition utf8 (cs : list N) : bytes := concat (map encode cs).

(** numbers, as the standard library writes them *)
Fixpoint digits_of (u : uint) : bytes :=
  match u with
  | Nil => []
  | D0 u => "0"%char :: digits_of u | D1 u => "1"%char :: digits_of u | D2 u => "2"%char :: digits_of u
  | D3 u => "3"%char :: digits_of u | D4 u => "4"%char :: digits_of u | D5 u => "5"%char :: digits_of u
  | D6 u => "6"%char :: digits_of u | D7 u => "7"%char :: digits_of u | D8 u => "8"%char :: digits_of u
  | D9 u => "9"%char :: digits_of u
  end.
Definition shown (n : N) : bytes := digits_of (N.to_uint n).

(** letters *)
Definition letters : list (byte * byte) :=
  combine (B "ABCDEFGHIJKLMNOPQRSTUVWXYZ") (B "abcdefghijklmnopqrstuvwxyz").
Fixpoint in_table (t : list (byte * byte)) (b : byte) : byte :=
  match t with
  | [] => b
  | (x, y) :: t' => if ascii_dec b x then y else in_table t' b
  end.
Definition small (s : bytes) : bytes := map (in_table letters) s.

(** Unicode's White_Space characters *)
Definition white : list N :=
  [9; 10; 11; 12; 13; 32; 133; 160; 5760; 8192; 8193; 8194; 8195; 8196; 8197; 8198; 8199; 8200; 8201; 8202;
   8232; 8233; 8239; 8287; 12288]%N.

(** [t] is [s] without the elements of [w] at its ends *)
Definition trimmed {A} (w : A -> Prop) (s t : list A) : Prop :=
  exists a b, s = a ++ t ++ b /\ Forall w a /\ Forall w b
    /\ (forall x t', t = x :: t' -> ~ w x) /\ (forall x t', t = t' ++ [x] -> ~ w x).
