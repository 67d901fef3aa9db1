(** Property C101: text and numbers as the standards have them. *)
From Verif Require Import F_Text.
From Coq Require Import Lia.

(** The text of a line is accepted exactly if its bytes are the encoding of Unicode characters. *)
Theorem C101_utf8 : forall s cs, utf8_decode s = Some cs <-> Forall scalar cs /\ s = utf8 cs.
Proof. exact utf8_exact. Qed.
Print Assumptions C101_utf8.
Theorem C101_line_is_text : forall lim r t r', read_line lim r = Ret (Some t, r') ->
  (exists cs, Forall scalar cs /\ t = utf8 cs) /\ flat r = t ++ flat r' /\ (N.of_nat (length t) <= lim)%N.
Proof. exact line_exact. Qed.
Print Assumptions C101_line_is_text.
(** A line is refused only if the connection fails or the bytes taken are not such an encoding. *)
Theorem C101_line_refused : forall lim r r', read_line lim r = Ret (None, r') ->
  fin r = IoErr \/ exists t, flat r = t ++ flat r' /\ forall cs, Forall scalar cs -> t <> utf8 cs.
Proof. exact line_refused. Qed.
Print Assumptions C101_line_refused.
Example C101_nonvacuous :
  Forall scalar [104; 228; 8364; 128169]%N
  /\ utf8 [104; 228; 8364; 128169]%N = map ascii_of_N [104; 195; 164; 226; 130; 172; 240; 159; 146; 169]%N
  /\ read_line 20 (Rd [map ascii_of_N [195; 164]%N; LF :: B "x"] Eof) = Ret (Some (map ascii_of_N [195; 164; 10]%N), Rd [B "x"] Eof)
  /\ read_line 20 (Rd [map ascii_of_N [195]%N; LF :: B "x"] Eof) = Ret (None, Rd [B "x"] Eof).
Proof. split; [|vm_compute; auto]. repeat apply Forall_cons; try apply Forall_nil; unfold scalar; lia. Qed.

(** Numbers are written as Coq's standard library writes them: in decimal, without leading zeros. *)
Theorem C101_numbers : forall n, dec n = shown n.
Proof. exact dec_shown. Qed.
Print Assumptions C101_numbers.
Theorem C101_file_numbers : forall n, dec_str n = map N_of_ascii (shown (N.of_nat n)).
Proof. exact dec_str_shown. Qed.
Print Assumptions C101_file_numbers.
(** A number is read, up to the given limit, if it is written in decimal digits, a plus sign allowed. *)
Theorem C101_numbers_read : forall max s n,
  parse_uint_b max s = Some n <-> (n <= max)%N /\ (numeral s n \/ exists t, s = PLUS :: t /\ numeral t n).
Proof. exact parse_numeral. Qed.
Print Assumptions C101_numbers_read.
Example C101_numbers_nonvacuous : shown 0 = B "0" /\ shown 1204 = B "1204" /\ dec 18446744073709551615 = B "18446744073709551615"
  /\ parse_uint_b 255 (B "+0255") = Some 255%N /\ parse_uint_b 255 (B "256") = None /\ parse_uint_b 255 (B "+") = None.
Proof. vm_compute. auto 10. Qed.

(** Names are compared without regard to the case of the letters A to Z, and only these. *)
Theorem C101_case : forall a b, lower a = small a /\ (eq_ignore_case a b = true <-> small a = small b).
Proof. intros a b. split; [apply lower_small|apply small_same]. Qed.
Print Assumptions C101_case.
(** What is trimmed and skipped is Unicode's white space. *)
Theorem C101_white_space : forall s t, trim_by is_ws s = t <-> trimmed (fun c => In c white) s t.
Proof. intros s t. apply trim_trimmed. exact is_ws_white. Qed.
Print Assumptions C101_white_space.
Theorem C101_white_bytes : forall s t, trim s = t <-> trimmed (fun b => In (N_of_ascii b) white) s t.
Proof. intros s t. apply trim_trimmed. intros b. apply is_ws_white. Qed.
Print Assumptions C101_white_bytes.
Example C101_case_nonvacuous : eq_ignore_case (B "Content-[Z]") (B "cONTENT-[z]") = true
  /\ eq_ignore_case (B "[") (B "{") = false /\ trim_by is_ws [8232; 97; 32; 98; 12288]%N = [97; 32; 98]%N
  /\ trim (ascii_of_N 160 :: B " a b ") = B "a b".
Proof. vm_compute. auto. Qed.
