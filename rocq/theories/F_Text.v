(** Text: the model's helpers against S_Text. *)
From Coq Require Import ZArith Decimal DecimalFacts DecimalN DecimalPos.
From Verif Require Export F_Reader S_Text S_Body M_LogConfig.
From Coq Require Import Lia.

Ltac Zify.zify_post_hook ::= Z.to_euclidean_division_equations.

Lemma code_of n : (n < 256)%N -> code (byte_of n) = n.
Proof. intros H. unfold code, byte_of. now apply N_ascii_embedding. Qed.
Lemma of_code b : byte_of (code b) = b.
Proof. unfold code, byte_of. apply ascii_N_embedding. Qed.
Lemma code_lt b : (code b < 256)%N.
Proof. unfold code. apply N_ascii_bounded. Qed.

Ltac boolN :=
  repeat (match goal with
  | H : context[(?a <? ?b)%N] |- _ => destruct (N.ltb_spec a b)
  | |- context[(?a <? ?b)%N] => destruct (N.ltb_spec a b)
  | |- context[(?a <=? ?b)%N] => destruct (N.leb_spec a b)
  | |- context[(?a =? ?b)%N] => destruct (N.eqb_spec a b)
  | H : context[(?a <=? ?b)%N] |- _ => destruct (N.leb_spec a b)
  | H : context[(?a =? ?b)%N] |- _ => destruct (N.eqb_spec a b)
  end; cbn [andb orb] in *; try lia).

(** the groups of bits as plain divisions *)
Lemma six0 c : six 0 c = byte_of (128 + c mod 64).
Proof. unfold six. change (64 ^ 0)%N with 1%N. now rewrite N.div_1_r. Qed.
Lemma six1 c : six 1 c = byte_of (128 + (c / 64) mod 64). Proof. reflexivity. Qed.
Lemma six2 c : six 2 c = byte_of (128 + (c / 4096) mod 64). Proof. reflexivity. Qed.

Lemma decode_encode c s : scalar c -> utf8_decode (encode c ++ s) = option_map (cons c) (utf8_decode s).
Proof.
  intros H. unfold scalar in H. unfold encode. rewrite six0, six1, six2.
  change (64 ^ 2)%N with 4096%N. change (64 ^ 3)%N with 262144%N.
  destruct (N.ltb_spec c 128) as [A|A].
  { cbn [app utf8_decode]. rewrite code_of by lia. destruct (N.ltb_spec c 128); [reflexivity|lia]. }
  assert (D0 : (c = 64 * (c / 64) + c mod 64 /\ c mod 64 < 64)%N) by (clear; lia).
  assert (D1 : (c / 64 = 64 * (c / 4096) + (c / 64) mod 64 /\ (c / 64) mod 64 < 64)%N) by (clear; lia).
  assert (D2 : (c / 4096 = 64 * (c / 262144) + (c / 4096) mod 64 /\ (c / 4096) mod 64 < 64)%N) by (clear; lia).
  revert D0 D1 D2. generalize (c / 64)%N (c mod 64)%N (c / 4096)%N ((c / 64) mod 64)%N (c / 262144)%N ((c / 4096) mod 64)%N.
  intros a0 a1 a2 a3 a4 a5 D0 D1 D2.
  destruct (N.ltb_spec c 2048) as [A2|A2].
  { cbn [app utf8_decode]. unfold cont, low6, in_range. rewrite !code_of by lia. boolN. f_equal. f_equal. lia. }
  destruct (N.ltb_spec c 65536) as [A3|A3]; cbn [app utf8_decode]; unfold cont, low6, in_range;
    rewrite !code_of by lia; boolN; f_equal; f_equal; lia.
Qed.

Lemma decode_utf8 cs : Forall scalar cs -> utf8_decode (utf8 cs) = Some cs.
Proof.
  induction cs as [|c cs IH]; intros H; [reflexivity|]. inversion_clear H as [|? ? H1 H2].
  unfold utf8. cbn [map concat]. rewrite decode_encode by exact H1.
  unfold utf8 in IH. now rewrite IH.
Qed.

Lemma of_code_eq n b : n = code b -> byte_of n = b.
Proof. intros ->. apply of_code. Qed.

Lemma ands a b c d : ((a <=? b) && (c <=? d))%N = true -> (a <= b /\ c <= d)%N.
Proof. intros H. apply andb_true_iff in H as [H1 H2]. now apply N.leb_le in H1, H2. Qed.

Lemma encode_decode : forall n s cs, length s <= n -> utf8_decode s = Some cs -> Forall scalar cs /\ s = utf8 cs.
Proof.
  induction n as [|n IH]; intros s cs Hl H.
  { destruct s; [|simpl in Hl; lia]. cbn in H. injection H as <-. split; [constructor|reflexivity]. }
  assert (step : forall p s1 c, length s1 <= n -> option_map (cons c) (utf8_decode s1) = Some cs ->
    scalar c -> p = encode c -> Forall scalar cs /\ p ++ s1 = utf8 cs).
  { intros p s1 c L E S ->. destruct (utf8_decode s1) as [cs1|] eqn:D; [|discriminate].
    injection E as <-. destruct (IH s1 cs1 L D) as (F & ->). split; [now constructor|reflexivity]. }
  destruct s as [|a s1]; [injection H as <-; split; [constructor|reflexivity]|].
  cbn [utf8_decode] in H. cbn [length] in Hl.
  destruct (N.ltb_spec (code a) 128) as [A|A].
  { apply (step [a] s1 (code a)); [lia|exact H|left; lia|]. unfold encode.
    destruct (N.ltb_spec (code a) 128); [now rewrite of_code|lia]. }
  destruct s1 as [|b s2]; [discriminate|]. cbn [length] in Hl.
  unfold cont, low6, in_range in H.
  pose proof (code_lt a) as La. pose proof (code_lt b) as Lb.
  destruct ((194 <=? code a) && (code a <=? 223))%N eqn:E2.
  { destruct ((128 <=? code b) && (code b <=? 191))%N eqn:Cb; [|discriminate].
    apply ands in E2, Cb.
    apply (step [a; b] s2) in H; [exact H|lia|left; lia|].
    unfold encode. rewrite six0. boolN. f_equal; [|f_equal]; symmetry; apply of_code_eq; lia. }
  destruct s2 as [|d s3]; [discriminate|]. cbn [length] in Hl. pose proof (code_lt d) as Ld.
  destruct ((224 <=? code a) && (code a <=? 239))%N eqn:E3.
  { match type of H with (if ?c then _ else _) = _ => destruct c eqn:C; [|discriminate] end.
    apply andb_true_iff in C as [C C2]. apply andb_true_iff in C as [C C1]. apply andb_true_iff in C as [Cb Cd].
    apply ands in E3, Cb, Cd.
    apply (step [a; b; d] s3) in H; [exact H|lia| |].
    - unfold scalar. revert C1 C2. destruct (N.eqb_spec (code a) 224), (N.eqb_spec (code a) 237);
        intros X Y; try apply ands in X; try apply ands in Y; lia.
    - unfold encode. rewrite six0, six1. change (64 ^ 2)%N with 4096%N.
      revert C1. clear C2 step. destruct (N.eqb_spec (code a) 224) as [Ea|Ea]; intros C1; try apply ands in C1;
      boolN; (f_equal; [|f_equal; [|f_equal]]; symmetry; apply of_code_eq; lia). }
  destruct s3 as [|e s4]; [discriminate|]. cbn [length] in Hl. pose proof (code_lt e) as Le.
  destruct ((240 <=? code a) && (code a <=? 244))%N eqn:E4; [|discriminate].
  match type of H with (if ?c then _ else _) = _ => destruct c eqn:C; [|discriminate] end.
  apply andb_true_iff in C as [C C2]. apply andb_true_iff in C as [C C1]. apply andb_true_iff in C as [C Ce].
  apply andb_true_iff in C as [Cb Cd]. apply ands in E4, Cb, Cd, Ce.
  apply (step [a; b; d; e] s4) in H; [exact H|lia| |].
  - unfold scalar. revert C1 C2. destruct (N.eqb_spec (code a) 240), (N.eqb_spec (code a) 244);
      intros X Y; try apply ands in X; try apply ands in Y; lia.
  - unfold encode. rewrite six0, six1, six2. change (64 ^ 2)%N with 4096%N. change (64 ^ 3)%N with 262144%N.
    revert C1. clear C2 step. destruct (N.eqb_spec (code a) 240) as [Ea|Ea]; intros C1; try apply ands in C1;
    boolN; (f_equal; [|f_equal; [|f_equal; [|f_equal]]]; symmetry; apply of_code_eq; lia).
Qed.

Lemma utf8_exact s cs : utf8_decode s = Some cs <-> Forall scalar cs /\ s = utf8 cs.
Proof.
  split; [apply (encode_decode (length s)); lia|]. intros (H & ->). now apply decode_utf8.
Qed.

(** ** Numbers shown *)
Lemma digit_cases b : digit b -> b = "0"%char \/ b = "1"%char \/ b = "2"%char \/ b = "3"%char \/ b = "4"%char
  \/ b = "5"%char \/ b = "6"%char \/ b = "7"%char \/ b = "8"%char \/ b = "9"%char.
Proof.
  unfold digit. intros H. rewrite <- (ascii_N_embedding b). generalize dependent (N_of_ascii b). intros c H.
  assert (X : (c = 48 \/ c = 49 \/ c = 50 \/ c = 51 \/ c = 52 \/ c = 53 \/ c = 54 \/ c = 55 \/ c = 56 \/ c = 57)%N) by lia.
  clear H. intuition (subst c; vm_compute; tauto).
Qed.
Lemma undigits s : Forall digit s -> exists u, digits_of u = s.
Proof.
  induction 1 as [|b s H _ (u & <-)]; [now exists Nil|].
  destruct (digit_cases b H) as [->|[->|[->|[->|[->|[->|[->|[->|[->| ->]]]]]]]]];
    [exists (D0 u)|exists (D1 u)|exists (D2 u)|exists (D3 u)|exists (D4 u)|exists (D5 u)|exists (D6 u)
    |exists (D7 u)|exists (D8 u)|exists (D9 u)]; reflexivity.
Qed.
Lemma acc_value u : forall p,
  N.pos (Pos.of_uint_acc u p) = fold_left (fun v b => 10 * v + (N_of_ascii b - 48))%N (digits_of u) (N.pos p).
Proof.
  induction u as [|u IH|u IH|u IH|u IH|u IH|u IH|u IH|u IH|u IH|u IH]; intros p; [reflexivity|..];
    cbn [Pos.of_uint_acc digits_of fold_left]; rewrite IH; f_equal; cbv [N_of_ascii N_of_digits]; lia.
Qed.
Lemma uint_value u : N.of_uint u = decimal (digits_of u).
Proof.
  unfold N.of_uint, decimal. induction u; [reflexivity|exact IHu|..]; cbn [Pos.of_uint digits_of fold_left]; rewrite acc_value; reflexivity.
Qed.
Lemma dec_aux_head fuel : forall n acc, (n < 10 ^ N.of_nat fuel)%N -> n <> 0%N ->
  exists b ds, dec_aux fuel n acc = b :: ds ++ acc /\ b <> "0"%char.
Proof.
  induction fuel as [|f IH]; intros n acc Hn Z.
  { change (10 ^ N.of_nat 0)%N with 1%N in Hn. lia. }
  cbn [dec_aux]. destruct (N.eqb_spec (n / 10) 0) as [E|E].
  - exists (digit_byte (n mod 10)), []. split; [reflexivity|]. intros X. apply (f_equal code) in X.
    rewrite code_digit in X by lia. change (code "0") with 48%N in X. lia.
  - destruct (IH (n / 10)%N (digit_byte (n mod 10) :: acc)) as (b & ds & H1 & H2); [|exact E|].
    { rewrite Nat2N.inj_succ, N.pow_succ_r' in Hn. apply N.div_lt_upper_bound; lia. }
    exists b, (ds ++ [digit_byte (n mod 10)]). split; [|exact H2]. now rewrite H1, <- app_assoc.
Qed.
Lemma dec_head n : n <> 0%N -> exists b ds, dec n = b :: ds /\ b <> "0"%char.
Proof.
  intros Z. destruct (dec_aux_head _ n [] (size_pow10 n) Z) as (b & ds & H1 & H2).
  exists b, ds. split; [|exact H2]. unfold dec. now rewrite H1, app_nil_r.
Qed.
Lemma decimal_of s : decimal s = dvalue (map code s).
Proof.
  unfold decimal, dvalue. generalize 0%N. induction s as [|b l IH]; intros v; [reflexivity|].
  cbn [fold_left map]. rewrite IH. f_equal. unfold code. lia.
Qed.
Lemma digits_of_b s : forallb is_digit (map code s) = true <-> Forall digit s.
Proof.
  rewrite forallb_forall, Forall_forall. split.
  - intros H b I. specialize (H (code b) (in_map code _ _ I)). now apply ands in H.
  - intros H c I. apply in_map_iff in I as (b & <- & I). specialize (H b I). unfold digit in H.
    unfold is_digit, in_range, code. destruct H as [H1 H2]. apply andb_true_iff. now rewrite !N.leb_le.
Qed.
Lemma dec_numeral n : numeral (dec n) n.
Proof.
  destruct (dec_value n) as (H1 & H2 & H3). unfold numeral. splits; [exact H1|now apply digits_of_b|now rewrite decimal_of].
Qed.
Lemma dec_shown n : dec n = shown n.
Proof.
  destruct (N.eq_dec n 0) as [->|Z]; [reflexivity|].
  destruct (dec_numeral n) as (H1 & H2 & H3). destruct (undigits _ H2) as (u & U).
  assert (V : N.of_uint u = n) by (now rewrite uint_value, U).
  unfold shown. rewrite <- V at 2. rewrite DecimalN.Unsigned.to_of, <- U.
  destruct (dec_head n Z) as (b & ds & E & Nb). rewrite <- U in E. f_equal.
  destruct u; [discriminate E|injection E as E _; now destruct Nb|..]; reflexivity.
Qed.
Lemma dec_str_shown n : dec_str n = map N_of_ascii (shown (N.of_nat n)).
Proof. now rewrite <- dec_shown. Qed.

(** ** Letters and white space *)
Lemma lower_small s : lower s = small s.
Proof.
  unfold lower, small. apply map_ext. intros b.
  assert (H : forall b, Ascii.eqb (to_lower b) (in_table letters b) = true) by (apply byte_sweep; vm_compute; reflexivity).
  apply Ascii.eqb_eq, H.
Qed.
Lemma small_same a b : eq_ignore_case a b = true <-> small a = small b.
Proof. unfold eq_ignore_case. rewrite !lower_small. apply bytes_eqb_eq. Qed.
Lemma is_ws_white c : is_ws c = true <-> In c white.
Proof.
  unfold is_ws, white, in_range. rewrite !orb_true_iff, !andb_true_iff, !N.leb_le, !N.eqb_eq. cbn [In]. lia.
Qed.
Lemma trim_trimmed {A} (p : A -> bool) (w : A -> Prop) s t : (forall x, p x = true <-> w x) ->
  trim_by p s = t <-> trimmed w s t.
Proof.
  intros H. assert (F : forall l, forallb p l = true <-> Forall w l).
  { intros l. rewrite forallb_forall, Forall_forall. split; intros G x I; apply H, G, I. }
  assert (Nt : forall x, p x = false <-> ~ w x). { intros x. rewrite <- H. destruct (p x); intuition congruence. }
  split.
  - intros <-. destruct (trim_by_split p s) as (a & b & E & Fa & Fb). exists a, b. splits.
    + exact E.
    + now apply F.
    + now apply F.
    + intros x t' E'. now apply Nt, (trim_by_head p s x t').
    + intros x t' E'. now apply Nt, (trim_by_last p s x t').
  - intros (a & b & -> & Fa & Fb & H1 & H2). apply trim_by_unique; try (now apply F).
    + intros x r E. now apply Nt, (H1 x r).
    + intros x r E. now apply Nt, (H2 x r).
Qed.

(** ** Numbers read *)
Lemma parse_numeral max s n :
  parse_uint_b max s = Some n <-> (n <= max)%N /\ (numeral s n \/ exists t, s = PLUS :: t /\ numeral t n).
Proof.
  unfold parse_uint_b. rewrite parse_uint_spec. split.
  - intros (ds & [E|E] & Hn & Hd & Hv & Hm); (split; [lia|]).
    + subst ds. left. unfold numeral. splits; [intros ->; now destruct Hn|now apply digits_of_b|now rewrite decimal_of].
    + destruct s as [|b s]; [discriminate E|]. injection E as E1 E2. right. exists s. subst ds. split.
      { f_equal. rewrite <- (of_code b), E1. reflexivity. }
      unfold numeral. splits; [intros ->; now destruct Hn|now apply digits_of_b|now rewrite decimal_of].
  - intros (Hm & [(H1 & H2 & H3)|(t & -> & H1 & H2 & H3)]).
    + exists (map code s). splits; [now left|now destruct s|now apply digits_of_b|now rewrite <- decimal_of|exact Hm].
    + exists (map code t). splits; [now right|now destruct t|now apply digits_of_b|now rewrite <- decimal_of|exact Hm].
Qed.

(** ** Lines *)
Lemma line_exact lim r t r' : read_line lim r = Ret (Some t, r') ->
  (exists cs, Forall scalar cs /\ t = utf8 cs) /\ flat r = t ++ flat r' /\ (N.of_nat (length t) <= lim)%N.
Proof.
  intros H. pose proof (read_line_flat lim r) as F. rewrite H in F. cbn in F. unfold fl_line in F.
  destruct (fu LF lim (flat r) (fin r)) as [[o [rest e]]| | | |] eqn:E; try discriminate F. cbn [obind fst snd] in F.
  apply fu_inv in E as (-> & E). destruct o as [t1|]; [|discriminate F].
  destruct (utf8_decode t1) as [cs|] eqn:U; [|discriminate F]. injection F as -> -> _.
  apply utf8_exact in U. destruct E as (E & L & _). splits; [exists cs; exact U|exact E|exact L].
Qed.
Lemma line_refused lim r r' : read_line lim r = Ret (None, r') ->
  fin r = IoErr \/ exists t, flat r = t ++ flat r' /\ forall cs, Forall scalar cs -> t <> utf8 cs.
Proof.
  intros H. pose proof (read_line_flat lim r) as F. rewrite H in F. cbn in F. unfold fl_line in F.
  destruct (fu LF lim (flat r) (fin r)) as [[o [rest e]]| | | |] eqn:E; try discriminate F. cbn [obind fst snd] in F.
  apply fu_inv in E as (-> & E). destruct o as [t1|]; [|left; apply E].
  destruct (utf8_decode t1) as [cs|] eqn:U; [discriminate F|]. injection F as -> _.
  right. exists t1. split; [apply E|]. intros cs Hc X.
  rewrite (proj2 (utf8_exact t1 cs) (conj Hc X)) in U. discriminate U.
Qed.
