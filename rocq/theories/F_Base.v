(** Facts about M_Base. *)
From Verif Require Import M_Base.
From Coq Require Export ZifyBool ZifyNat ZifyN.
Ltac Zify.zify_post_hook ::= Z.div_mod_to_equations.

Ltac splits := repeat match goal with |- _ /\ _ => split end.

Lemma bytes_eqb_refl a : bytes_eqb a a = true.
Proof. induction a as [|x a IH]; simpl; [easy|]. now rewrite Ascii.eqb_refl. Qed.

Lemma bytes_eqb_eq a b : bytes_eqb a b = true <-> a = b.
Proof.
  split; [|intros ->; apply bytes_eqb_refl].
  revert b; induction a as [|x a IH]; intros [|y b]; simpl; try easy.
  rewrite andb_true_iff, Ascii.eqb_eq. intros [-> H]. now rewrite (IH b H).
Qed.

Lemma bytes_eqb_neq a b : bytes_eqb a b = false <-> a <> b.
Proof. rewrite <- bytes_eqb_eq. destruct (bytes_eqb a b); split; congruence. Qed.

Lemma bytes_eqb_sym a b : bytes_eqb a b = bytes_eqb b a.
Proof.
  destruct (bytes_eqb b a) eqn:E.
  - apply bytes_eqb_eq in E as ->. apply bytes_eqb_refl.
  - apply bytes_eqb_neq. intros ->. now rewrite bytes_eqb_refl in E.
Qed.

Definition bytes_dec (a b : bytes) : {a = b} + {a <> b} := list_eq_dec ascii_dec a b.

Lemma bytes_eqb_spec a b : reflect (a = b) (bytes_eqb a b).
Proof. apply iff_reflect. symmetry. apply bytes_eqb_eq. Qed.

(** sweeping over all 256 bytes *)
Lemma byte_sweep (P : byte -> bool) :
  forallb P (map ascii_of_nat (seq 0 256)) = true -> forall b, P b = true.
Proof.
  intros H b. rewrite forallb_forall in H. apply H.
  rewrite <- (ascii_nat_embedding b). apply in_map, in_seq.
  pose proof (nat_ascii_bounded b). lia.
Qed.

Lemma code_lt b : (code b < 256)%N.
Proof. unfold code. apply N_ascii_bounded. Qed.

Lemma code_inj a b : code a = code b -> a = b.
Proof.
  unfold code. intros H. rewrite <- (ascii_N_embedding a), <- (ascii_N_embedding b).
  now rewrite H.
Qed.

Lemma to_lower_printable b : is_printable (to_lower b) = is_printable b.
Proof.
  revert b. cut (forall b, Bool.eqb (is_printable (to_lower b)) (is_printable b) = true).
  - intros H b. apply eqb_prop, H.
  - apply byte_sweep. vm_compute. reflexivity.
Qed.

Lemma to_lower_idem b : to_lower (to_lower b) = to_lower b.
Proof.
  revert b. cut (forall b, Ascii.eqb (to_lower (to_lower b)) (to_lower b) = true).
  - intros H b. apply Ascii.eqb_eq, H.
  - apply byte_sweep. vm_compute. reflexivity.
Qed.

Lemma to_lower_ws b : byte_ws (to_lower b) = byte_ws b.
Proof.
  revert b. cut (forall b, Bool.eqb (byte_ws (to_lower b)) (byte_ws b) = true).
  - intros H b. apply eqb_prop, H.
  - apply byte_sweep. vm_compute. reflexivity.
Qed.

Lemma printable_ascii b : is_printable b = true -> (32 <= code b <= 126)%N.
Proof.
  revert b. cut (forall b, implb (is_printable b) (in_range 32 126 (code b)) = true).
  - intros H b Hb. specialize (H b). rewrite Hb in H. unfold in_range in H. simpl in H. lia.
  - apply byte_sweep. vm_compute. reflexivity.
Qed.

Lemma printable_iff b : is_printable b = true <-> (32 <= code b <= 126)%N.
Proof.
  split; [apply printable_ascii|].
  revert b. cut (forall b, implb (in_range 32 126 (code b)) (is_printable b) = true).
  - intros H b Hb. specialize (H b).
    assert (E : in_range 32 126 (code b) = true) by (unfold in_range; lia).
    now rewrite E in H.
  - apply byte_sweep. vm_compute. reflexivity.
Qed.

Lemma printable_ws b : is_printable b = true -> (byte_ws b = true <-> b = SP).
Proof.
  intros Hp.
  assert (H : implb (is_printable b) (Bool.eqb (byte_ws b) (Ascii.eqb b SP)) = true).
  { revert b Hp. intros b _. revert b. apply byte_sweep. vm_compute. reflexivity. }
  rewrite Hp in H. simpl in H. apply eqb_prop in H. rewrite H. apply Ascii.eqb_eq.
Qed.

Lemma lower_length s : length (lower s) = length s.
Proof. apply map_length. Qed.

Lemma lower_app a b : lower (a ++ b) = lower a ++ lower b.
Proof. apply map_app. Qed.

Lemma lower_idem s : lower (lower s) = lower s.
Proof. unfold lower. rewrite map_map. apply map_ext, to_lower_idem. Qed.

Lemma lower_printable s : forallb is_printable (lower s) = forallb is_printable s.
Proof.
  induction s as [|c s IH]; simpl; [easy|]. now rewrite to_lower_printable, IH.
Qed.

(** ** trimming *)
Lemma drop_while_split {A} (p : A -> bool) l :
  exists pre, l = pre ++ drop_while p l /\ forallb p pre = true.
Proof.
  induction l as [|x l IH]; simpl.
  - now exists [].
  - destruct (p x) eqn:E.
    + destruct IH as (pre & H1 & H2). exists (x :: pre). simpl.
      rewrite E, H2. split; [|easy]. now f_equal.
    + now exists [].
Qed.

Lemma drop_while_head {A} (p : A -> bool) l x r :
  drop_while p l = x :: r -> p x = false.
Proof.
  induction l as [|y l IH]; simpl; [easy|].
  destruct (p y) eqn:E; [exact IH|]. intros [= -> ->]. exact E.
Qed.

Lemma drop_while_nohead {A} (p : A -> bool) l :
  (forall x r, l = x :: r -> p x = false) -> drop_while p l = l.
Proof. destruct l as [|x l]; simpl; [easy|]. intros H. now rewrite (H x l). Qed.

Lemma drop_while_all {A} (p : A -> bool) l : forallb p l = true -> drop_while p l = [].
Proof.
  induction l as [|x l IH]; simpl; [easy|].
  rewrite andb_true_iff. intros [-> H]. now apply IH.
Qed.

Lemma drop_while_app_all {A} (p : A -> bool) l m :
  forallb p l = true -> drop_while p (l ++ m) = drop_while p m.
Proof.
  induction l as [|x l IH]; simpl; [easy|].
  rewrite andb_true_iff. intros [-> H]. now apply IH.
Qed.

Lemma drop_while_app_stop {A} (p : A -> bool) l m :
  forallb p l = false -> drop_while p (l ++ m) = drop_while p l ++ m.
Proof.
  induction l as [|x l IH]; simpl; [easy|].
  destruct (p x); simpl; [exact IH|easy].
Qed.

Lemma forallb_rev {A} (p : A -> bool) l : forallb p (rev l) = forallb p l.
Proof.
  induction l as [|x l IH]; simpl; [easy|].
  rewrite forallb_app, IH. simpl. rewrite andb_true_r. apply andb_comm.
Qed.

Lemma forallb_drop_while {A} (p q : A -> bool) l :
  forallb q l = true -> forallb q (drop_while p l) = true.
Proof.
  induction l as [|x l IH]; simpl; [easy|].
  rewrite andb_true_iff. intros [Hx Hl]. destruct (p x); [now apply IH|].
  simpl. now rewrite Hx.
Qed.

(** [trim_by] removes exactly the surrounding characters satisfying [p]. *)
Lemma trim_by_split {A} (p : A -> bool) l :
  exists pre post, l = pre ++ trim_by p l ++ post
    /\ forallb p pre = true /\ forallb p post = true.
Proof.
  destruct (drop_while_split p l) as (pre & H1 & H2).
  destruct (drop_while_split p (rev (drop_while p l))) as (q & H3 & H4).
  exists pre, (rev q). unfold trim_by. rewrite forallb_rev. repeat split; try easy.
  rewrite <- rev_app_distr, <- H3, rev_involutive. exact H1.
Qed.

Lemma trim_by_head {A} (p : A -> bool) l x r : trim_by p l = x :: r -> p x = false.
Proof.
  unfold trim_by. intros H.
  destruct (drop_while_split p (rev (drop_while p l))) as (q & H3 & H4).
  assert (E : drop_while p l = (x :: r) ++ rev q).
  { rewrite <- H, <- rev_app_distr, <- H3. now rewrite rev_involutive. }
  exact (drop_while_head p l x (r ++ rev q) E).
Qed.

Lemma trim_by_last {A} (p : A -> bool) l x r : trim_by p l = r ++ [x] -> p x = false.
Proof.
  unfold trim_by. intros H. apply (f_equal (@rev A)) in H.
  rewrite rev_involutive, rev_app_distr in H. exact (drop_while_head _ _ _ _ H).
Qed.

Lemma trim_by_unique {A} (p : A -> bool) pre t post :
  forallb p pre = true -> forallb p post = true ->
  (forall x r, t = x :: r -> p x = false) ->
  (forall x r, t = r ++ [x] -> p x = false) ->
  trim_by p (pre ++ t ++ post) = t.
Proof.
  intros Hpre Hpost Hh Hl. unfold trim_by.
  rewrite drop_while_app_all by exact Hpre.
  destruct t as [|x t].
  - simpl. rewrite (drop_while_all p post) by exact Hpost. reflexivity.
  - assert (Hx : p x = false) by (eapply Hh; reflexivity).
    rewrite drop_while_app_stop by (simpl; now rewrite Hx).
    simpl (drop_while p (x :: t)). rewrite Hx.
    rewrite rev_app_distr, drop_while_app_all by (now rewrite forallb_rev).
    rewrite drop_while_nohead, rev_involutive; [easy|].
    intros y r Hr. apply (Hl y (rev r)).
    apply (f_equal (@rev A)) in Hr. rewrite rev_involutive in Hr. exact Hr.
Qed.

Lemma trim_by_forallb {A} (p q : A -> bool) l :
  forallb q l = true -> forallb q (trim_by p l) = true.
Proof.
  intros H. unfold trim_by. rewrite forallb_rev. apply forallb_drop_while.
  rewrite forallb_rev. now apply forallb_drop_while.
Qed.

Lemma trim_by_length {A} (p : A -> bool) l : length (trim_by p l) <= length l.
Proof.
  destruct (trim_by_split p l) as (pre & post & H & _).
  apply (f_equal (@length A)) in H. rewrite !app_length in H. lia.
Qed.

Lemma trim_by_id {A} (p : A -> bool) t :
  (forall x r, t = x :: r -> p x = false) ->
  (forall x r, t = r ++ [x] -> p x = false) -> trim_by p t = t.
Proof.
  intros H1 H2. pose proof (trim_by_unique p [] t [] eq_refl eq_refl H1 H2) as H.
  simpl in H. now rewrite app_nil_r in H.
Qed.

Lemma trim_by_nop {A} (p : A -> bool) t :
  forallb (fun x => negb (p x)) t = true -> trim_by p t = t.
Proof.
  intros H. rewrite forallb_forall in H. apply trim_by_id.
  - intros x r ->. specialize (H x (or_introl eq_refl)). now destruct (p x).
  - intros x r ->. specialize (H x). rewrite in_app_iff in H.
    specialize (H (or_intror (or_introl eq_refl))). now destruct (p x).
Qed.

Lemma trim_idem s : trim (trim s) = trim s.
Proof.
  apply trim_by_id; intros x r H;
    [eapply (trim_by_head byte_ws); exact H | eapply (trim_by_last byte_ws); exact H].
Qed.

(** ** decimal numerals *)
Definition dvalue (s : list N) : N := fold_left (fun a c => a * 10 + (c - 48))%N s 0%N.
Definition is_digit (c : N) : bool := in_range 48 57 c.

Lemma dvalue_acc s : forall a,
  (fold_left (fun a c => a * 10 + (c - 48)) s a = a * 10 ^ N.of_nat (length s) + dvalue s)%N.
Proof.
  unfold dvalue. induction s as [|c s IH]; intros a; cbn [fold_left length].
  - change (N.of_nat 0) with 0%N. rewrite N.pow_0_r. lia.
  - rewrite (IH (a * 10 + (c - 48))%N), (IH (0 * 10 + (c - 48))%N).
    rewrite Nat2N.inj_succ, N.pow_succ_r'. nia.
Qed.

Lemma dvalue_cons c s : dvalue (c :: s) = ((c - 48) * 10 ^ N.of_nat (length s) + dvalue s)%N.
Proof. unfold dvalue at 1. cbn [fold_left]. rewrite dvalue_acc. lia. Qed.

Lemma dvalue_snoc s c : dvalue (s ++ [c]) = (dvalue s * 10 + (c - 48))%N.
Proof. unfold dvalue. rewrite fold_left_app. reflexivity. Qed.

Lemma parse_digits_spec max s acc n :
  (acc <= max)%N ->
  (parse_digits max acc s = Some n <->
   forallb is_digit s = true
   /\ n = fold_left (fun a c => a * 10 + (c - 48))%N s acc /\ (n <= max)%N).
Proof.
  revert acc; induction s as [|c s IH]; intros acc Hacc; simpl.
  - split; [intros [= <-]; repeat split; lia|]. intros (_ & -> & _). reflexivity.
  - unfold digit_val, is_digit. destruct (in_range 48 57 c) eqn:Ed; simpl; [|easy].
    assert (Hmono : (acc * 10 + (c - 48)
              <= fold_left (fun a c => a * 10 + (c - 48)) s (acc * 10 + (c - 48)))%N).
    { rewrite (dvalue_acc s (acc * 10 + (c - 48))).
      assert (10 ^ N.of_nat (length s) <> 0)%N by (apply N.pow_nonzero; lia). nia. }
    destruct (max <? acc * 10)%N eqn:E1.
    + split; [easy|]. intros (_ & -> & Hm). lia.
    + destruct (max <? acc * 10 + (c - 48))%N eqn:E2.
      * split; [easy|]. intros (_ & -> & Hm). lia.
      * rewrite IH by lia. unfold is_digit. split; tauto.
Qed.

(** A numeral: digits, optionally preceded by '+'. *)
Lemma parse_uint_spec max s n :
  parse_uint max s = Some n <->
  exists ds, (s = ds \/ s = 43%N :: ds) /\ ds <> [] /\ forallb is_digit ds = true
             /\ n = dvalue ds /\ (n <= max)%N.
Proof.
  unfold parse_uint. destruct s as [|c s].
  - split; [easy|]. intros (ds & [<-|Hs] & H & _); easy.
  - destruct (c =? 43)%N eqn:Ec.
    + apply N.eqb_eq in Ec. subst c. destruct s as [|c' s].
      * split; [easy|].
        intros (ds & [Hs|Hs] & H & Hd & _).
        -- subst ds. vm_compute in Hd. discriminate.
        -- inversion Hs. congruence.
      * rewrite parse_digits_spec by lia. split.
        -- intros (H1 & H2 & H3). exists (c' :: s). split; [now right|].
           repeat split; try easy.
        -- intros (ds & [Hs|Hs] & H & Hd & Hv & Hm).
           ++ subst ds. simpl in Hd. discriminate.
           ++ inversion Hs. subst ds. tauto.
    + rewrite parse_digits_spec by lia. split.
      * intros (H1 & H2 & H3). exists (c :: s). repeat split; try easy. now left.
      * intros (ds & [Hs|Hs] & H & Hd & Hv & Hm).
        -- subst ds. tauto.
        -- inversion Hs. subst c. rewrite N.eqb_refl in Ec. discriminate.
Qed.

Lemma code_digit d : (d < 10)%N -> code (digit_byte d) = (48 + d)%N.
Proof. intros H. unfold code, digit_byte. apply N_ascii_embedding. lia. Qed.

Lemma dec_aux_spec fuel n acc :
  (n < 10 ^ N.of_nat fuel)%N -> 0 < fuel ->
  exists ds, dec_aux fuel n acc = ds ++ acc /\ ds <> []
    /\ forallb is_digit (map code ds) = true /\ dvalue (map code ds) = n.
Proof.
  revert n acc; induction fuel as [|f IH]; intros n acc Hn Hf; [lia|].
  pose proof (N.div_mod n 10) as Hdm. pose proof (N.mod_lt n 10) as Hml.
  simpl. destruct (n / 10 =? 0)%N eqn:E.
  - exists [digit_byte (n mod 10)]. split; [easy|]. split; [easy|].
    cbn [map forallb]. unfold dvalue. cbn [fold_left].
    rewrite code_digit by (apply N.mod_lt; lia).
    unfold is_digit, in_range. apply N.eqb_eq in E.
    generalize dependent (n / 10)%N. generalize dependent (n mod 10)%N. intros.
    split; lia.
  - assert (Hf' : 0 < f).
    { destruct f; [|lia]. simpl in Hn. lia. }
    rewrite Nat2N.inj_succ, N.pow_succ_r' in Hn.
    destruct (IH (n / 10)%N (digit_byte (n mod 10) :: acc)) as (ds & H1 & H2 & H3 & H4).
    { apply N.div_lt_upper_bound; lia. }
    { exact Hf'. }
    exists (ds ++ [digit_byte (n mod 10)]). rewrite H1, <- app_assoc. split; [easy|].
    split; [now destruct ds|]. rewrite map_app, forallb_app, H3. simpl map.
    rewrite dvalue_snoc, H4, code_digit by (apply N.mod_lt; lia).
    cbn [forallb]. unfold is_digit, in_range.
    generalize dependent (n / 10)%N. generalize dependent (n mod 10)%N. intros.
    split; lia.
Qed.

Lemma size_pow10 n : (n < 10 ^ N.of_nat (S (N.size_nat n)))%N.
Proof.
  apply N.lt_le_trans with (2 ^ N.of_nat (S (N.size_nat n)))%N.
  - rewrite Nat2N.inj_succ, N.pow_succ_r'.
    enough (n < 2 ^ N.of_nat (N.size_nat n))%N by nia.
    destruct n as [|p]; [simpl; lia|].
    simpl N.size_nat. induction p as [p IH|p IH|]; cbn [Pos.size_nat].
    + rewrite Nat2N.inj_succ, N.pow_succ_r'. lia.
    + rewrite Nat2N.inj_succ, N.pow_succ_r'. lia.
    + simpl. lia.
  - apply N.pow_le_mono_l. lia.
Qed.

Lemma dec_value n :
  dec n <> [] /\ forallb is_digit (map code (dec n)) = true /\ dvalue (map code (dec n)) = n.
Proof.
  unfold dec. destruct (dec_aux_spec (S (N.size_nat n)) n []) as (ds & H1 & H2 & H3 & H4).
  - apply size_pow10.
  - lia.
  - rewrite app_nil_r in H1. rewrite H1. tauto.
Qed.

Lemma parse_dec max n : (n <= max)%N -> parse_uint_b max (dec n) = Some n.
Proof.
  intros H. destruct (dec_value n) as (H1 & H2 & H3).
  apply parse_uint_spec. exists (map code (dec n)).
  split; [now left|]. split; [|now rewrite H3].
  destruct (dec n); [congruence|discriminate].
Qed.

Lemma dec_inj a b : dec a = dec b -> a = b.
Proof.
  intros H. destruct (dec_value a) as (_ & _ & Ha). destruct (dec_value b) as (_ & _ & Hb).
  rewrite <- Ha, <- Hb. now rewrite H.
Qed.

Lemma is_digit_byte b : is_digit (code b) = true ->
  is_printable b = true /\ b <> SP /\ byte_ws b = false /\ b <> COLON.
Proof.
  assert (H : forall b, implb (is_digit (code b))
    (is_printable b && negb (Ascii.eqb b SP) && negb (byte_ws b) && negb (Ascii.eqb b COLON)) = true).
  { apply byte_sweep. vm_compute. reflexivity. }
  intros Hb. specialize (H b). rewrite Hb in H. simpl in H.
  rewrite !andb_true_iff, !negb_true_iff, !Ascii.eqb_neq in H. tauto.
Qed.

Lemma dec_printable n : forallb is_printable (dec n) = true.
Proof.
  destruct (dec_value n) as (_ & H & _). rewrite forallb_forall in *. intros b Hb.
  apply is_digit_byte, H, in_map, Hb.
Qed.

Lemma dec_not_ws n : forallb (fun b => negb (byte_ws b)) (dec n) = true.
Proof.
  destruct (dec_value n) as (_ & H & _). rewrite forallb_forall in *. intros b Hb.
  assert (E : byte_ws b = false) by (apply is_digit_byte, H, in_map, Hb).
  now rewrite E.
Qed.

Lemma dec_trim n : trim (dec n) = dec n.
Proof. apply trim_by_nop, dec_not_ws. Qed.

(** ** UTF-8 of ASCII *)
Lemma utf8_ascii s : forallb (fun b => (code b <? 128)%N) s = true ->
  utf8_decode s = Some (map code s).
Proof.
  induction s as [|c s IH]; simpl; [easy|].
  rewrite andb_true_iff. intros [-> H]. now rewrite (IH H).
Qed.

Lemma utf8_printable s : forallb is_printable s = true -> utf8_decode s = Some (map code s).
Proof.
  intros H. apply utf8_ascii. rewrite forallb_forall in *. intros b Hb.
  specialize (H b Hb). apply printable_ascii in H. lia.
Qed.

(** ** list odds and ends *)
Lemma position_some {A} (p : A -> bool) l n :
  position p l = Some n ->
  exists a x b, l = a ++ x :: b /\ length a = n /\ p x = true
                /\ forallb (fun y => negb (p y)) a = true.
Proof.
  revert n; induction l as [|x l IH]; simpl; intros n; [easy|].
  destruct (p x) eqn:E.
  - intros [= <-]. exists [], x, l. repeat split; easy.
  - destruct (position p l) as [m|]; simpl; [|easy]. intros [= <-].
    destruct (IH m eq_refl) as (a & y & b & -> & <- & Hy & Ha).
    exists (x :: a), y, b. simpl. rewrite E. repeat split; easy.
Qed.

Lemma position_none {A} (p : A -> bool) l :
  position p l = None <-> forallb (fun y => negb (p y)) l = true.
Proof.
  induction l as [|x l IH]; simpl; [easy|].
  destruct (p x); simpl; [easy|].
  destruct (position p l); simpl; rewrite <- IH; easy.
Qed.

Lemma position_app {A} (p : A -> bool) a x b :
  forallb (fun y => negb (p y)) a = true -> p x = true ->
  position p (a ++ x :: b) = Some (length a).
Proof.
  intros Ha Hx. induction a as [|y a IH]; simpl in *.
  - now rewrite Hx.
  - apply andb_true_iff in Ha as [Hy Ha]. destruct (p y); [easy|]. now rewrite IH.
Qed.

Lemma update_nth_app {A} (f : A -> A) a x b :
  update_nth (length a) f (a ++ x :: b) = a ++ f x :: b.
Proof. induction a as [|y a IH]; simpl; [easy|]. now rewrite IH. Qed.

Lemma remove_nth_app {A} (a : list A) x b : remove_nth (length a) (a ++ x :: b) = a ++ b.
Proof. induction a as [|y a IH]; simpl; [easy|]. now rewrite IH. Qed.

Lemma firstn_len_app {A} (a b : list A) : firstn (length a) (a ++ b) = a.
Proof. rewrite firstn_app, Nat.sub_diag, firstn_all. simpl. apply app_nil_r. Qed.

Lemma skipn_len_app {A} (a b : list A) : skipn (length a) (a ++ b) = b.
Proof. rewrite skipn_app, Nat.sub_diag, skipn_all. reflexivity. Qed.
