(** Size and duration strings. *)
From Verif Require Export F_Base S_Units.

Lemma chars_eqb_eq a : forall b, chars_eqb a b = true <-> a = b.
Proof.
  induction a as [|x a IH]; intros [|y b]; simpl; split; try easy.
  - intros H. apply andb_true_iff in H as [H1 H2]. apply N.eqb_eq in H1. apply IH in H2. congruence.
  - intros [= -> ->]. rewrite N.eqb_refl. now apply IH.
Qed.
Lemma is_one_of_spec s ns : is_one_of s ns = true <-> exists n, In n ns /\ s = chars n.
Proof.
  unfold is_one_of. rewrite existsb_exists. split; intros (n & H1 & H2); exists n; (split; [easy|]); now apply chars_eqb_eq.
Qed.
Lemma is_one_of_false s ns : is_one_of s ns = false -> forall n, In n ns -> s <> chars n.
Proof.
  intros H n Hn E. assert (is_one_of s ns = true) as E2; [|congruence]. apply is_one_of_spec. eauto.
Qed.

Definition table_for (unit_of : list N -> option N) (table : list (string * N)) : Prop :=
  forall s f, unit_of s = Some f <-> exists name, In (name, f) table /\ s = chars name.
Ltac table_cases :=
  repeat match goal with
  | |- context [is_one_of ?s ?ns] => let E := fresh "E" in destruct (is_one_of s ns) eqn:E
  end.
Lemma chars_inj a : forall b, chars a = chars b -> a = b.
Proof.
  induction a as [|x a IH]; intros [|y b]; cbn; try easy.
  intros [= H1 H2]. f_equal; [|now apply IH].
  unfold code in H1. rewrite <- (ascii_N_embedding x), <- (ascii_N_embedding y). now rewrite H1.
Qed.
Lemma one_of_chars n ns : is_one_of (chars n) ns = existsb (String.eqb n) ns.
Proof.
  unfold is_one_of. induction ns as [|m ns IH]; [reflexivity|]. cbn [existsb]. rewrite IH. f_equal.
  destruct (chars_eqb (chars n) (chars m)) eqn:E.
  - apply chars_eqb_eq, chars_inj in E. subst. now rewrite String.eqb_refl.
  - destruct (String.eqb n m) eqn:E2; [|reflexivity]. apply String.eqb_eq in E2. subst.
    assert (chars_eqb (chars m) (chars m) = true) by now apply chars_eqb_eq. congruence.
Qed.
Lemma size_table_for : table_for size_unit coded_table.
Proof.
  intros s f. unfold size_unit. split.
  - destruct (is_one_of s _) eqn:E1; [|destruct (is_one_of s ["k"; "kb"]%string) eqn:E2;
      [|destruct (is_one_of s ["m"; "mb"]%string) eqn:E3; [|destruct (is_one_of s ["g"; "gb"]%string) eqn:E4; [|easy]]]];
    intros [= <-];
    repeat match goal with H : is_one_of _ _ = true |- _ => apply is_one_of_spec in H as (n & Hn & ->) end;
    exists n; (split; [|reflexivity]); unfold coded_table, size_table, giga_factor; cbn in Hn |- *;
    repeat destruct Hn as [<-|Hn]; try easy; tauto.
  - intros (n & Hn & ->). rewrite !one_of_chars.
    unfold coded_table, size_table in Hn. cbn in Hn.
    repeat destruct Hn as [[= <- <-]|Hn]; try reflexivity. easy.
Qed.
Lemma duration_table_for : table_for duration_unit duration_table.
Proof.
  intros s f. unfold duration_unit. split.
  - destruct (is_one_of s _) eqn:E1; [|destruct (is_one_of s ["s"]%string) eqn:E2;
      [|destruct (is_one_of s ["m"]%string) eqn:E3; [|destruct (is_one_of s ["h"]%string) eqn:E4;
      [|destruct (is_one_of s ["d"]%string) eqn:E5; [|destruct (is_one_of s ["w"]%string) eqn:E6; [|easy]]]]]];
    intros [= <-];
    repeat match goal with H : is_one_of _ _ = true |- _ => apply is_one_of_spec in H as (n & Hn & ->) end;
    exists n; (split; [|reflexivity]); unfold duration_table; cbn in Hn |- *;
    repeat destruct Hn as [<-|Hn]; try easy; tauto.
  - intros (n & Hn & ->). rewrite !one_of_chars.
    unfold duration_table in Hn. cbn in Hn.
    repeat destruct Hn as [[= <- <-]|Hn]; try reflexivity. easy.
Qed.
(** no name of a table contains white space *)
Definition spaceless (table : list (string * N)) : Prop :=
  forall n f, In (n, f) table -> forallb (fun c => negb (is_ws c) && (c <? 128)%N && negb (in_range 48 57 c)) (chars n) = true.
Lemma size_spaceless : spaceless coded_table.
Proof.
  intros n f H. unfold coded_table, size_table in H. cbn in H.
  repeat destruct H as [[= <- <-]|H]; try reflexivity. easy.
Qed.
Lemma duration_spaceless : spaceless duration_table.
Proof.
  intros n f H. unfold duration_table in H. cbn in H. repeat destruct H as [[= <- <-]|H]; try reflexivity. easy.
Qed.

(** ** splitting *)
Section Split.
Variable u : unicode.

Lemma split_unspaced s : forall done cur prev ub,
  split_chars u (unspaced s) done cur prev ub = split_chars u s done cur prev ub.
Proof.
  induction s as [|c s IH]; intros done cur prev ub; [reflexivity|]. unfold unspaced. cbn [filter].
  destruct (is_ws c) eqn:E; cbn [negb].
  - cbn [split_chars]. rewrite E. apply IH.
  - cbn [split_chars]. rewrite E.
    destruct (is_numeric u c); [destruct ub; apply IH|]. destruct (fst cur); [reflexivity|]. apply IH.
Qed.

Definition shaped (g : group) : Prop :=
  fst g <> [] /\ forallb (is_numeric u) (fst g) = true
  /\ forallb (fun c => negb (is_numeric u c)) (snd g) = true.
Definition no_ws (s : list N) : Prop := forallb (fun c => negb (is_ws c)) s = true.
Lemma no_ws_app a b : no_ws (a ++ b) <-> no_ws a /\ no_ws b.
Proof. unfold no_ws. rewrite forallb_app, andb_true_iff. reflexivity. Qed.
Lemma unspaced_no_ws s : no_ws (unspaced s).
Proof. unfold no_ws, unspaced. apply forallb_forall. intros x H. apply filter_In in H as [_ H]. exact H. Qed.

Lemma run_nums ds : forall s done n x prev, no_ws ds -> forallb (is_numeric u) ds = true ->
  split_chars u (ds ++ s) done (n, x) prev false
  = split_chars u s done (n ++ ds, x) (match ds with [] => prev | _ => Some (last ds 0%N) end) false.
Proof.
  induction ds as [|d ds IH]; intros s done n x prev Hw Hd; [now rewrite app_nil_r|].
  unfold no_ws in Hw. cbn [forallb] in Hw, Hd. apply andb_true_iff in Hw as [Hw1 Hw2]. apply andb_true_iff in Hd as [Hd1 Hd2].
  cbn [app split_chars]. destruct (is_ws d); [discriminate|]. rewrite Hd1. cbn [negb fst snd].
  assert ((match prev with Some p => if is_numeric u p && false then true else false | None => false end) = false) as ->.
  { destruct prev; [rewrite andb_false_r|]; reflexivity. }
  rewrite IH by easy. rewrite <- app_assoc. cbn [app]. destruct ds as [|d' ds]; reflexivity.
Qed.
Lemma last_numeric ds : ds <> [] -> forallb (is_numeric u) ds = true -> is_numeric u (last ds 0%N) = true.
Proof.
  intros H. induction ds as [|d ds IH]; [easy|]. cbn [forallb]. intros E. apply andb_true_iff in E as [E1 E2].
  destruct ds as [|d' ds]; [exact E1|]. apply IH; [easy|exact E2].
Qed.
Lemma run_group g s done : shaped g -> no_ws (fst g ++ snd g) ->
  exists p, split_chars u ((fst g ++ snd g) ++ s) done ([], []) None false
            = split_chars u s done g (Some p) (match snd g with [] => false | _ => true end)
     /\ forall cur prev,
       split_chars u ((fst g ++ snd g) ++ s) done cur prev true
       = split_chars u s (done ++ [cur]) g (Some p) (match snd g with [] => false | _ => true end).
Proof.
  destruct g as [n x]. intros (Hn & Hd & Hx) Hw. cbn [fst snd] in *. apply no_ws_app in Hw as [Hw1 Hw2].
  rewrite <- app_assoc. destruct n as [|d ds] eqn:En; [congruence|]. rewrite <- En in *.
  assert (G : forall dn pv, exists p, split_chars u (n ++ x ++ s) dn ([], []) pv false
            = split_chars u s dn (n, x) (Some p) (match x with [] => false | _ => true end)
            /\ p = last x (last n 0%N)).
  { intros dn pv. rewrite run_nums by easy. cbn [app].
    assert (match n with [] => pv | _ :: _ => Some (last n 0%N) end = Some (last n 0%N)) as -> by now subst n.
    destruct x as [|c x'] eqn:Ex.
    - exists (last n 0%N). split; reflexivity.
    - rewrite <- Ex in *. clear -Hw2 Hx Hn Hd Ex.
      assert (H : forall xs y p ub, no_ws xs -> forallb (fun c => negb (is_numeric u c)) xs = true ->
        (is_numeric u p = true \/ ub = true) -> xs <> [] ->
        split_chars u (xs ++ s) dn (n, y) (Some p) ub = split_chars u s dn (n, y ++ xs) (Some (last xs 0%N)) true).
      { clear -Hn. induction xs as [|c xs IH]; intros y p ub Hw Hd Hp H; [congruence|].
        unfold no_ws in Hw. cbn [forallb] in Hw, Hd. apply andb_true_iff in Hw as [Hw1 Hw2].
        apply andb_true_iff in Hd as [Hd1 Hd2].
        cbn [app split_chars]. destruct (is_ws c); [discriminate|]. destruct (is_numeric u c) eqn:Hc; [discriminate|].
        cbn [negb fst snd]. destruct n as [|n0 n]; [congruence|].
        assert ((if is_numeric u p && true then true else ub) = true) as ->.
        { destruct Hp as [-> | ->]; [reflexivity|]. now destruct (is_numeric u p && true). }
        destruct xs as [|c' xs]; [reflexivity|]. rewrite IH; auto; [|easy].
        rewrite <- app_assoc. reflexivity. }
      rewrite H; auto using last_numeric; [|subst x; easy]. cbn [app].
      exists (last x 0%N). split; [subst x; reflexivity|].
      subst x. clear. cbn [last]. generalize (last n 0%N). revert c.
      induction x' as [|c' x' IH]; intros c z; [reflexivity|]. cbn [last]. destruct x'; [reflexivity|]. apply (IH c' z). }
  destruct (G done None) as (p & E & Ep). exists p. split; [exact E|]. intros cur prev.
  destruct (G (done ++ [cur]) None) as (p2 & E2 & Ep2). subst p2 p. rewrite <- E2.
  rewrite En at 1 2. cbn [app split_chars].
  rewrite En in Hw1, Hd. unfold no_ws in Hw1. cbn [forallb] in Hw1, Hd. apply andb_true_iff in Hw1 as [Hw1 _].
  apply andb_true_iff in Hd as [Hd1 _]. destruct (is_ws d); [discriminate|]. rewrite Hd1. cbn [negb fst snd app].
  f_equal. destruct prev; [rewrite andb_false_r|]; reflexivity.
Qed.
Lemma split_groups gs : forall done cur prev, separated gs -> Forall shaped gs -> no_ws (text gs) ->
  split_chars u (text gs) done ([], []) None false = Ret (done ++ gs)
  /\ split_chars u (text gs) done cur prev true = Ret (done ++ cur :: gs).
Proof.
  induction gs as [|g gs IH]; intros done cur prev Hs Hg Hw; [easy|].
  inversion Hg as [|? ? G1 G2]; subst. unfold text in *. cbn [map concat] in *. apply no_ws_app in Hw as [W1 W2].
  destruct (run_group g (concat (map (fun g => fst g ++ snd g) gs)) done G1 W1) as (p & E1 & E2).
  rewrite E1, E2. destruct gs as [|g' gs].
  - cbn [map concat split_chars]. split; [reflexivity|]. now rewrite <- app_assoc.
  - destruct Hs as [Hs1 Hs2]. destruct (snd g) as [|c x] eqn:Eg; [congruence|].
    split.
    + destruct (IH done g (Some p) Hs2 G2 W2) as [_ ->]. reflexivity.
    + destruct (IH (done ++ [cur]) g (Some p) Hs2 G2 W2) as [_ ->]. now rewrite <- app_assoc.
Qed.
(** every string is a unit followed by such groups *)
Lemma groups_exist t : exists pre gs, t = pre ++ text gs
  /\ forallb (fun c => negb (is_numeric u c)) pre = true /\ (gs = [] \/ separated gs) /\ Forall shaped gs.
Proof.
  induction t as [|c t (pre & gs & E & Hp & Hs & Hg)]; [exists [], []; auto|]. subst t.
  destruct (is_numeric u c) eqn:Hc; [|exists (c :: pre), gs; splits; auto; cbn [forallb]; now rewrite Hc].
  exists []. destruct pre as [|p pre].
  - destruct gs as [|[n x] gs].
    + exists [([c], [])]. splits; auto; [now right|]. repeat constructor; cbn [fst snd forallb]; try easy. now rewrite Hc.
    + exists ((c :: n, x) :: gs). splits; auto.
      * right. destruct Hs as [Hs|Hs]; [easy|]. destruct gs; exact Hs.
      * inversion Hg as [|? ? (G1 & G2 & G3) G4]; subst. constructor; [|easy]. unfold shaped. cbn [fst snd forallb] in *.
        rewrite Hc, G2. now splits.
  - exists (([c], p :: pre) :: gs). splits; auto.
    + right. destruct Hs as [->|Hs]; [exact I|]. destruct gs; [destruct Hs|]. split; [easy|exact Hs].
    + constructor; [|easy]. unfold shaped. cbn [fst snd forallb] in *. rewrite Hc. now splits.
Qed.
(** the three outcomes of splitting *)
Lemma split_exact s :
  (unspaced s = [] /\ split_unit u s = Ret [([], [])])
  \/ (exists c t, unspaced s = c :: t /\ is_numeric u c = false /\ split_unit u s = Panic)
  \/ (exists gs, unspaced s = text gs /\ separated gs /\ Forall shaped gs /\ split_unit u s = Ret gs).
Proof.
  unfold split_unit. rewrite <- split_unspaced. pose proof (unspaced_no_ws s) as Hw.
  destruct (unspaced s) as [|c t]; [left; auto|]. right.
  destruct (is_numeric u c) eqn:Hc.
  - right. destruct (groups_exist (c :: t)) as (pre & gs & E & Hp & Hs & Hg).
    destruct pre as [|p pre].
    2: { injection E as <- _. cbn [forallb] in Hp. rewrite Hc in Hp. discriminate. }
    cbn [app] in E. rewrite E in *. destruct Hs as [->|Hs]; [discriminate E|].
    exists gs. splits; auto. now destruct (split_groups gs [] ([], []) None Hs Hg Hw) as [-> _].
  - left. exists c, t. splits; auto. cbn [split_chars]. unfold no_ws in Hw. cbn [forallb] in Hw.
    destruct (is_ws c); [discriminate|]. now rewrite Hc.
Qed.
Lemma split_of_groups s gs : unspaced s = text gs -> separated gs -> Forall shaped gs -> split_unit u s = Ret gs.
Proof.
  intros E Hs Hg. unfold split_unit. rewrite <- split_unspaced, E.
  pose proof (unspaced_no_ws s) as Hw. rewrite E in Hw.
  now destruct (split_groups gs [] ([], []) None Hs Hg Hw) as [-> _].
Qed.

(** ** units *)
Lemma drop_while_in {A} (p : A -> bool) l x : In x l -> p x = false -> In x (drop_while p l).
Proof.
  induction l as [|y l IH]; [easy|]. cbn [drop_while]. intros H Hx. destruct (p y) eqn:E; [|exact H].
  destruct H as [->|H]; [congruence|auto].
Qed.
Lemma trim_by_in {A} (p : A -> bool) l x : In x l -> p x = false -> In x (trim_by p l).
Proof. intros H Hx. unfold trim_by. rewrite <- in_rev. apply drop_while_in; auto. rewrite <- in_rev. now apply drop_while_in. Qed.
Lemma drop_while_none {A} (p : A -> bool) l : forallb (fun c => negb (p c)) l = true -> drop_while p l = l.
Proof. destruct l as [|x l]; [reflexivity|]. cbn. destruct (p x); [discriminate|reflexivity]. Qed.
Lemma forallb_rev {A} (p : A -> bool) l : forallb p l = true -> forallb p (rev l) = true.
Proof. intros H. apply forallb_forall. intros x Hx. rewrite <- in_rev in Hx. rewrite forallb_forall in H. auto. Qed.
Lemma trim_by_none {A} (p : A -> bool) l : forallb (fun c => negb (p c)) l = true -> trim_by p l = l.
Proof.
  intros H. unfold trim_by. rewrite (drop_while_none p l H), drop_while_none, rev_involutive; [reflexivity|].
  now apply forallb_rev.
Qed.

Lemma lower_ascii c : (c < 128)%N -> char_lower u c = [case_char c].
Proof. intros H. unfold char_lower, case_char, in_range. destruct (c <? 128)%N eqn:E; [reflexivity|lia]. Qed.
Lemma str_lower_case x : Forall (fun c => (c < 128)%N) x -> str_lower u x = map case_char x.
Proof.
  induction x as [|c x IH]; intros H; [reflexivity|]. inversion H; subst. unfold str_lower in *.
  cbn [map concat]. rewrite IH, lower_ascii by easy. reflexivity.
Qed.
Lemma case_ascii c : (case_char c < 128)%N -> (c < 128)%N.
Proof. unfold case_char. destruct ((65 <=? c) && (c <=? 90))%N eqn:E; lia. Qed.
Lemma in_chars c n : In c (chars n) -> (c < 256)%N.
Proof. unfold chars. intros H. apply in_map_iff in H as (b & <- & _). apply N_ascii_bounded. Qed.

Variable unit_of : list N -> option N.
Variable table : list (string * N).
Hypothesis Htab : table_for unit_of table.
Hypothesis Hsp : spaceless table.

Lemma unit_named x name f : In (name, f) table -> named_as x name ->
  unit_of (trim_by is_ws (str_lower u x)) = Some f /\ Forall (fun c => (c < 128)%N) x.
Proof.
  intros Hin Hn. unfold named_as in Hn. pose proof (Hsp _ _ Hin) as Hok. rewrite <- Hn in Hok.
  assert (Hx : Forall (fun c => (c < 128)%N) x).
  { apply Forall_forall. intros c Hc. rewrite forallb_forall in Hok.
    specialize (Hok (case_char c) (in_map _ _ _ Hc)).
    apply case_ascii. lia. }
  split; [|exact Hx]. rewrite str_lower_case by easy. rewrite trim_by_none.
  - apply Htab. exists name. auto.
  - apply forallb_forall. intros c Hc. rewrite forallb_forall in Hok. apply Hok in Hc. destruct (is_ws c); [discriminate|reflexivity].
Qed.

Hypothesis Huni : unicode_ok u.
Lemma str_lower_loose x : Forall (fun c => (c < 128)%N \/ c = kelvin) x -> str_lower u x = map loose_char x.
Proof.
  induction x as [|c x IH]; intros H; [reflexivity|]. inversion H as [|? ? H1 H2]; subst. unfold str_lower in *.
  cbn [map concat]. rewrite IH by easy. unfold loose_char. destruct Huni as (_ & H3 & _).
  destruct (c =? kelvin)%N eqn:E.
  - apply N.eqb_eq in E. subst c. unfold char_lower. change (kelvin <? 128)%N with false. now rewrite H3.
  - rewrite lower_ascii by (destruct H1; [easy|]; subst; rewrite N.eqb_refl in E; discriminate). reflexivity.
Qed.
Lemma loose_nows c : is_ws c = false -> is_ws (loose_char c) = false.
Proof.
  intros H. unfold loose_char. destruct (c =? kelvin)%N; [reflexivity|]. unfold case_char.
  destruct ((65 <=? c) && (c <=? 90))%N eqn:E; [|exact H]. unfold is_ws, in_range. lia.
Qed.
Lemma unit_loose x f : no_ws x ->
  (unit_of (trim_by is_ws (str_lower u x)) = Some f <->
   exists name, In (name, f) table /\ map loose_char x = chars name).
Proof.
  intros Hw. unfold no_ws in Hw. rewrite forallb_forall in Hw.
  assert (G : Forall (fun c => (c < 128)%N \/ c = kelvin) x -> trim_by is_ws (str_lower u x) = map loose_char x).
  { intros H. rewrite str_lower_loose by easy. apply trim_by_none. apply forallb_forall.
    intros d Hd. apply in_map_iff in Hd as (c & <- & Hc). apply Hw in Hc. rewrite loose_nows; [reflexivity|].
    now destruct (is_ws c). }
  split.
  - intros H. apply Htab in H as (name & Hin & E). exists name. split; [exact Hin|]. rewrite <- E, G; [reflexivity|].
    apply Forall_forall. intros c Hc. destruct (N.lt_ge_cases c 128) as [|Hge]; [now left|]. right.
    destruct (N.eq_dec c kelvin) as [|Hk]; [easy|exfalso].
    assert (Hcw : is_ws c = false) by (apply Hw in Hc; now destruct (is_ws c)).
    destruct Huni as (_ & _ & Hu). destruct (Hu c Hge Hk Hcw) as (d & Hd & Hd1 & Hd2).
    assert (Hd3 : In d (trim_by is_ws (str_lower u x))).
    { apply trim_by_in; [|easy]. unfold str_lower. apply in_concat. exists (char_lower u c). split; [now apply in_map|].
      unfold char_lower. destruct (c <? 128)%N eqn:E2; [lia|exact Hd]. }
    rewrite E in Hd3. pose proof (Hsp _ _ Hin) as Hok. rewrite forallb_forall in Hok. apply Hok in Hd3. lia.
  - intros (name & Hin & E). apply Htab. exists name. split; [easy|]. rewrite G; [easy|].
    apply Forall_forall. intros c Hc. destruct (N.eq_dec c kelvin) as [|Hk]; [now right|left].
    apply (in_map loose_char) in Hc. rewrite E in Hc.
    pose proof (Hsp _ _ Hin) as Hok. rewrite forallb_forall in Hok. apply Hok in Hc.
    unfold loose_char in Hc. destruct (c =? kelvin)%N eqn:E2; [lia|]. apply case_ascii. lia.
Qed.
End Split.

(** ** meaning *)
Lemma dvalue_value ds : dvalue ds = value ds.
Proof.
  unfold dvalue, value. generalize 0%N as v. induction ds as [|c ds IH]; intros v; [reflexivity|].
  cbn [fold_left]. rewrite <- IH. f_equal. lia.
Qed.
Lemma digs ds : Forall dig ds <-> forallb is_digit ds = true.
Proof.
  rewrite Forall_forall, forallb_forall. split; intros H c Hc; apply H in Hc; unfold dig, is_digit, in_range in *; lia.
Qed.
Lemma nums_parse u ds n : forallb (is_numeric u) ds = true -> ds <> [] ->
  (parse_uint u64max ds = Some n <-> Forall dig ds /\ n = value ds /\ (n < 2 ^ 64)%N).
Proof.
  intros Hn Hne. rewrite parse_uint_spec. change (2 ^ 64)%N with (u64max + 1)%N. split.
  - intros (d & [->|Hs] & H1 & H2 & H3 & H4).
    + rewrite <- dvalue_value. splits; auto; [now apply digs|lia].
    + subst ds. cbn [forallb] in Hn. apply andb_true_iff in Hn as [Hn _]. vm_compute in Hn. discriminate.
  - intros (H1 & H2 & H3). exists ds. splits; auto; [now apply digs|now rewrite dvalue_value|lia].
Qed.
Lemma dig_numeric u c : dig c -> is_numeric u c = true.
Proof. unfold dig, is_numeric, in_range. intros H. destruct (c <? 128)%N eqn:E; lia. Qed.
Lemma digs_numeric u ds : Forall dig ds -> forallb (is_numeric u) ds = true.
Proof. rewrite Forall_forall, forallb_forall. intros H c Hc. apply dig_numeric; auto. Qed.

Section Meaning.
Variable unit_of : list N -> option N.
Variable table : list (string * N).
Hypothesis Htab : table_for unit_of table.
Hypothesis Hsp : spaceless table.

Lemma means_shaped u g v : means table g v -> shaped u g.
Proof.
  intros (H1 & H2 & H3 & name & f & Hin & Hn & _). unfold shaped. splits; [easy|now apply digs_numeric|].
  apply forallb_forall. intros c Hc. unfold named_as in Hn. apply (in_map case_char) in Hc. rewrite Hn in Hc.
  pose proof (Hsp _ _ Hin) as Hok. rewrite forallb_forall in Hok. apply Hok in Hc.
  assert (c < 128)%N by (apply case_ascii; lia).
  unfold is_numeric. destruct (c <? 128)%N eqn:E; [|lia]. unfold case_char, in_range in *.
  destruct ((65 <=? c) && (c <=? 90))%N eqn:E2; lia.
Qed.
Lemma loose_shaped u g v : unicode_ok u -> loosely_means table g v -> shaped u g.
Proof.
  intros (Hk & _ & _) (H1 & H2 & H3 & name & f & Hin & Hn & _). unfold shaped. splits; [easy|now apply digs_numeric|].
  apply forallb_forall. intros c Hc. apply (in_map loose_char) in Hc. rewrite Hn in Hc.
  pose proof (Hsp _ _ Hin) as Hok. rewrite forallb_forall in Hok. apply Hok in Hc.
  unfold loose_char in Hc. destruct (c =? kelvin)%N eqn:E.
  - apply N.eqb_eq in E. subst c. unfold is_numeric. change (kelvin <? 128)%N with false. now rewrite Hk.
  - assert (c < 128)%N by (apply case_ascii; lia).
    unfold is_numeric. destruct (c <? 128)%N eqn:E3; [|lia]. unfold case_char, in_range in *.
    destruct ((65 <=? c) && (c <=? 90))%N eqn:E2; lia.
Qed.

(** one group *)
Lemma u64_small checked n : (n < 2 ^ 64)%N -> u64_op checked n = Ret n.
Proof. intros H. unfold u64_op. change two64 with (2 ^ 64)%N. destruct (n <? 2 ^ 64)%N eqn:E; [reflexivity|lia]. Qed.
Lemma u64_wrap n : u64_op false n = Ret (n mod 2 ^ 64)%N.
Proof.
  unfold u64_op. change two64 with (2 ^ 64)%N. destruct (n <? 2 ^ 64)%N eqn:E; [|reflexivity].
  rewrite N.mod_small by lia. reflexivity.
Qed.
Lemma sum_means u checked gs vs : Forall2 (means table) gs vs -> forall a, (a + sum vs < 2 ^ 64)%N ->
  sum_items unit_of u checked gs a = Ret (Some (a + sum vs))%N.
Proof.
  induction 1 as [|[n x] v gs vs Hm Hms IH]; intros a Ha; cbn [sum_items sum fold_right] in *.
  - now rewrite N.add_0_r.
  - fold (sum vs) in *. pose proof (means_shaped u _ _ Hm) as (S1 & S2 & _).
    destruct Hm as (H1 & H2 & H3 & name & f & Hin & Hn & ->). cbn [fst snd] in *.
    assert (parse_uint u64max n = Some (value n)) as -> by (apply (nums_parse u); auto).
    destruct (unit_named u unit_of table Htab Hsp x name f Hin Hn) as [-> _].
    rewrite u64_small by lia. cbn [obind]. rewrite u64_small by lia. cbn [obind]. rewrite IH by lia.
    do 2 f_equal. lia.
Qed.
Lemma sum_loose_wraps u gs vs : unicode_ok u -> no_ws (text gs) -> Forall2 (loosely_means table) gs vs ->
  forall a, (a < 2 ^ 64)%N ->
  sum_items unit_of u false gs a = Ret (Some ((a + sum vs) mod 2 ^ 64))%N.
Proof.
  intros Hu Hw H. induction H as [|[n x] v gs vs Hm Hms IH]; intros a Ha; cbn [sum_items sum fold_right] in *.
  - rewrite N.add_0_r, N.mod_small by lia. reflexivity.
  - fold (sum vs) in *. pose proof (loose_shaped u _ _ Hu Hm) as (S1 & S2 & _).
    destruct Hm as (H1 & H2 & H3 & name & f & Hin & Hn & ->). cbn [fst snd] in *.
    unfold text in Hw. cbn [map concat fst snd] in Hw. apply no_ws_app in Hw as [Hw1 Hw2]. apply no_ws_app in Hw1 as [_ Hw1].
    assert (parse_uint u64max n = Some (value n)) as -> by (apply (nums_parse u); auto).
    assert (unit_of (trim_by is_ws (str_lower u x)) = Some f) as ->.
    { eapply unit_loose; eauto. }
    rewrite u64_wrap. cbn [obind]. rewrite u64_wrap. cbn [obind]. rewrite (IH Hw2) by (apply N.mod_lt; lia).
    do 2 f_equal. rewrite N.add_mod_idemp_l by lia.
    rewrite N.add_comm, N.add_assoc, (N.add_mod_idemp_r _ (value n * f)) by lia. f_equal. lia.
Qed.
Lemma sum_loose_checked u gs vs : unicode_ok u -> no_ws (text gs) -> Forall2 (loosely_means table) gs vs ->
  forall a, (a < 2 ^ 64)%N ->
  sum_items unit_of u true gs a = if (a + sum vs <? 2 ^ 64)%N then Ret (Some (a + sum vs)%N) else Panic.
Proof.
  intros Hu Hw H. induction H as [|[n x] v gs vs Hm Hms IH]; intros a Ha; cbn [sum_items sum fold_right] in *.
  - rewrite N.add_0_r. destruct (a <? 2 ^ 64)%N eqn:E; [reflexivity|lia].
  - fold (sum vs) in *. pose proof (loose_shaped u _ _ Hu Hm) as (S1 & S2 & _).
    destruct Hm as (H1 & H2 & H3 & name & f & Hin & Hn & ->). cbn [fst snd] in *.
    unfold text in Hw. cbn [map concat fst snd] in Hw. apply no_ws_app in Hw as [Hw1 Hw2]. apply no_ws_app in Hw1 as [_ Hw1].
    assert (parse_uint u64max n = Some (value n)) as -> by (apply (nums_parse u); auto).
    assert (unit_of (trim_by is_ws (str_lower u x)) = Some f) as ->.
    { eapply unit_loose; eauto. }
    unfold u64_op. change two64 with (2 ^ 64)%N.
    destruct (value n * f <? 2 ^ 64)%N eqn:E1; cbn [obind].
    + destruct (a + value n * f <? 2 ^ 64)%N eqn:E2; cbn [obind].
      * rewrite (IH Hw2) by lia. rewrite N.add_assoc. reflexivity.
      * destruct (a + (value n * f + sum vs) <? 2 ^ 64)%N eqn:E3; [lia|reflexivity].
    + destruct (a + (value n * f + sum vs) <? 2 ^ 64)%N eqn:E3; [lia|reflexivity].
Qed.
(** groups that mean nothing *)
Lemma sum_items_some u gs : unicode_ok u -> no_ws (text gs) -> Forall (shaped u) gs -> forall a,
  sum_items unit_of u false gs a = Ret None
  \/ exists vs, Forall2 (loosely_means table) gs vs.
Proof.
  intros Hu Hw Hs. induction Hs as [|[n x] gs S Hs IH]; intros a; [right; exists []; constructor|].
  unfold text in Hw. cbn [map concat fst snd] in Hw. apply no_ws_app in Hw as [Hw1 Hw2]. apply no_ws_app in Hw1 as [_ Hw1].
  cbn [sum_items]. destruct (parse_uint u64max n) as [k|] eqn:E1; [|now left].
  destruct (unit_of _) as [f|] eqn:E2; [|now left]. rewrite u64_wrap. cbn [obind]. rewrite u64_wrap. cbn [obind].
  destruct (IH Hw2 ((a + (k * f) mod 2 ^ 64) mod 2 ^ 64)%N) as [H|(vs & H)]; [left; exact H|right].
  exists ((value n * f)%N :: vs). constructor; [|easy]. destruct S as (S1 & S2 & S3). cbn [fst snd] in *.
  apply (nums_parse u) in E1 as (D1 & D2 & D3); auto.
  apply (unit_loose u unit_of table Htab Hsp Hu x f Hw1) in E2 as (name & Hin & E2).
  unfold loosely_means. cbn [fst snd]. subst k. splits; auto. exists name, f. auto.
Qed.

(** C35, C39 *)
Lemma units_sum u checked s gs vs : unspaced s = text gs -> separated gs ->
  Forall2 (means table) gs vs -> (sum vs < 2 ^ 64)%N ->
  visit_units unit_of u checked s = Ret (Some (sum vs)).
Proof.
  intros E Hs Hm Hf. unfold visit_units. destruct s as [|c s].
  { exfalso. destruct gs as [|g gs]; [destruct Hs|]. inversion Hm as [|? ? ? ? (H1 & _) _]; subst.
    unfold text in E. cbn in E. destruct (fst g); [congruence|discriminate]. }
  rewrite (split_of_groups u (c :: s) gs E Hs).
  - cbn [obind]. now rewrite (sum_means u checked gs vs Hm 0).
  - clear -Hm Hsp. induction Hm; constructor; eauto using means_shaped.
Qed.
(** C37, C38 *)
Lemma accepted_shaped u gs vs : unicode_ok u -> Forall2 (loosely_means table) gs vs -> Forall (shaped u) gs.
Proof. intros Hu H. induction H; constructor; eauto using loose_shaped. Qed.
Lemma accepted_nonempty s vs : accepted table s vs -> s <> [].
Proof.
  intros (gs & E & Hs & Hm) ->. destruct gs as [|g gs]; [destruct Hs|]. inversion Hm as [|? ? ? ? (H1 & _) _]; subst.
  unfold text in E. cbn in E. destruct (fst g); [congruence|discriminate].
Qed.
Lemma units_wrap u s vs : unicode_ok u -> accepted table s vs ->
  visit_units unit_of u false s = Ret (Some (sum vs mod 2 ^ 64)%N)
  /\ visit_units unit_of u true s = if (sum vs <? 2 ^ 64)%N then Ret (Some (sum vs)) else Panic.
Proof.
  intros Hu Ha. pose proof (accepted_nonempty s vs Ha) as Hne. destruct Ha as (gs & E & Hs & Hm).
  unfold visit_units. destruct s as [|c s]; [congruence|].
  rewrite (split_of_groups u (c :: s) gs E Hs) by eauto using accepted_shaped. cbn [obind].
  assert (Hw : no_ws (text gs)) by (rewrite <- E; apply unspaced_no_ws).
  split; [now rewrite (sum_loose_wraps u gs vs Hu Hw Hm 0)|now rewrite (sum_loose_checked u gs vs Hu Hw Hm 0)].
Qed.
Lemma units_total u s : unicode_ok u -> s <> [] ->
  match unspaced s with
  | [] => visit_units unit_of u false s = Ret None
  | c :: _ => if is_numeric u c
              then visit_units unit_of u false s = Ret None \/ exists vs, accepted table s vs
              else visit_units unit_of u false s = Panic
  end.
Proof.
  intros Hu Hne. unfold visit_units. destruct s as [|c0 s0] eqn:Es; [congruence|]. rewrite <- Es. clear Es Hne c0 s0.
  destruct (split_exact u s) as [(E & H)|[(c & t & E & Hc & H)|(gs & E & Hs & Hg & H)]]; rewrite H; cbn [obind].
  - rewrite E. reflexivity.
  - now rewrite E, Hc.
  - assert (Hw : no_ws (text gs)) by (rewrite <- E; apply unspaced_no_ws).
    pose proof (sum_items_some u gs Hu Hw Hg 0%N) as Hd. destruct gs as [|g gs]; [destruct Hs|].
    inversion Hg as [|? ? (G1 & G2 & _) _]; subst. rewrite E. unfold text. cbn [map concat].
    destruct (fst g) as [|c n] eqn:Eg; [congruence|]. cbn [app]. cbn [forallb] in G2. apply andb_true_iff in G2 as [-> _].
    destruct Hd as [Hd|(vs & Hd)]; [left; exact Hd|right]. exists vs. exists (g :: gs). auto.
Qed.
(** an unchecked reading never gives a value the groups do not have *)
Lemma units_exact u s v : unicode_ok u ->
  (visit_units unit_of u false s = Ret (Some v) <->
   s = [] /\ v = 0%N \/ exists vs, accepted table s vs /\ v = (sum vs mod 2 ^ 64)%N).
Proof.
  intros Hu. split.
  - intros H. destruct s as [|c s]; [left; injection H as <-; auto|right].
    pose proof (units_total u (c :: s) Hu ltac:(easy)) as T.
    destruct (unspaced (c :: s)) as [|d t]; [congruence|]. destruct (is_numeric u d); [|congruence].
    destruct T as [T|(vs & T)]; [congruence|]. exists vs. split; [easy|].
    destruct (units_wrap u _ _ Hu T) as [E _]. congruence.
  - intros [[-> ->]|(vs & Ha & ->)]; [reflexivity|]. now apply units_wrap.
Qed.
Lemma units_panic u s c t : unspaced s = c :: t -> is_numeric u c = false -> forall checked,
  visit_units unit_of u checked s = Panic.
Proof.
  intros E Hc checked. unfold visit_units. destruct s as [|c0 s0] eqn:Es; [discriminate E|]. rewrite <- Es in *.
  destruct (split_exact u s) as [(E2 & H)|[(c' & t' & E2 & Hc' & H)|(gs & E2 & Hs & Hg & H)]].
  - congruence.
  - now rewrite H.
  - exfalso. destruct gs as [|g gs]; [destruct Hs|]. inversion Hg as [|? ? (G1 & G2 & _) _]; subst.
    rewrite E in E2. unfold text in E2. cbn [map concat] in E2. destruct (fst g) as [|c1 n]; [congruence|].
    cbn [app] in E2. injection E2 as <- _. cbn [forallb] in G2. rewrite Hc in G2. discriminate.
Qed.
End Meaning.

(** ** C40 *)
Definition same_char (c d : N) : Prop := case_char c = case_char d.
Lemma same_numeric u c d : same_char c d -> is_numeric u c = is_numeric u d.
Proof.
  unfold same_char, case_char, is_numeric, in_range. intros H.
  destruct ((65 <=? c) && (c <=? 90))%N eqn:E1, ((65 <=? d) && (d <=? 90))%N eqn:E2; try (subst; reflexivity).
  - assert (c = d) by lia. now subst.
  - destruct (c <? 128)%N eqn:E3; [|lia]. destruct (d <? 128)%N eqn:E4; lia.
  - destruct (c <? 128)%N eqn:E3; [|lia]. destruct (d <? 128)%N eqn:E4; lia.
Qed.
Lemma same_ws c d : same_char c d -> is_ws c = is_ws d.
Proof.
  unfold same_char, case_char. intros H.
  destruct ((65 <=? c) && (c <=? 90))%N eqn:E1, ((65 <=? d) && (d <=? 90))%N eqn:E2; try (subst; reflexivity);
  unfold is_ws, in_range; lia.
Qed.
Lemma same_digit u c d : same_char c d -> is_numeric u c = true -> c = d.
Proof.
  intros H Hn. pose proof (same_numeric u c d H) as H2. rewrite Hn in H2. symmetry in H2.
  unfold same_char, case_char, is_numeric, in_range in *.
  destruct ((65 <=? c) && (c <=? 90))%N eqn:E1, ((65 <=? d) && (d <=? 90))%N eqn:E2;
  destruct (c <? 128)%N eqn:E3, (d <? 128)%N eqn:E4; lia.
Qed.
Lemma same_lower u c d : same_char c d -> char_lower u c = char_lower u d.
Proof.
  intros H. destruct (c <? 128)%N eqn:E1, (d <? 128)%N eqn:E2.
  - rewrite !lower_ascii by lia. now rewrite H.
  - unfold same_char, case_char in H. destruct ((65 <=? c) && (c <=? 90))%N eqn:E3, ((65 <=? d) && (d <=? 90))%N eqn:E4; lia.
  - unfold same_char, case_char in H. destruct ((65 <=? c) && (c <=? 90))%N eqn:E3, ((65 <=? d) && (d <=? 90))%N eqn:E4; lia.
  - assert (c = d); [|now subst]. unfold same_char, case_char in H.
    destruct ((65 <=? c) && (c <=? 90))%N eqn:E3, ((65 <=? d) && (d <=? 90))%N eqn:E4; lia.
Qed.
Definition same_item (g h : group) : Prop := fst g = fst h /\ Forall2 same_char (snd g) (snd h).
Definition same_split (x y : outcome (list group)) : Prop :=
  match x, y with
  | Ret a, Ret b => Forall2 same_item a b
  | Panic, Panic => True
  | _, _ => False
  end.
Lemma same_split_chars u s s' : Forall2 same_char s s' -> forall done done' cur cur' prev prev' ub,
  Forall2 same_item done done' -> same_item cur cur' ->
  (match prev, prev' with Some p, Some p' => same_char p p' | None, None => True | _, _ => False end) ->
  same_split (split_chars u s done cur prev ub) (split_chars u s' done' cur' prev' ub).
Proof.
  induction 1 as [|c d s s' Hc Hs IH]; intros done done' cur cur' prev prev' ub Hd Hu Hp; cbn [split_chars].
  - cbn. apply Forall2_app; [easy|]. now repeat constructor; destruct Hu.
  - rewrite <- (same_ws _ _ Hc). destruct (is_ws c); [now apply IH|]. rewrite <- (same_numeric u _ _ Hc).
    assert (Hub : forall b, match prev with Some p => if is_numeric u p && negb (is_numeric u c) then true else b | None => b end
                          = match prev' with Some p => if is_numeric u p && negb (is_numeric u c) then true else b | None => b end).
    { intros b. destruct prev, prev'; try easy. now rewrite (same_numeric u _ _ Hp). }
    destruct (is_numeric u c) eqn:En.
    + pose proof (same_digit u c d Hc En) as <-. rewrite !Hub. destruct ub; apply IH; auto.
      * apply Forall2_app; [easy|]. now repeat constructor; destruct Hu.
      * split; [reflexivity|constructor].
      * destruct Hu as [U1 U2]. split; cbn [fst snd]; [now rewrite U1|easy].
    + destruct Hu as [U1 U2]. rewrite <- U1. destruct (fst cur) eqn:Ef; [exact I|]. rewrite !Hub. apply IH; auto.
      split; cbn [fst snd]; [reflexivity|]. apply Forall2_app; auto.
Qed.
Lemma same_sum unit_of u checked gs hs : Forall2 same_item gs hs -> forall a,
  sum_items unit_of u checked gs a = sum_items unit_of u checked hs a.
Proof.
  induction 1 as [|[n x] [m y] gs hs [H1 H2] H IH]; intros a; [reflexivity|]. cbn [fst snd] in *. subst m.
  cbn [sum_items]. assert (str_lower u x = str_lower u y) as ->.
  { clear -H2. unfold str_lower. induction H2 as [|c d x y Hc Hx IH]; [reflexivity|]. cbn [map concat].
    now rewrite (same_lower u _ _ Hc), IH. }
  destruct (parse_uint _ _); [|reflexivity]. destruct (unit_of _); [|reflexivity].
  destruct (u64_op _ _); cbn [obind]; auto. destruct (u64_op _ _); cbn [obind]; auto.
Qed.
Lemma map_same a : forall b, map case_char a = map case_char b -> Forall2 same_char a b.
Proof.
  induction a as [|x a IH]; intros [|y b]; cbn; try discriminate; [constructor|].
  intros [= H1 H2]. constructor; auto.
Qed.
Lemma case_space unit_of u checked s s' : unspaced s <> [] ->
  map case_char (unspaced s) = map case_char (unspaced s') ->
  visit_units unit_of u checked s = visit_units unit_of u checked s'.
Proof.
  intros Hne H. unfold visit_units, split_unit.
  assert (s <> []) by (intros ->; apply Hne; reflexivity).
  assert (s' <> []) by (intros ->; destruct (unspaced s); [easy|discriminate]).
  destruct s as [|c s]; [easy|]. destruct s' as [|c' s']; [easy|].
  rewrite <- (split_unspaced u (c :: s)), <- (split_unspaced u (c' :: s')).
  apply map_same in H.
  pose proof (same_split_chars u _ _ H [] [] ([], []) ([], []) None None false
    ltac:(constructor) ltac:(split; constructor) I) as G.
  unfold same_split in G.
  destruct (split_chars u (unspaced (c :: s)) _ _ _ _), (split_chars u (unspaced (c' :: s')) _ _ _ _); try easy.
  cbn [obind]. now apply same_sum.
Qed.

(** ** instances *)
Lemma sizes_sum u checked s gs vs : unspaced s = text gs -> separated gs ->
  Forall2 (means coded_table) gs vs -> (sum vs < 2 ^ 64)%N ->
  size_string u checked s = Ret (Some (sum vs)).
Proof. apply units_sum; auto using size_table_for, size_spaceless. Qed.
Lemma means_incl t t' g v : incl t t' -> means t g v -> means t' g v.
Proof. intros H (H1 & H2 & H3 & n & f & Hin & Hn). unfold means. splits; auto. exists n, f. auto. Qed.
Lemma sizes_sum_small u checked s gs vs : unspaced s = text gs -> separated gs ->
  Forall2 (means size_table) gs vs -> (sum vs < 2 ^ 64)%N ->
  size_string u checked s = Ret (Some (sum vs)).
Proof.
  intros H1 H2 H3. apply sizes_sum with gs; auto. clear -H3. induction H3; constructor; auto.
  eapply means_incl; eauto. intros p Hp. apply in_or_app. now left.
Qed.
Lemma unspaced_id s : (forall c, In c s -> is_ws c = false) -> filter (fun c => negb (is_ws c)) s = s.
Proof.
  induction s as [|c s IH]; intros H; [reflexivity|]. cbn [filter]. rewrite (H c (or_introl eq_refl)). cbn [negb].
  f_equal. apply IH. intros d Hd. apply H. now right.
Qed.
Lemma giga_wrong u checked ds unit : ds <> [] -> Forall dig ds ->
  named_as unit "g" \/ named_as unit "gb" ->
  (value ds * giga_factor < 2 ^ 64)%N ->
  size_string u checked (ds ++ unit) = Ret (Some (value ds * giga_factor)%N)
  /\ (value ds <> 0%N -> size_string u checked (ds ++ unit) <> Ret (Some (value ds * 1024 ^ 3)%N)).
Proof.
  intros H1 H2 H3 H4.
  assert (E : size_string u checked (ds ++ unit) = Ret (Some (value ds * giga_factor)%N)).
  { rewrite (sizes_sum u checked (ds ++ unit) [(ds, unit)] [(value ds * giga_factor)%N]).
    - do 2 f_equal. unfold sum. cbn [fold_right]. lia.
    - unfold text. cbn [map concat fst snd]. rewrite app_nil_r. unfold unspaced. rewrite filter_app. f_equal.
      + clear H4 H3 H1. induction H2 as [|c ds Hc Hd IH]; [reflexivity|]. cbn [filter].
        assert (is_ws c = false) as -> by (unfold dig, is_ws, in_range in *; lia). cbn [negb]. now rewrite IH.
      + clear H4. assert (Hu : forall c, In c unit -> (65 <= c)%N /\ (c < 128)%N).
        { intros c Hc. apply (in_map case_char) in Hc. unfold named_as in H3. unfold case_char in *.
          destruct H3 as [H3|H3]; rewrite H3 in Hc; cbn in Hc;
          destruct ((65 <=? c) && (c <=? 90))%N eqn:E; repeat destruct Hc as [Hc|Hc]; try easy; vm_compute in Hc; lia. }
        clear H3. apply unspaced_id. intros c Hc. apply Hu in Hc. unfold is_ws, in_range. lia.
    - exact I.
    - repeat constructor; cbn [fst snd]; auto.
      + unfold giga_factor in H4. lia.
      + destruct H3 as [H3|H3]; [exists "g"%string|exists "gb"%string]; exists giga_factor; splits; auto;
        unfold coded_table; apply in_or_app; right; cbn; auto.
    - unfold sum. cbn [fold_right]. lia. }
  split; [exact E|]. intros H0 E2. rewrite E in E2. injection E2 as E2. unfold giga_factor in E2. lia.
Qed.
Lemma big_number unit_of table : table_for unit_of table -> spaceless table ->
  forall u s gs g, unicode_ok u -> unspaced s = text gs -> separated gs -> In g gs ->
  Forall (fun g => fst g <> [] /\ Forall dig (fst g) /\ Forall (fun c => is_numeric u c = false) (snd g)) gs ->
  (2 ^ 64 <= value (fst g))%N ->
  visit_units unit_of u false s = Ret None.
Proof.
  intros Ht Hsp u s gs g Hu E Hs Hin Hg Hbig.
  assert (Hsh : Forall (shaped u) gs).
  { eapply Forall_impl; [|exact Hg]. intros [n x] (H1 & H2 & H3). unfold shaped. cbn [fst snd] in *. splits; auto.
    - now apply digs_numeric.
    - apply forallb_forall. intros c Hc. rewrite Forall_forall in H3. now rewrite H3. }
  assert (Hne : s <> []).
  { intros ->. destruct gs as [|[n x] gs]; [easy|]. inversion Hg as [|? ? (H1 & _) _]; subst.
    unfold text in E. cbn in *. destruct n; [congruence|discriminate]. }
  pose proof (units_total unit_of table Ht Hsp u s Hu Hne) as T.
  assert (Hv : forall vs, ~ accepted table s vs).
  { intros vs (gs' & E' & Hs' & Hm').
    assert (gs' = gs) as ->.
    { pose proof (split_of_groups u s gs E Hs Hsh) as S1.
      pose proof (split_of_groups u s gs' E' Hs' (accepted_shaped table Hsp u gs' vs Hu Hm')) as S2. congruence. }
    clear -Hin Hm' Hbig. induction Hm' as [|g' v gs vs H1 H2 IH]; [easy|]. destruct Hin as [->|Hin]; auto.
    destruct H1 as (_ & _ & H1 & _). lia. }
  destruct (unspaced s) as [|c t] eqn:Eu; [easy|].
  destruct gs as [|[n x] gs]; [easy|]. inversion Hsh as [|? ? (G1 & G2 & _) _]; subst.
  unfold text in E. cbn [map concat fst snd] in *. destruct n as [|c' n]; [congruence|]. injection E as <- _.
  cbn [forallb] in G2. apply andb_true_iff in G2 as [G2 _]. rewrite G2 in T. destruct T as [T|(vs & T)]; [easy|].
  now apply Hv in T.
Qed.
