(** Reading configuration files: the generic part, for any record. *)
From Verif Require Import F_Units F_Settings F_Paths.
From Verif Require Export F_Base S_Toml.

(** ** Values *)
Definition exact {A} (d : de A) (says : toml -> A -> Prop) : Prop := forall t a, d t = Ret (Some a) <-> says t a.

Lemma ret_some {A} (a b : A) : Ret (Some a) = Ret (Some b) <-> a = b.
Proof. split; congruence. Qed.
Lemma fmap_iff {A B} (f : A -> B) (d : de A) t b : de_fmap f d t = Ret (Some b) <-> exists a, d t = Ret (Some a) /\ b = f a.
Proof.
  unfold de_fmap. destruct (d t) as [[a|]| | | |]; cbn; split; try discriminate; try (intros (? & ? & ?); discriminate).
  - intros [= <-]. eauto.
  - intros (x & [= <-] & ->). reflexivity.
Qed.
Lemma exact_string : exact de_string says_text.
Proof. intros t a. unfold de_string, says_text. rewrite <- (ret_some _ _). destruct t; split; congruence. Qed.
Lemma exact_bool : exact de_bool says_flag.
Proof. intros t a. unfold de_bool, says_flag. destruct t; split; congruence. Qed.
Lemma exact_int lo hi : exact (de_int lo hi) (says_int lo hi).
Proof.
  intros t a. unfold de_int, says_int. destruct t; try (split; [discriminate|intros [[=] _]]).
  destruct ((lo <=? n) && (n <=? hi))%Z eqn:E; split; try discriminate.
  - intros [= <-]. split; [reflexivity|lia].
  - intros [[= <-] _]. reflexivity.
  - intros [[= <-] H]. lia.
Qed.
Lemma exact_u32 : exact de_u32 says_count.
Proof.
  intros t a. unfold de_u32. rewrite fmap_iff. unfold says_count. split.
  - intros (n & H & ->). apply exact_int in H as [-> H]. split; [f_equal; lia|lia].
  - intros [-> H]. exists (Z.of_N a). split; [apply exact_int; unfold says_int; split; [reflexivity|lia]|lia].
Qed.
Lemma exact_i32 : exact de_i32 (says_int (- 2 ^ 31) (2 ^ 31 - 1)).
Proof. exact (exact_int _ _). Qed.
Lemma exact_opt {A} (d : de A) says : exact d says -> exact (de_opt d) (says_some says).
Proof.
  intros H t o. unfold de_opt. rewrite fmap_iff. unfold says_some. split; intros (a & H1 & H2); exists a.
  - apply H in H1. auto.
  - apply H in H2. auto.
Qed.
Lemma utf8_same s : utf8_bytes s = S_Text.utf8 s.
Proof.
  unfold utf8_bytes, S_Text.utf8. f_equal. apply map_ext. intros c. unfold utf8_char, S_Text.encode, S_Text.six, S_Text.byte_of.
  change (64 ^ 0)%N with 1%N. change (64 ^ 1)%N with 64%N. change (64 ^ 2)%N with 4096%N. change (64 ^ 3)%N with 262144%N.
  rewrite N.div_1_r. reflexivity.
Qed.
Lemma exact_bytes : exact de_bytes says_bytes.
Proof.
  intros t b. unfold de_bytes. rewrite fmap_iff. unfold says_bytes. split; intros (s & H1 & H2); exists s.
  - apply exact_string in H1. rewrite utf8_same in H2. auto.
  - rewrite utf8_same. split; [now apply exact_string|easy].
Qed.
Section Amount.
Variable rd : reading.
Hypothesis Hrd : release rd.
Lemma exact_size : exact (de_size rd) says_size.
Proof.
  destruct Hrd as [Hc Hu]. intros t v. unfold de_size, says_size, says_amount. rewrite Hc. destruct t as [s| | | | | |].
  1: { unfold size_string. rewrite (units_exact _ _ size_table_for size_spaceless _ s v Hu). split.
       - intros H. now exists s.
       - intros (s' & [= <-] & H). exact H. }
  all: split; [discriminate|intros (? & [=] & _)].
Qed.
Lemma exact_duration : exact (de_duration rd) says_duration.
Proof.
  destruct Hrd as [Hc Hu]. intros t v. unfold de_duration, says_duration, says_amount. rewrite Hc. destruct t as [s| | | | | |].
  1: { unfold duration_string. rewrite (units_exact _ _ duration_table_for duration_spaceless _ s v Hu). split.
       - intros H. now exists s.
       - intros (s' & [= <-] & H). exact H. }
  all: split; [discriminate|intros (? & [=] & _)].
Qed.
End Amount.

Lemma all_iff {A} (d : de A) says l : exact d says -> forall r, de_all d l = Ret (Some r) <-> Forall2 says l r.
Proof.
  intros H. induction l as [|t l IH]; intros r; cbn [de_all].
  - split; [intros [= <-]; constructor|intros H1; inversion H1; reflexivity].
  - destruct (d t) as [[a|]| | | |] eqn:E; cbn [obind].
    1: { destruct (de_all d l) as [[y|]| | | |] eqn:El; cbn [obind option_map]; split; try discriminate.
         1: { intros [= <-]. constructor; [now apply H|now apply IH]. }
         all: intros F; inversion F as [|? b ? r' F1 F2]; subst; apply IH in F2; try discriminate.
         apply H in F1. congruence. }
    all: split; try discriminate; intros F; inversion F as [|? b ? r' F1 F2]; subst; apply H in F1; congruence.
Qed.
Lemma exact_vec {A} (d : de A) says : exact d says -> exact (de_vec d) (says_list says).
Proof.
  intros H t l. unfold de_vec, says_list. destruct t as [| | | | |ts|]; try (split; [discriminate|intros (? & [=] & _)]).
  rewrite (all_iff d says ts H). split; [eauto|]. intros (ts' & [= <-] & F). exact F.
Qed.
Lemma entries_iff {A} (d : de A) says l : exact d says ->
  forall r, de_entries d l = Ret (Some r) <-> Forall2 (fun e x => fst e = fst x /\ says (snd e) (snd x)) l r.
Proof.
  intros H. induction l as [|[k t] l IH]; intros r; cbn [de_entries].
  - split; [intros [= <-]; constructor|intros H1; inversion H1; reflexivity].
  - destruct (d t) as [[a|]| | | |] eqn:E; cbn [obind].
    1: { destruct (de_entries d l) as [[y|]| | | |] eqn:El; cbn [obind option_map]; split; try discriminate.
         1: { intros [= <-]. constructor; [cbn; split; [reflexivity|now apply H]|now apply IH]. }
         all: intros F; inversion F as [|? [k' b] ? r' [F0 F1] F2]; subst; cbn [fst snd] in *; subst; apply IH in F2; try discriminate.
         apply H in F1. congruence. }
    all: split; try discriminate; intros F; inversion F as [|? [k' b] ? r' [F0 F1] F2]; subst; cbn [fst snd] in *; apply H in F1; congruence.
Qed.
Lemma exact_table {A} (d : de A) says : exact d says -> (forall s a, ~ says (TStr s) a) ->
  exact (de_table d) (says_map says).
Proof.
  intros H Hs t l. unfold de_table, says_map. destruct t as [| | | |x| |es]; try (split; [discriminate|intros (? & [=] & _)]).
  - split; [|intros (? & [=] & _)]. intros E. apply (entries_iff d says _ H) in E.
    inversion E as [|? ? ? ? [_ F] _]; subst. now apply Hs in F.
  - rewrite (entries_iff d says es H). split; [eauto|]. intros (es' & [= <-] & F). exact F.
Qed.

(** ** Records *)
Record lens (R : Type) := Lens {
  ln_names : list string;
  ln_type : Type;
  ln_de : de ln_type;
  ln_put : ln_type -> R -> R;
  ln_says : toml -> ln_type -> Prop;
  ln_default : ln_type;
  ln_get : R -> ln_type
}.
Arguments Lens {R} _ {ln_type} _ _ _ _ _.
Arguments ln_names {R} _.
Arguments ln_type {R} _.
Arguments ln_de {R} _.
Arguments ln_put {R} _.
Arguments ln_says {R} _.
Arguments ln_default {R} _.
Arguments ln_get {R} _.
Definition as_field {R} (l : lens R) : tfield R := Field (ln_names l) (ln_de l) (ln_put l).
Definition as_setting {R} (l : lens R) : setting R := Setting (ln_names l) (ln_says l) (ln_default l) (ln_get l).

Definition apart {R} (l l' : lens R) : Prop :=
  (forall k, one_of (ln_names l) k -> one_of (ln_names l') k -> False)
  /\ (forall a r, ln_get l (ln_put l' a r) = ln_get l r) /\ (forall a r, ln_get l' (ln_put l a r) = ln_get l' r).
Definition lawful {R} (inv : R -> Prop) (base : R) (l : lens R) : Prop :=
  (forall a r, ln_get l (ln_put l a r) = a) /\ ln_get l base = ln_default l
  /\ exact (ln_de l) (ln_says l) /\ (forall a r, inv r -> inv (ln_put l a r)) /\ ~ one_of (ln_names l) private_key.
Record laws {R} (inv : R -> Prop) (base : R) (ls : list (lens R)) : Prop := Laws {
  law_own : Forall (lawful inv base) ls;
  law_apart : ForallOrdPairs apart ls;
  law_base : inv base;
  law_ext : forall r r', inv r -> inv r' -> Forall (fun l => ln_get l r = ln_get l r') ls -> r = r'
}.

Section Record_.
Context {R : Type} (inv : R -> Prop) (base : R) (ls : list (lens R)).
Hypothesis L : laws inv base ls.

Lemma apart_sym (l l' : lens R) : apart l l' -> apart l' l.
Proof. intros (H1 & H2 & H3). unfold apart. splits; eauto. Qed.
Lemma same_or_apart l l' : In l ls -> In l' ls -> l = l' \/ apart l l'.
Proof.
  intros H1 H2. destruct (ForallOrdPairs_In (law_apart _ _ _ L) l l' H1 H2) as [H|[H|H]]; auto using apart_sym.
Qed.
Lemma own l : In l ls -> lawful inv base l.
Proof. intros H. pose proof (law_own _ _ _ L) as F. rewrite Forall_forall in F. auto. Qed.
Lemma called_iff k (l : lens R) : called k (as_field l) = true <-> one_of (ln_names l) k.
Proof. unfold called. cbn. apply is_one_of_spec. Qed.
Lemma find_called k : match find (called k) (map as_field ls) with
  | Some f => exists l, In l ls /\ f = as_field l /\ one_of (ln_names l) k
  | None => forall l, In l ls -> ~ one_of (ln_names l) k
  end.
Proof.
  destruct (find (called k) (map as_field ls)) as [f|] eqn:E.
  - apply find_some in E as [E1 E2]. apply in_map_iff in E1 as (l & <- & Hl). apply called_iff in E2. eauto.
  - intros l Hl H. apply called_iff in H. pose proof (find_none _ _ E (as_field l) (in_map _ _ _ Hl)). congruence.
Qed.
Lemma read_iff (l : lens R) t (r r' : R) : read_field (as_field l) t r = Ret (Some r') <-> exists a, ln_de l t = Ret (Some a) /\ r' = ln_put l a r.
Proof.
  unfold read_field. cbn. destruct (ln_de l t) as [[a|]| | | |]; cbn; split; try discriminate; try (intros (? & ? & ?); discriminate).
  - intros [= <-]. eauto.
  - intros (x & [= <-] & ->). reflexivity.
Qed.

(** one setting after the rest of a table, from [r] to [r'] *)
Definition step_said (es : list (str * toml)) (seen : list str) (r r' : R) (l : lens R) : Prop :=
  none_of (ln_names l) es /\ ln_get l r' = ln_get l r
  \/ (forall k, In k seen -> ~ one_of (ln_names l) k)
     /\ exists l1 k t l2, es = l1 ++ (k, t) :: l2 /\ one_of (ln_names l) k /\ none_of (ln_names l) (l1 ++ l2)
        /\ ln_says l t (ln_get l r').
Lemma none_cons names k t es : ~ one_of names k -> none_of names es -> none_of names ((k, t) :: es).
Proof. intros H1 H2 e [<-|H]; [exact H1|auto]. Qed.
Lemma none_tail names e es : none_of names (e :: es) -> none_of names es.
Proof. intros H e' He. apply H. now right. Qed.
Lemma visit_iff es : forall seen r r', inv r ->
  (visit_entries (map as_field ls) es seen r = Ret (Some r') <-> inv r' /\ Forall (step_said es seen r r') ls).
Proof.
  induction es as [|[k t] es IH]; intros seen r r' Hr; cbn [visit_entries].
  - rewrite ret_some. split.
    + intros <-. split; [exact Hr|]. apply Forall_forall. intros l _. left. split; [intros e []|reflexivity].
    + intros [Hr' F]. apply (law_ext _ _ _ L); auto. rewrite Forall_forall in F |- *. intros l Hl.
      destruct (F l Hl) as [[_ E]|(_ & l1 & k & t & l2 & E & _)]; [now symmetry|]. now destruct l1.
  - pose proof (find_called k) as Hf. destruct (find (called k) (map as_field ls)) as [f|].
    + destruct Hf as (l & Hl & -> & Hk). destruct (own l Hl) as (Ho & Hb & He & Hi & _).
      destruct (existsb (fun k' => called k' (as_field l)) seen) eqn:Es.
      * split; [discriminate|]. intros [_ F]. rewrite Forall_forall in F.
        apply existsb_exists in Es as (k' & Hk' & Es). apply called_iff in Es.
        destruct (F l Hl) as [[Hn _]|[Hn _]]; [exfalso; apply (Hn (k, t)); [now left|exact Hk]|].
        exfalso. now apply (Hn k').
      * assert (Hs : forall k', In k' seen -> ~ one_of (ln_names l) k').
        { intros k' Hk' H. apply called_iff in H. assert (X : existsb (fun k' => called k' (as_field l)) seen = true)
            by (apply existsb_exists; eauto). congruence. }
        split.
        -- destruct (read_field (as_field l) t r) as [[r1|]| | | |] eqn:Er; cbn [obind]; try discriminate.
           apply read_iff in Er as (a & Ea & ->). intros H. apply IH in H as [Hr' F]; [|auto].
           split; [exact Hr'|]. rewrite Forall_forall in F |- *. intros l' Hl'.
           destruct (same_or_apart l l' Hl Hl') as [<-|(A1 & A2 & A3)].
           ++ right. split; [exact Hs|]. destruct (F l Hl) as [[Hn E]|[Hn _]].
              ** exists [], k, t, es. splits; auto. rewrite E, Ho. now apply He.
              ** exfalso. apply (Hn k); [now left|exact Hk].
           ++ assert (Hk' : ~ one_of (ln_names l') k) by (intros X; now apply (A1 k)).
              destruct (F l' Hl') as [[Hn E]|(Hn & l1 & k2 & t2 & l2 & -> & E1 & E2 & E3)].
              ** left. split; [now apply none_cons|]. now rewrite E, A3.
              ** right. split; [intros x Hx; apply Hn; now right|]. exists ((k, t) :: l1), k2, t2, l2. splits; auto.
                 now apply none_cons.
        -- intros [Hr' F]. rewrite Forall_forall in F.
           destruct (F l Hl) as [[Hn _]|(_ & l1 & k2 & t2 & l2 & E & E1 & E2 & E3)]; [exfalso; apply (Hn (k, t)); [now left|exact Hk]|].
           destruct l1 as [|e l1]; [|exfalso; injection E as <- _; apply (E2 (k, t)); [now left|exact Hk]].
           injection E as <- <- <-. apply He in E3. cbn [app] in E2.
           assert (Er : read_field (as_field l) t r = Ret (Some (ln_put l (ln_get l r') r))) by (apply read_iff; eauto).
           rewrite Er. cbn [obind]. apply IH; [auto|]. split; [exact Hr'|]. apply Forall_forall. intros l' Hl'.
           destruct (same_or_apart l l' Hl Hl') as [<-|(A1 & A2 & A3)].
           ++ left. split; [exact E2|]. now rewrite Ho.
           ++ assert (Hk' : ~ one_of (ln_names l') k) by (intros X; now apply (A1 k)).
              destruct (F l' Hl') as [[Hn E]|(Hn & l1 & k2 & t2 & l2 & E & B1 & B2 & B3)].
              ** left. split; [now apply none_tail in Hn|]. now rewrite A3.
              ** right. split; [intros x [<-|Hx]; auto|]. destruct l1 as [|e l1].
                 { injection E as -> _ _. contradiction. }
                 injection E as <- ->. exists l1, k2, t2, l2. splits; auto. now apply none_tail in B2.
    + rewrite IH by exact Hr. split; intros [Hr' F]; split; auto; rewrite Forall_forall in F |- *; intros l Hl; specialize (Hf l Hl);
        destruct (F l Hl) as [[Hn E]|(Hn & l1 & k2 & t2 & l2 & E & B1 & B2 & B3)].
      * left. split; [now apply none_cons|exact E].
      * right. split; [intros x Hx; apply Hn; now right|]. exists ((k, t) :: l1), k2, t2, l2. subst es. splits; auto. now apply none_cons.
      * left. split; [now apply none_tail in Hn|exact E].
      * right. split; [intros x [<-|Hx]; auto|]. destruct l1 as [|e l1]; [injection E as -> _ _; contradiction|].
        injection E as <- ->. exists l1, k2, t2, l2. splits; auto. now apply none_tail in B2.
Qed.

Lemma elements_iff : forall pre post l r r', ls = pre ++ post -> inv r -> Forall (fun s => ln_get s r = ln_default s) post ->
  (visit_elements (map as_field post) l r = Ret (Some r') <->
   inv r' /\ Forall (fun s => ln_get s r' = ln_get s r) pre /\ said_in_order (map as_setting post) l r').
Proof.
  intros pre post. revert pre. induction post as [|s post IH]; intros pre l r r' E Hr Hd; cbn [map visit_elements said_in_order].
  - rewrite app_nil_r in E. subst pre. rewrite ret_some. split.
    + intros <-. splits; auto. apply Forall_forall. reflexivity.
    + intros (Hr' & F & _). symmetry. now apply (law_ext _ _ _ L).
  - apply Forall_cons_iff in Hd as [Hd1 Hd2].
    assert (Hs : In s ls) by (rewrite E; apply in_elt). destruct (own s Hs) as (Ho & Hb & He & Hi & _).
    assert (Hin : forall x, In x pre -> In x ls) by (intros x Hx; rewrite E; apply in_or_app; auto).
    assert (Hin' : forall x, In x post -> In x ls) by (intros x Hx; rewrite E; apply in_or_app; right; now right).
    assert (Hap : Forall (fun x => apart x s) (pre ++ post)).
    { pose proof (law_apart _ _ _ L) as P. rewrite E in P. clear -P. induction pre as [|x pre IH]; cbn [app] in *.
      - inversion P as [|? ? P1 P2]; subst. apply Forall_impl with (2 := P1). auto using apart_sym.
      - inversion P as [|? ? P1 P2]; subst. constructor; [|auto]. rewrite Forall_forall in P1. apply P1, in_elt. }
    apply Forall_app in Hap as [Ap1 Ap2]. rewrite Forall_forall in Ap1, Ap2.
    destruct l as [|t l].
    + (* the rest is missing *)
      rewrite ret_some. split.
      * intros <-. splits; auto. { apply Forall_forall. reflexivity. }
        clear -Hd2. induction post as [|x post IH]; cbn; [easy|]. inversion Hd2; subst. auto.
      * intros (Hr' & F & F1 & F2). cbn [as_setting st_get st_default] in F1. symmetry. apply (law_ext _ _ _ L); auto. rewrite E.
        apply Forall_app. split; [exact F|]. constructor; [now rewrite F1, Hd1|].
        clear -Hd2 F2. induction post as [|x post IH]; [constructor|]. inversion Hd2; subst. destruct F2 as [F F2].
        constructor; [cbn in F; congruence|auto].
    + cbn [as_setting st_says st_get]. split.
      * destruct (read_field (as_field s) t r) as [[r1|]| | | |] eqn:Er; cbn [obind]; try discriminate.
        apply read_iff in Er as (a & Ea & ->). intros H. apply (IH (pre ++ [s])) in H.
        2: { now rewrite <- app_assoc. } 2: auto.
        2: { rewrite Forall_forall in Hd2 |- *. intros x Hx. destruct (Ap2 x Hx) as (_ & A & _). rewrite A. auto. }
        destruct H as (H1 & H2 & H3). apply Forall_app in H2 as [H2 H4]. apply Forall_cons_iff in H4 as [H5 _]. splits; auto.
        -- rewrite Forall_forall in H2 |- *. intros x Hx. destruct (Ap1 x Hx) as (_ & A & _). rewrite H2, A; auto.
        -- rewrite H5, Ho. now apply He.
      * intros (H1 & H2 & H3 & H4). apply He in H3.
        assert (Er : read_field (as_field s) t r = Ret (Some (ln_put s (ln_get s r') r))) by (apply read_iff; eauto).
        rewrite Er. cbn [obind]. apply (IH (pre ++ [s])); auto.
        { now rewrite <- app_assoc. }
        { rewrite Forall_forall in Hd2 |- *. intros x Hx. destruct (Ap2 x Hx) as (_ & A & _). rewrite A. auto. }
        splits; auto. apply Forall_app. split; [|constructor; [now rewrite Ho|constructor]].
        rewrite Forall_forall in H2 |- *. intros x Hx. destruct (Ap1 x Hx) as (_ & A & _). rewrite A. auto.
Qed.

Lemma defaults : Forall (fun s => ln_get s base = ln_default s) ls.
Proof. eapply Forall_impl; [|exact (law_own _ _ _ L)]. now intros l (_ & H & _). Qed.
Lemma date_iff s r : visit_entries (map as_field ls) [(private_key, TStr s)] [] base = Ret (Some r) <->
  inv r /\ Forall (fun s => st_get s r = st_default s) (map as_setting ls).
Proof.
  rewrite visit_iff by apply L. split; intros [H F]; split; auto; rewrite Forall_forall in *.
  - intros x Hx. apply in_map_iff in Hx as (l & <- & Hl). cbn. destruct (own l Hl) as (_ & Hb & _ & _ & Hp).
    destruct (F l Hl) as [[_ E]|(_ & l1 & k & t & l2 & E & E1 & _)]; [congruence|].
    destruct l1 as [|e [|]]; try discriminate. injection E as <- _ _. contradiction.
  - intros l Hl. destruct (own l Hl) as (_ & Hb & _ & _ & Hp). left. split.
    + intros e [<-|[]]. exact Hp.
    + rewrite Hb. apply (F (as_setting l)). now apply in_map.
Qed.
Theorem struct_exact : exact (de_struct (map as_field ls) base) (fun t r => says_record (map as_setting ls) t r /\ inv r).
Proof.
  intros t r. unfold de_struct, says_record. destruct t as [| | | |x|l|l]; try (split; [discriminate|intros [[] _]]).
  - rewrite (date_iff x r). tauto.
  - rewrite (elements_iff [] ls l base r eq_refl (law_base _ _ _ L) defaults). split; [tauto|].
    intros [H1 H2]. splits; auto.
  - rewrite visit_iff by apply L. split.
    + intros [H F]. split; [|exact H]. rewrite Forall_forall in *. intros s Hs. apply in_map_iff in Hs as (n & <- & Hn).
      destruct (own n Hn) as (_ & Hb & _). destruct (F n Hn) as [[H1 H2]|(_ & H1)]; [left|right; exact H1].
      split; [exact H1|]. cbn. congruence.
    + intros [F H]. split; [exact H|]. rewrite Forall_forall in *. intros n Hn. destruct (own n Hn) as (_ & Hb & _).
      destruct (F (as_setting n) (in_map _ _ _ Hn)) as [[H1 H2]|H1]; [left|right; split; [intros ? []|exact H1]].
      split; [exact H1|]. cbn in H2. congruence.
Qed.
Theorem variant_exact : exact (de_variant (map as_field ls) base) (fun t r => says_only (map as_setting ls) t r /\ inv r).
Proof.
  intros t r. unfold de_variant, says_only, only_known. destruct t as [| | | |x|l|l]; try (split; [discriminate|now intros [[_ []] _]]).
  1, 2: rewrite (struct_exact _ r); split; [intros [H1 H2]; splits; auto; discriminate|tauto].
  assert (K : forallb (fun e => existsb (called (fst e)) (map as_field ls)) l = true <->
            forall e, In e l -> exists s, In s (map as_setting ls) /\ one_of (st_names s) (fst e)).
  { rewrite forallb_forall. split; intros H e He; specialize (H e He).
    - apply existsb_exists in H as (f & Hf & H). apply in_map_iff in Hf as (n & <- & Hn). apply called_iff in H.
      exists (as_setting n). split; [now apply in_map|exact H].
    - destruct H as (s & Hs & H). apply in_map_iff in Hs as (n & <- & Hn). apply existsb_exists.
      exists (as_field n). split; [now apply in_map|]. now apply called_iff. }
  destruct (forallb (fun e => existsb (called (fst e)) (map as_field ls)) l).
  - rewrite (struct_exact _ r). split.
    + intros [H1 H2]. splits; auto. intros l' [= <-]. now apply K.
    + intros [[_ H1] H2]. auto.
  - split; [discriminate|]. intros [[H _] _]. assert (X : false = true) by (apply K; exact (H l eq_refl)). discriminate.
Qed.
End Record_.

(** ** The records of the configuration *)
(** what a reader accepts, when the value is not kept *)
Definition accepts (d : de unit) (P : toml -> Prop) : Prop := exact d (fun t _ => P t).
Lemma accepts_unused {A} (d : de A) says (P : toml -> Prop) : exact d says -> (forall t, (exists a, says t a) <-> P t) -> accepts (unused d) P.
Proof.
  intros H HP t []. unfold unused. rewrite fmap_iff, <- HP. split; intros (a & Ha); exists a.
  - now apply H.
  - split; [now apply H|reflexivity].
Qed.
Lemma exact_iff {A} (d : de A) says says' : exact d says -> (forall t a, says t a <-> says' t a) -> exact d says'.
Proof. intros H Hs t a. rewrite <- Hs. apply H. Qed.
Lemma accepts_opt (d : de unit) P : accepts d P -> accepts (unused (de_opt d)) P.
Proof.
  intros H. eapply accepts_unused; [apply exact_opt, H|]. intros t. unfold says_some. split.
  - now intros (o & a & _ & Hp).
  - intros Hp. exists (Some tt), tt. auto.
Qed.
Lemma unit_list l (P : toml -> Prop) : (exists r : list unit, Forall2 (fun t _ => P t) l r) <-> Forall P l.
Proof.
  split.
  - intros (r & F). induction F; constructor; auto.
  - induction 1 as [|t l Ht Hl (r & IH)]; [exists []; constructor|]. exists (tt :: r). now constructor.
Qed.
Lemma accepts_vec (d : de unit) P : accepts d P -> accepts (unused (de_vec d)) (is_list P).
Proof.
  intros H. eapply accepts_unused; [apply exact_vec, H|]. intros t. unfold says_list, is_list. split.
  - intros (l & ts & -> & F). exists ts. split; [reflexivity|]. apply unit_list. eauto.
  - intros (ts & -> & F). apply unit_list in F as (l & F). eauto.
Qed.
Lemma accepts_map (d : de unit) P : accepts d P -> (forall s, ~ P (TStr s)) -> accepts (unused (de_table d)) (is_map P).
Proof.
  intros H Hs. eapply accepts_unused; [exact (exact_table d _ H (fun s _ => Hs s))|]. intros t. unfold says_map, is_map. split.
  - intros (l & ts & -> & F). exists ts. split; [reflexivity|]. induction F as [|? ? ? ? [_ F]]; constructor; auto.
  - intros (es & -> & F). exists (map (fun e => (fst e, tt)) es), es. split; [reflexivity|]. induction F; constructor; auto.
Qed.
Lemma accepts_string : accepts (unused de_string) is_text.
Proof. eapply accepts_unused; [apply exact_string|]. reflexivity. Qed.
Lemma accepts_strings : accepts (unused (de_vec de_string)) (is_list is_text).
Proof.
  eapply accepts_unused; [apply exact_vec, exact_string|]. intros t. unfold says_list, is_list. split.
  - intros (l & ts & -> & F). exists ts. split; [reflexivity|]. induction F; constructor; auto. eexists; eauto.
  - intros (ts & -> & F). assert (X : exists l, Forall2 says_text ts l); [|destruct X as (l & X); eauto].
    induction F as [|t ts (s & Hs) F (l & IH)]; [exists []; constructor|]. exists (s :: l). now constructor.
Qed.
Lemma accepts_match : accepts de_match is_text.
Proof. intros t []. unfold de_match, is_text. destruct t; split; try discriminate; try (intros (? & [=])); eauto. Qed.
Definition lens_aside {R} (names : list string) (d : de unit) (P : toml -> Prop) : lens R :=
  Lens names d (fun _ r => r) (fun t _ => P t) tt (fun _ => tt).

(** the names of the settings are found to differ by comparing them *)
Fixpoint distinct (names : list (list string)) : bool :=
  match names with
  | [] => true
  | ns :: rest => forallb (fun n => negb (existsb (fun ns' => is_one_of (chars n) ns') (["$__toml_private_datetime"%string] :: rest))) ns && distinct rest
  end.
Lemma distinct_first ns rest k : distinct (ns :: rest) = true -> one_of ns k ->
  (forall ns', In ns' rest -> ~ one_of ns' k) /\ k <> private_key.
Proof.
  intros H (n & Hn & ->). cbn [distinct] in H. apply andb_true_iff in H as [H _]. rewrite forallb_forall in H.
  specialize (H n Hn). apply negb_true_iff in H. cbn [existsb] in H. apply orb_false_iff in H as [H1 H2]. split.
  - intros ns' Hin Ho. assert (X : existsb (fun ns' => is_one_of (chars n) ns') rest = true); [|congruence].
    apply existsb_exists. exists ns'. split; [exact Hin|]. now apply is_one_of_spec.
  - intros E. assert (X : is_one_of (chars n) ["$__toml_private_datetime"%string] = true); [|congruence].
    apply is_one_of_spec. eexists. split; [now left|exact E].
Qed.
Definition puts_apart {R} (l l' : lens R) : Prop :=
  (forall a r, ln_get l (ln_put l' a r) = ln_get l r) /\ (forall a r, ln_get l' (ln_put l a r) = ln_get l' r).
Definition lawful_alone {R} (inv : R -> Prop) (base : R) (l : lens R) : Prop :=
  (forall a r, ln_get l (ln_put l a r) = a) /\ ln_get l base = ln_default l
  /\ exact (ln_de l) (ln_says l) /\ (forall a r, inv r -> inv (ln_put l a r)).
Lemma make_laws {R} (inv : R -> Prop) base ls :
  distinct (map ln_names ls) = true -> Forall (lawful_alone inv base) ls -> ForallOrdPairs puts_apart ls -> inv base ->
  (forall r r', inv r -> inv r' -> Forall (fun l => ln_get l r = ln_get l r') ls -> r = r') -> laws inv base ls.
Proof.
  intros D A P B E. constructor; auto.
  - clear -D A. induction ls as [|l ls IH]; [constructor|]. apply Forall_cons_iff in A as [A1 A2]. constructor.
    + destruct A1 as (H1 & H2 & H3 & H4). unfold lawful. splits; auto. intros H. now apply (distinct_first _ _ _ D) in H as [_ H].
    + apply IH; auto. cbn [map distinct] in D. now apply andb_true_iff in D as [_ D].
  - clear -D P. induction ls as [|l ls IH]; [constructor|]. inversion P as [|? ? P1 P2]; subst. constructor.
    + rewrite Forall_forall in P1 |- *. intros l' Hl'. split; [|exact (P1 l' Hl')]. intros k H1 H2.
      apply (distinct_first _ _ _ D) in H1 as [H1 _]. apply (H1 (ln_names l')); [now apply in_map|exact H2].
    + apply IH; auto. cbn [map distinct] in D. now apply andb_true_iff in D as [_ D].
Qed.
Ltac each := repeat (first [apply Forall_nil|apply Forall_cons|apply FOP_nil|apply FOP_cons]).
Ltac ext_by := let r := fresh "r" in let r' := fresh "r'" in let F := fresh "F" in let H := fresh "H" in let H' := fresh "H'" in
  intros r r' H H' F; destruct r, r'; cbn in H, H';
  repeat match type of F with Forall _ (_ :: _) => apply Forall_cons_iff in F as [? F] end; cbn in *; subst; auto; try congruence.

(** enums *)
Definition agrees {E} (rd : reading) (vs : list (variant E)) (cases : list (list string * (toml -> E -> Prop))) : Prop :=
  Forall2 (fun v c => va_names v = fst c /\ exact (va_de v) (snd c)) vs cases.
Lemma find_variant_in {E} (vs : list (variant E)) k v : find_variant vs k = Some v -> In v vs /\ one_of (va_names v) k.
Proof. unfold find_variant. intros H. apply find_some in H as [H1 H2]. split; [exact H1|now apply is_one_of_spec]. Qed.
Lemma find_variant_unique {E} (vs : list (variant E)) : distinct (map va_names vs) = true ->
  forall k v, In v vs -> one_of (va_names v) k -> find_variant vs k = Some v.
Proof.
  induction vs as [|x vs IH]; intros D k v Hv Hk; [easy|]. cbn [find_variant find]. unfold find_variant. cbn [find].
  destruct (is_one_of k (va_names x)) eqn:E1.
  - apply is_one_of_spec in E1. destruct Hv as [->|Hv]; [reflexivity|].
    apply (distinct_first _ _ _ D) in E1 as [E1 _]. exfalso. apply (E1 (va_names v)); [now apply in_map|exact Hk].
  - destruct Hv as [->|Hv]. { apply is_one_of_spec in Hk. congruence. }
    apply IH; auto. cbn [map distinct] in D. now apply andb_true_iff in D as [_ D].
Qed.
Lemma case_iff {E} rd (vs : list (variant E)) cases k rest data e : agrees rd vs cases -> distinct (map va_names vs) = true ->
  (de_enum rd vs (TTable ((k, data) :: rest)) = Ret (Some e) <-> says_case (rd_first rd) cases (TTable ((k, data) :: rest)) e).
Proof.
  intros A D. unfold de_enum, says_case. split.
  - destruct (negb (rd_first rd) && negb match rest with [] => true | _ => false end) eqn:Er; [discriminate|].
    destruct (find_variant vs k) as [v|] eqn:Ef; [|discriminate]. intros H. apply find_variant_in in Ef as [Ef Hk].
    assert (X : exists c, In c cases /\ va_names v = fst c /\ exact (va_de v) (snd c)).
    { clear -A Ef. induction A as [|? ? ? ? [H1 H2] A IH]; [easy|]. destruct Ef as [->|Ef]; [exists y; cbn; auto|].
      destruct (IH Ef) as (c & Hc & Hx). exists c. cbn. auto. }
    destruct X as ([names says] & Hc & H1 & H2). cbn [fst snd] in *. exists k, data, rest, names, says. splits; auto.
    + destruct rest; [auto|]. right. cbn in Er. destruct (rd_first rd); [reflexivity|discriminate].
    + now rewrite <- H1.
    + now apply H2.
  - intros (k' & data' & rest' & names & says & [= <- <- <-] & Hr & Hc & Hk & Hs).
    assert (X : exists v, In v vs /\ va_names v = names /\ exact (va_de v) says).
    { clear -A Hc. induction A as [|v c ? ? [H1 H2] A IH]; [easy|]. destruct Hc as [->|Hc]; [exists v; cbn in *; auto|].
      destruct (IH Hc) as (v' & Hv & Hx). exists v'. cbn. auto. }
    destruct X as (v & Hv & <- & He).
    replace (negb (rd_first rd) && negb match rest with [] => true | _ => false end) with false
      by (destruct Hr as [->| ->]; [now rewrite andb_comm|reflexivity]).
    rewrite (find_variant_unique vs D k v Hv Hk). now apply He.
Qed.
(** no case without data *)
Lemma exact_enum {E} rd (vs : list (variant E)) cases : agrees rd vs cases -> distinct (map va_names vs) = true ->
  Forall (fun v => va_unit v = None) vs -> exact (de_enum rd vs) (says_case (rd_first rd) cases).
Proof.
  intros A D U t e. destruct t as [s| | | | | |[|[k data] rest]]; try (split; [discriminate|now intros (? & ? & ? & ? & ? & [=] & _)]).
  - split; [|now intros (? & ? & ? & ? & ? & [=] & _)]. cbn. destruct (find_variant vs s) as [v|] eqn:Ef; [|discriminate].
    apply find_variant_in in Ef as [Ef _]. rewrite Forall_forall in U. rewrite U by exact Ef. discriminate.
  - now apply case_iff.
Qed.

Section Concrete.
Variable rd : reading.
Hypothesis Hrd : release rd.
Let first := rd_first rd.
Local Open Scope string_scope.
Local Open Scope list_scope.

Definition any {R} (r : R) : Prop := True.
Lemma exact_opt_i32 : exact (de_opt de_i32) (says_some (says_int (- 2 ^ 31) (2 ^ 31 - 1))).
Proof. apply exact_opt, exact_i32. Qed.
Hint Resolve exact_string exact_bool exact_u32 exact_opt_i32 exact_opt exact_bytes exact_size exact_duration exact_vec : toml.
Hint Resolve accepts_opt accepts_vec accepts_string accepts_strings accepts_match : toml.
Ltac to_accepts := try match goal with |- exact ?d (fun t _ => @?P t) => change (accepts d P) end.
Ltac laws_by ls := apply make_laws;
  [vm_compute; reflexivity
  |unfold ls, lens_aside; each; (split; [try reflexivity; now intros []|split; [reflexivity|split; [cbn [ln_de ln_says ln_type]; to_accepts; auto with toml|cbn; auto]]])
  |unfold ls, lens_aside; each; split; reflexivity|now cbn|unfold ls, lens_aside; ext_by].
Ltac drop_any := unfold any; intros; cbn beta; tauto.
Definition ws_lens : list (lens ws_config) :=
  [Lens ["max_frame_body_size"; "MaxFrameBodySize"] (de_size rd)
     (fun a r => WsConfig a (ws_max_message_body_size r) (ws_read_timeout r) (ws_compression r))
     says_size 0%N ws_max_frame_body_size;
   Lens ["max_message_body_size"; "MaxMessageBodySize"] (de_size rd)
     (fun a r => WsConfig (ws_max_frame_body_size r) a (ws_read_timeout r) (ws_compression r))
     says_size 0%N ws_max_message_body_size;
   Lens ["read_timeout"; "ReadTimeout"] (de_duration rd)
     (fun a r => WsConfig (ws_max_frame_body_size r) (ws_max_message_body_size r) a (ws_compression r))
     says_duration 0%N ws_read_timeout;
   Lens ["compression"; "Compression"] (de_opt de_i32)
     (fun a r => WsConfig (ws_max_frame_body_size r) (ws_max_message_body_size r) (ws_read_timeout r) a)
     (says_some (says_int (- 2 ^ 31) (2 ^ 31 - 1))) None ws_compression].
Lemma ws_laws : laws any ws_default ws_lens.
Proof. laws_by ws_lens. Qed.
Lemma exact_ws : exact (de_ws rd) (says_record ws_settings).
Proof. eapply exact_iff; [exact (struct_exact any ws_default ws_lens ws_laws)|]. drop_any. Qed.
Hint Resolve exact_ws : toml.
Definition http_lens : list (lens http_config) :=
  [Lens ["keep_alive"; "KeepAlive"] (de_opt de_bool)
     (fun a r => HttpConfig a (h_idle_timeout r) (h_max_url_size r) (h_max_header_line_size r) (h_max_headers_count r) (h_max_body_size r) (h_compression r) (h_websocket r))
     (says_some says_flag) None h_keep_alive;
   Lens ["idle_timeout"; "IdleTimeout"] (de_duration rd)
     (fun a r => HttpConfig (h_keep_alive r) a (h_max_url_size r) (h_max_header_line_size r) (h_max_headers_count r) (h_max_body_size r) (h_compression r) (h_websocket r))
     says_duration 0%N h_idle_timeout;
   Lens ["max_url_size"; "MaxUrlSize"] (de_size rd)
     (fun a r => HttpConfig (h_keep_alive r) (h_idle_timeout r) a (h_max_header_line_size r) (h_max_headers_count r) (h_max_body_size r) (h_compression r) (h_websocket r))
     says_size 0%N h_max_url_size;
   Lens ["max_header_line_size"; "MaxHeaderLineSize"] (de_size rd)
     (fun a r => HttpConfig (h_keep_alive r) (h_idle_timeout r) (h_max_url_size r) a (h_max_headers_count r) (h_max_body_size r) (h_compression r) (h_websocket r))
     says_size 0%N h_max_header_line_size;
   Lens ["max_headers_count"; "MaxHeadersCount"] de_u32
     (fun a r => HttpConfig (h_keep_alive r) (h_idle_timeout r) (h_max_url_size r) (h_max_header_line_size r) a (h_max_body_size r) (h_compression r) (h_websocket r))
     says_count 0%N h_max_headers_count;
   Lens ["max_body_size"; "MaxBodySize"] (de_size rd)
     (fun a r => HttpConfig (h_keep_alive r) (h_idle_timeout r) (h_max_url_size r) (h_max_header_line_size r) (h_max_headers_count r) a (h_compression r) (h_websocket r))
     says_size 0%N h_max_body_size;
   Lens ["compression"; "Compression"] (de_opt de_i32)
     (fun a r => HttpConfig (h_keep_alive r) (h_idle_timeout r) (h_max_url_size r) (h_max_header_line_size r) (h_max_headers_count r) (h_max_body_size r) a (h_websocket r))
     (says_some (says_int (- 2 ^ 31) (2 ^ 31 - 1))) None h_compression;
   Lens ["websocket"; "Websocket"; "ws"] (de_opt (de_ws rd))
     (fun a r => HttpConfig (h_keep_alive r) (h_idle_timeout r) (h_max_url_size r) (h_max_header_line_size r) (h_max_headers_count r) (h_max_body_size r) (h_compression r) a)
     (says_some (says_record ws_settings)) None h_websocket].
Lemma http_laws : laws any http_default http_lens.
Proof. laws_by http_lens. Qed.
Lemma exact_http : exact (de_http rd) (says_record http_settings).
Proof. eapply exact_iff; [exact (struct_exact any http_default http_lens http_laws)|]. drop_any. Qed.
Hint Resolve exact_http : toml.
Definition tls_lens : list (lens tls_config) :=
  [Lens ["cert"] de_bytes
     (fun a r => TlsConfig a (tls_key r) (tls_timeout r))
     says_bytes [] tls_cert;
   Lens ["key"] de_bytes
     (fun a r => TlsConfig (tls_cert r) a (tls_timeout r))
     says_bytes [] tls_key;
   Lens ["timeout"] (de_duration rd)
     (fun a r => TlsConfig (tls_cert r) (tls_key r) a)
     says_duration 0%N tls_timeout].
Lemma tls_laws : laws any tls_default tls_lens.
Proof. laws_by tls_lens. Qed.
Lemma exact_tls : exact (de_tls rd) (says_record tls_settings).
Proof. eapply exact_iff; [exact (struct_exact any tls_default tls_lens tls_laws)|]. drop_any. Qed.
Hint Resolve exact_tls : toml.
Definition tcp_lens : list (lens tcp_config) :=
  [Lens ["addr"; "address"; "Address"; "Addr"] de_bytes
     (fun a r => TcpConfig a (t_tls r) (t_read_buf r) (t_write_buf r) (t_buf r))
     says_bytes [] t_addr;
   Lens ["tls"] (de_tls rd)
     (fun a r => TcpConfig (t_addr r) a (t_read_buf r) (t_write_buf r) (t_buf r))
     (says_record tls_settings) (TlsConfig [] [] 0) t_tls;
   Lens ["read_stream_buf_size"; "ReadStreamBufSize"] (de_size rd)
     (fun a r => TcpConfig (t_addr r) (t_tls r) a (t_write_buf r) (t_buf r))
     says_size 0%N t_read_buf;
   Lens ["write_stream_buf_size"; "WriteStreamBufSize"] (de_size rd)
     (fun a r => TcpConfig (t_addr r) (t_tls r) (t_read_buf r) a (t_buf r))
     says_size 0%N t_write_buf;
   Lens ["buf_size"; "BufSize"] (de_size rd)
     (fun a r => TcpConfig (t_addr r) (t_tls r) (t_read_buf r) (t_write_buf r) a)
     says_size 0%N t_buf].
Lemma tcp_laws : laws any tcp_default tcp_lens.
Proof. laws_by tcp_lens. Qed.
Lemma exact_tcp : exact (de_tcp rd) (says_record tcp_settings).
Proof. eapply exact_iff; [exact (struct_exact any tcp_default tcp_lens tcp_laws)|]. drop_any. Qed.
Hint Resolve exact_tcp : toml.
Definition runtime_lens : list (lens runtime_config) :=
  [Lens ["worker_threads"; "WorkerThreads"] de_u32
     (fun a r => RuntimeConfig a (rt_per_core r))
     says_count 0%N rt_worker_threads;
   Lens ["per_core"; "PerCore"] (de_opt de_bool)
     (fun a r => RuntimeConfig (rt_worker_threads r) a)
     (says_some says_flag) None rt_per_core].
Lemma runtime_laws : laws any (RuntimeConfig 0 None) runtime_lens.
Proof. laws_by runtime_lens. Qed.
Lemma exact_runtime : exact de_runtime (says_record runtime_settings).
Proof. eapply exact_iff; [exact (struct_exact any (RuntimeConfig 0 None) runtime_lens runtime_laws)|]. drop_any. Qed.
Hint Resolve exact_runtime : toml.
Definition console_lens : list (lens (option str)) :=
  [Lens ["level"; "Level"] (de_opt de_string)
     (fun a _ => a)
     (says_some says_text) None (fun r => r)].
Lemma console_laws : laws any None console_lens.
Proof. laws_by console_lens. Qed.
Lemma exact_console : exact (de_variant console_fields None) (says_only console_settings).
Proof. eapply exact_iff; [exact (variant_exact any None console_lens console_laws)|]. drop_any. Qed.
Hint Resolve exact_console : toml.
Definition log_file_lens : list (lens log_file) :=
  [Lens ["level"; "Level"] (de_opt de_string)
     (fun a r => LogFile a (lf_equal r) (lf_daily r) (lf_bufsize r))
     (says_some says_text) None lf_level;
   Lens ["equal"; "Equal"] (de_opt de_bool)
     (fun a r => LogFile (lf_level r) a (lf_daily r) (lf_bufsize r))
     (says_some says_flag) None lf_equal;
   Lens ["daily"; "Daily"] de_bool
     (fun a r => LogFile (lf_level r) (lf_equal r) a (lf_bufsize r))
     says_flag false lf_daily;
   Lens ["bufsize"; "BufferSize"] (de_size rd)
     (fun a r => LogFile (lf_level r) (lf_equal r) (lf_daily r) a)
     says_size 0%N lf_bufsize].
Lemma log_file_laws : laws any (LogFile None None false 0) log_file_lens.
Proof. laws_by log_file_lens. Qed.
Lemma exact_log_file : exact (de_variant (file_fields rd) (LogFile None None false 0)) (says_only log_file_settings).
Proof. eapply exact_iff; [exact (variant_exact any (LogFile None None false 0) log_file_lens log_file_laws)|]. drop_any. Qed.
Hint Resolve exact_log_file : toml.
Lemma exact_fmap {A B} (f : A -> B) (d : de A) says : exact d says -> exact (de_fmap f d) (fun t b => exists a, says t a /\ b = f a).
Proof. intros H t b. rewrite fmap_iff. split; intros (a & H1 & H2); exists a; split; auto; now apply H. Qed.
Lemma exact_appender : exact (de_appender rd) (says_appender first).
Proof.
  apply exact_enum; [|vm_compute; reflexivity|repeat constructor].
  repeat (apply Forall2_cons || apply Forall2_nil); (split; [reflexivity|]); cbn [va_de snd]; apply exact_fmap; auto with toml.
Qed.
Hint Resolve exact_appender : toml.
Definition logging_lens : list (lens logging_config) :=
  [Lens ["disable"; "Disable"] (de_opt de_bool)
     (fun a r => LoggingConfig (l_service_name r) (l_service_idx r) a (l_timelayout r) (l_appenders r))
     (says_some says_flag) None l_disable;
   Lens ["timelayout"; "TimeLayout"; "time_layout"] de_string
     (fun a r => LoggingConfig (l_service_name r) (l_service_idx r) (l_disable r) a (l_appenders r))
     says_text [] l_timelayout;
   Lens ["appenders"; "Appender"] (de_vec (de_appender rd))
     (fun a r => LoggingConfig (l_service_name r) (l_service_idx r) (l_disable r) (l_timelayout r) a)
     (says_list (says_appender first)) [] l_appenders].
Definition fresh_logging (l : logging_config) : Prop := l_service_name l = [] /\ l_service_idx l = 0.
Lemma logging_laws : laws fresh_logging (LoggingConfig [] 0 None [] []) logging_lens.
Proof. laws_by logging_lens; destruct H, H'; cbn in *; congruence. Qed.
Lemma exact_logging : exact (de_logging rd) (says_logging first).
Proof. exact (struct_exact fresh_logging _ logging_lens logging_laws). Qed.
Hint Resolve exact_logging : toml.
Lemma accepts_body : accepts (de_enum rd body_variants) (is_body first).
Proof.
  intros t []. unfold is_body.
  assert (A : agrees rd body_variants
       [(["None"; "none"; "null"; "nil"], fun t (_ : unit) => t = TArr [] \/ t = TTable []);
        (["Text"; "text"; "Txt"; "txt"], fun t _ => is_text t);
        (["File"; "file"], fun t _ => is_text t)]).
  { repeat (apply Forall2_cons || apply Forall2_nil); (split; [reflexivity|]); cbn [va_de snd]; try exact accepts_string.
    intros t' []. unfold de_empty. destruct t' as [| | | | |[|]|[|]]; split; try discriminate; auto; now intros [H|H]. }
  assert (D : distinct (map va_names body_variants) = true) by (vm_compute; reflexivity).
  destruct t as [s| | | | | |[|[k data] rest]]; try (split; [discriminate|now intros [(? & [=] & _)|(? & ? & ? & ? & ? & [=] & _)]]).
  - cbn [de_enum]. split.
    + destruct (find_variant body_variants s) as [v|] eqn:Ef; [|discriminate]. apply find_variant_in in Ef as [Ef Hk].
      destruct Ef as [<-|[<-|[<-|[]]]]; try discriminate. intros _. left. eauto.
    + intros [(s' & [= <-] & H)|(? & ? & ? & ? & ? & [=] & _)]. rewrite (find_variant_unique _ D s _ (or_introl eq_refl) H). reflexivity.
  - rewrite (case_iff rd _ _ k rest data tt A D). split; [auto|]. intros [(? & [=] & _)|H]; exact H.
Qed.
Hint Resolve accepts_body : toml.
Lemma accepts_code : accepts (unused (de_opt de_u32)) (fun t => exists n, says_count t n).
Proof.
  eapply accepts_unused; [apply exact_opt, exact_u32|]. intros t. unfold says_some. split.
  - intros (o & a & _ & H). eauto.
  - intros (n & H). exists (Some n), n. auto.
Qed.
Lemma accepts_reason : accepts (unused (de_opt de_string)) is_text.
Proof.
  eapply accepts_unused; [apply exact_opt, exact_string|]. intros t. unfold says_some. split.
  - intros (o & a & _ & H). eexists; eauto.
  - intros (s & H). exists (Some s), s. auto.
Qed.
Hint Resolve accepts_code accepts_reason : toml.
Definition response_lens : list (lens unit) :=
  [lens_aside ["code"; "Code"] (unused (de_opt de_u32)) (fun t => exists n, says_count t n);
   lens_aside ["reason"; "Reason"] (unused (de_opt de_string)) is_text;
   lens_aside ["headers"; "Headers"] (unused (de_vec de_string)) (is_list is_text);
   lens_aside ["body"; "Body"] (de_enum rd body_variants) (is_body first)].
Lemma response_laws : laws any tt response_lens.
Proof. laws_by response_lens. Qed.
Lemma accepts_response : accepts (de_struct (response_fields rd) tt) (is_response first).
Proof. intros t []. rewrite (struct_exact any tt response_lens response_laws t tt). drop_any. Qed.
Hint Resolve accepts_response : toml.
Definition early_return_lens : list (lens unit) :=
  [lens_aside ["matchs"; "Matchs"] (unused (de_vec de_match)) (is_list is_text);
   lens_aside ["resp"; "Resp"; "response"; "Response"] (unused (de_opt (de_struct (response_fields rd) tt))) (is_response first)].
Lemma early_return_laws : laws any tt early_return_lens.
Proof. laws_by early_return_lens. Qed.
Lemma accepts_early_return : accepts (de_struct (early_fields rd) tt) (is_early first).
Proof. intros t []. rewrite (struct_exact any tt early_return_lens early_return_laws t tt). drop_any. Qed.
Hint Resolve accepts_early_return : toml.
Lemma accepts_early : accepts (de_early rd) (is_early first).
Proof. unfold de_early. apply accepts_opt, accepts_early_return. Qed.
Lemma rewrite_laws : laws any tt [].
Proof. constructor; try constructor. intros [] []. auto. Qed.
Lemma accepts_rewrite : accepts de_rewrite is_rewrite.
Proof. intros t []. rewrite (struct_exact any tt [] rewrite_laws t tt). drop_any. Qed.
Hint Resolve accepts_early accepts_rewrite : toml.
Definition rule_lens : list (lens unit) :=
  [lens_aside ["match"; "Match"] de_match is_text;
   lens_aside ["reqrewrites"; "ReqRewrites"; "req_rewrites"] (unused (de_opt de_rewrite)) is_rewrite;
   lens_aside ["resprewrites"; "RespRewrites"; "resp_rewrites"] (unused (de_opt de_rewrite)) is_rewrite].
Lemma rule_laws : laws any tt rule_lens.
Proof. laws_by rule_lens. Qed.
Lemma accepts_rule : accepts de_rule is_rule.
Proof. intros t []. rewrite (struct_exact any tt rule_lens rule_laws t tt). drop_any. Qed.
Hint Resolve accepts_rule : toml.
Lemma accepts_rules : accepts (unused (de_table de_rule)) (is_map is_rule).
Proof. apply accepts_map; [apply accepts_rule|]. now intros s. Qed.
Lemma accepts_rewrites : accepts (unused (de_table de_rewrite)) (is_map is_rewrite).
Proof. apply accepts_map; [apply accepts_rewrite|]. now intros s. Qed.
Hint Resolve accepts_rules accepts_rewrites : toml.
Definition hello_lens : list (lens unit) :=
  [lens_aside ["early"; "Early"; "filter"; "Filter"] (de_early rd) (is_early first)].
Lemma hello_laws : laws any tt hello_lens.
Proof. laws_by hello_lens. Qed.
Lemma exact_hello : exact (de_variant (hello_fields rd) tt) (says_only (hello_settings first)).
Proof. eapply exact_iff; [exact (variant_exact any tt hello_lens hello_laws)|]. drop_any. Qed.
Hint Resolve exact_hello : toml.
Definition fs_lens : list (lens str) :=
  [lens_aside ["early"; "Early"; "filter"; "Filter"] (de_early rd) (is_early first);
   Lens ["root"; "Root"] de_string
     (fun a _ => a)
     says_text [] (fun r => r);
   lens_aside ["rewrites"; "Rewrites"] (unused (de_table de_rewrite)) (is_map is_rewrite)].
Lemma fs_laws : laws any [] fs_lens.
Proof. laws_by fs_lens. Qed.
Lemma exact_fs : exact (de_variant (fs_fields rd) []) (says_only (fs_settings first)).
Proof. eapply exact_iff; [exact (variant_exact any [] fs_lens fs_laws)|]. drop_any. Qed.
Hint Resolve exact_fs : toml.
Definition forward_lens : list (lens unit) :=
  [lens_aside ["early"; "Early"; "filter"; "Filter"] (de_early rd) (is_early first);
   lens_aside ["target_addr"; "target"; "Target"; "TargetAddress"] (unused de_string) is_text;
   lens_aside ["rules"; "Rules"] (unused (de_table de_rule)) (is_map is_rule)].
Lemma forward_laws : laws any tt forward_lens.
Proof. laws_by forward_lens. Qed.
Lemma exact_forward : exact (de_variant (forward_fields rd) tt) (says_only (forward_settings first)).
Proof. eapply exact_iff; [exact (variant_exact any tt forward_lens forward_laws)|]. drop_any. Qed.
Hint Resolve exact_forward : toml.
Definition upstream_lens : list (lens unit) :=
  [lens_aside ["early"; "Early"; "filter"; "Filter"] (de_early rd) (is_early first);
   lens_aside ["target_addrs"; "targets"; "target_addresses"; "Targets"; "TargetAddrs"; "TargetAddresses"] (unused (de_vec de_string)) (is_list is_text);
   lens_aside ["rules"; "Rules"] (unused (de_vec de_rule)) (is_list is_rule)].
Lemma upstream_laws : laws any tt upstream_lens.
Proof. laws_by upstream_lens. Qed.
Lemma exact_upstream : exact (de_variant (upstream_fields rd) tt) (says_only (upstream_settings first)).
Proof. eapply exact_iff; [exact (variant_exact any tt upstream_lens upstream_laws)|]. drop_any. Qed.
Hint Resolve exact_upstream : toml.
Lemma exact_const {B} (b : B) (d : de unit) says : exact d says -> exact (de_fmap (fun _ => b) d) (fun t k => says t tt /\ k = b).
Proof.
  intros H t k. rewrite fmap_iff. split.
  - intros ([] & H1 & H2). split; auto. now apply H.
  - intros [H1 H2]. exists tt. split; auto. now apply H.
Qed.
Lemma exact_kind : exact (de_kind rd) (says_kind first).
Proof.
  apply exact_enum; [|vm_compute; reflexivity|repeat constructor].
  repeat (apply Forall2_cons || apply Forall2_nil); (split; [reflexivity|]); cbn [va_de snd]; first [apply exact_const; auto with toml; fail|apply exact_fmap; auto with toml].
Qed.
Hint Resolve exact_kind : toml.
Definition service_lens : list (lens service_config) :=
  [Lens ["name"; "Name"] de_string
     (fun a r => ServiceConfig (s_idx r) a (s_host r) (s_kind r) (s_logging r) (s_tcp r) (s_http r))
     says_text [] s_name;
   Lens ["host"; "Host"] de_string
     (fun a r => ServiceConfig (s_idx r) (s_name r) a (s_kind r) (s_logging r) (s_tcp r) (s_http r))
     says_text [] s_host;
   Lens ["service"; "Service"] (de_kind rd)
     (fun a r => ServiceConfig (s_idx r) (s_name r) (s_host r) a (s_logging r) (s_tcp r) (s_http r))
     (says_kind first) HelloService s_kind;
   Lens ["logging"; "Logging"; "Log"; "log"] (de_logging rd)
     (fun a r => ServiceConfig (s_idx r) (s_name r) (s_host r) (s_kind r) a (s_tcp r) (s_http r))
     (says_logging first) console_only s_logging;
   Lens ["tcp"; "Tcp"] (de_tcp rd)
     (fun a r => ServiceConfig (s_idx r) (s_name r) (s_host r) (s_kind r) (s_logging r) a (s_http r))
     (says_record tcp_settings) (TcpConfig [] (TlsConfig [] [] 0) 0 0 0) s_tcp;
   Lens ["http"; "Http"] (de_http rd)
     (fun a r => ServiceConfig (s_idx r) (s_name r) (s_host r) (s_kind r) (s_logging r) (s_tcp r) a)
     (says_record http_settings) (HttpConfig None 0 0 0 0 0 None None) s_http].
Definition fresh_service (s : service_config) : Prop := s_idx s = 0.
Lemma service_laws : laws fresh_service service_default service_lens.
Proof. laws_by service_lens. cbv in H, H'. congruence. Qed.
Lemma exact_service : exact (de_service rd) (says_service first).
Proof. exact (struct_exact fresh_service _ service_lens service_laws). Qed.
Lemma exact_services : exact (de_table (de_service rd)) (says_map (says_service first)).
Proof. apply exact_table; [apply exact_service|]. now intros s a []. Qed.
Hint Resolve exact_services : toml.
Definition config_lens : list (lens config) :=
  [Lens ["workdir"; "Workdir"] de_string
     (fun a r => Config a (c_runtime r) (c_logging r) (c_logpath r) (c_loglevel r) (c_tcp r) (c_http r) (c_include r) (c_includes r) (c_services r) (c_slab r))
     says_text [] c_workdir;
   Lens ["runtime"; "Runtime"] de_runtime
     (fun a r => Config (c_workdir r) a (c_logging r) (c_logpath r) (c_loglevel r) (c_tcp r) (c_http r) (c_include r) (c_includes r) (c_services r) (c_slab r))
     (says_record runtime_settings) (RuntimeConfig 0 None) c_runtime;
   Lens ["logging"; "Logging"; "Log"; "log"] (de_logging rd)
     (fun a r => Config (c_workdir r) (c_runtime r) a (c_logpath r) (c_loglevel r) (c_tcp r) (c_http r) (c_include r) (c_includes r) (c_services r) (c_slab r))
     (says_logging first) console_only c_logging;
   Lens ["logpath"; "LogPath"; "log_path"] de_string
     (fun a r => Config (c_workdir r) (c_runtime r) (c_logging r) a (c_loglevel r) (c_tcp r) (c_http r) (c_include r) (c_includes r) (c_services r) (c_slab r))
     says_text [] c_logpath;
   Lens ["loglevel"; "LogLevel"; "log_level"] (de_opt de_string)
     (fun a r => Config (c_workdir r) (c_runtime r) (c_logging r) (c_logpath r) a (c_tcp r) (c_http r) (c_include r) (c_includes r) (c_services r) (c_slab r))
     (says_some says_text) None c_loglevel;
   Lens ["tcp"; "Tcp"] (de_tcp rd)
     (fun a r => Config (c_workdir r) (c_runtime r) (c_logging r) (c_logpath r) (c_loglevel r) a (c_http r) (c_include r) (c_includes r) (c_services r) (c_slab r))
     (says_record tcp_settings) (TcpConfig [] (TlsConfig [] [] 0) 0 0 0) c_tcp;
   Lens ["http"; "Http"] (de_http rd)
     (fun a r => Config (c_workdir r) (c_runtime r) (c_logging r) (c_logpath r) (c_loglevel r) (c_tcp r) a (c_include r) (c_includes r) (c_services r) (c_slab r))
     (says_record http_settings) (HttpConfig None 0 0 0 0 0 None None) c_http;
   Lens ["include"; "Include"] de_string
     (fun a r => Config (c_workdir r) (c_runtime r) (c_logging r) (c_logpath r) (c_loglevel r) (c_tcp r) (c_http r) a (c_includes r) (c_services r) (c_slab r))
     says_text [] c_include;
   Lens ["includes"; "Includes"] (de_vec de_string)
     (fun a r => Config (c_workdir r) (c_runtime r) (c_logging r) (c_logpath r) (c_loglevel r) (c_tcp r) (c_http r) (c_include r) a (c_services r) (c_slab r))
     (says_list says_text) [] c_includes;
   Lens ["services"; "Services"] (de_table (de_service rd))
     (fun a r => Config (c_workdir r) (c_runtime r) (c_logging r) (c_logpath r) (c_loglevel r) (c_tcp r) (c_http r) (c_include r) (c_includes r) a (c_slab r))
     (says_map (says_service first)) [] c_services].
Definition fresh_config (c : config) : Prop := c_slab c = [].
Lemma config_laws : laws fresh_config config_default config_lens.
Proof. laws_by config_lens. cbv in H, H'. congruence. Qed.
Lemma exact_config : exact (de_config rd) (says_config first).
Proof. exact (struct_exact fresh_config _ config_lens config_laws). Qed.
End Concrete.
