(** What every accepted head satisfies. *)
From Verif Require Export F_Head.

(** every stored name and value satisfies a predicate *)
Definition ents (Pk Pv : bytes -> Prop) (l : list entry) : Prop :=
  forall k vs, In (k, vs) l -> Pk k /\ Forall Pv vs.

Lemma ents_insert (Pk Pv : bytes -> Prop) k vs l :
  Pk k -> Forall Pv vs -> ents Pk Pv l -> ents Pk Pv (h_insert k vs l).
Proof.
  intros Hk Hv Hl. induction l as [|[k' vs'] l IH]; simpl.
  - intros k0 vs0 [[= <- <-]|[]]. auto.
  - assert (Hl' : ents Pk Pv l) by (intros ? ? ?; apply Hl; now right).
    destruct (bytes_eqb k' k) eqn:E.
    + apply bytes_eqb_eq in E as ->. intros k0 vs0 [[= <- <-]|Hi]; auto.
    + intros k0 vs0 [[= <- <-]|Hi].
      * apply Hl. now left.
      * now apply IH.
Qed.

Lemma ents_fold (Pk Pv : bytes -> Prop) l : forall base, ents Pk Pv l -> ents Pk Pv base ->
  ents Pk Pv (fold_left (fun mp e => h_insert (fst e) (snd e) mp) l base).
Proof.
  induction l as [|[k vs] l IH]; intros base Hl Hb; simpl; [easy|].
  apply IH; [intros ? ? ?; apply Hl; now right|].
  destruct (Hl k vs (or_introl eq_refl)). now apply ents_insert.
Qed.

Lemma ents_update (Pk Pv : bytes -> Prop) l : forall n f,
  ents Pk Pv l -> (forall e, Pk (fst e) -> Forall Pv (snd e) -> Pk (fst (f e)) /\ Forall Pv (snd (f e))) ->
  ents Pk Pv (update_nth n f l).
Proof.
  induction l as [|[k vs] l IH]; intros n f Hl Hf; destruct n as [|n]; simpl; try easy.
  - intros k0 vs0 [E|Hi].
    + destruct (Hl k vs (or_introl eq_refl)) as [H1 H2]. destruct (Hf (k, vs) H1 H2) as [H3 H4].
      rewrite E in *. auto.
    + apply Hl. now right.
  - intros k0 vs0 [E|Hi].
    + apply Hl. now left.
    + apply (IH n f); auto. intros ? ? ?; apply Hl; now right.
Qed.

Lemma ents_append (Pk Pv : bytes -> Prop) m k v m' :
  wf m -> Pk k -> Pv v -> ents Pk Pv (content m) ->
  mm_append m k v = Ret m' -> wf m' /\ ents Pk Pv (content m').
Proof.
  intros Hw Hk Hv Hc E. split.
  { destruct (step_wf (fun l => l) m (OAppend k v)) as (m1 & E1 & Hw1); auto.
    - intros l. apply Permutation.Permutation_refl.
    - simpl in E1. rewrite E in E1. now injection E1 as <-. }
  unfold mm_append, map_append in E. unfold content in *.
  assert (Hm : forall mp, ents Pk Pv mp -> ents Pk Pv (match h_get k mp with
             | Some vs => h_insert k (vs ++ [v]) mp | None => h_insert k [v] mp end)).
  { intros mp Hmp. destruct (h_get k mp) as [vs|] eqn:Eg; apply ents_insert; auto.
    apply Forall_app. split; [|now constructor]. apply h_get_in in Eg. now apply Hmp in Eg. }
  destruct (mm_ismap m) eqn:Ei.
  - unfold wf in Hw. rewrite Ei in Hw. destruct Hw as (_ & mp & Em & _).
    rewrite Em in *. specialize (Hm mp Hc). destruct (h_get k mp); injection E as <-; exact Hm.
  - destruct (Nat.leb 36 (length (mm_vec m))).
    + cbn [tomap mm_map mm_vec] in E. unfold wf in Hw. rewrite Ei in Hw.
      match type of E with context [h_get k ?mp] => set (mp0 := mp) in * end.
      assert (Hmp : ents Pk Pv mp0).
      { unfold mp0. apply ents_fold; [exact Hc|]. destruct Hw as [-> | ->]; easy. }
      specialize (Hm mp0 Hmp). destruct (h_get k mp0); injection E as <-; exact Hm.
    + destruct (vec_find_or_empty (mm_vec m) k) as [pos|]; injection E as <-; simpl.
      * apply ents_update; [easy|]. intros e He1 He2. simpl. split.
        -- now destruct (is_nil (fst e)).
        -- apply Forall_app. split; [easy|now constructor].
      * intros k0 vs0 Hi. apply in_app_or in Hi as [Hi|[[= <- <-]|[]]]; auto.
Qed.

(** names and values a line can produce *)
Definition name_bound (line : N) (k : bytes) : Prop :=
  Forall vchar k /\ length k <= 256 /\ (lenN k < line)%N.
Definition value_bound (line : N) (v : bytes) : Prop :=
  Forall vchar v /\ (lenN v < line)%N.

Lemma trim_vchar s : Forall vchar s -> Forall vchar (trim s).
Proof. rewrite !vchars_printable. apply trim_by_forallb. Qed.
Lemma lower_vchar s : Forall vchar s -> Forall vchar (lower s).
Proof. now rewrite !vchars_printable, lower_printable. Qed.

Lemma line_bounds l k v line : line_spec l = LHeader k v -> (lenN l < line)%N ->
  name_bound line k /\ value_bound line v.
Proof.
  intros E Hl. apply line_spec_inv in E as (a & w & -> & _ & Ha & Hla & _ & Hw & -> & ->).
  rewrite lenN_app in Hl. unfold lenN in *. simpl in Hl.
  pose proof (trim_by_length byte_ws (lower a)) as H1. pose proof (trim_by_length byte_ws w) as H2.
  rewrite lower_length in H1. unfold name_bound, value_bound, lenN. splits.
  - apply trim_vchar. now apply lower_vchar.
  - unfold trim. lia.
  - unfold trim. lia.
  - now apply trim_vchar.
  - unfold trim. lia.
Qed.

Lemma fl_lines_ents cfg : forall f s e h c h' s' e',
  wf h -> ents (name_bound (h_max_header_line_size cfg)) (value_bound (h_max_header_line_size cfg))
             (content h) ->
  fl_lines f cfg s e h = Ret (c, h', (s', e')) ->
  wf h' /\ ents (name_bound (h_max_header_line_size cfg)) (value_bound (h_max_header_line_size cfg))
             (content h').
Proof.
  induction f as [|f IH]; intros s e h c h' s' e' Hw Hh; [easy|].
  cbn [fl_lines].
  destruct (fu LF (h_max_header_line_size cfg) s e) as [[o [rest e1]]| | | |] eqn:E; try easy.
  apply fu_inv in E as (-> & E). cbn [obind fst snd].
  destruct o as [buf|].
  2:{ intros [= <- <- <- <-]. auto. }
  destruct E as (_ & Hl & _).
  destruct (Nat.ltb_spec (length buf) 2). { intros [= <- <- <- <-]. auto. }
  destruct (Nat.eqb_spec (length buf) 2). { intros [= <- <- <- <-]. auto. }
  rewrite scan_line_spec.
  destruct (line_spec (firstn (length buf - 2) buf)) as [| |k v] eqn:El.
  - intros [= <- <- <- <-]. auto.
  - now apply IH.
  - apply (line_bounds _ _ _ (h_max_header_line_size cfg)) in El as [Hk Hv].
    2:{ unfold lenN in *. rewrite firstn_length. lia. }
    destruct (mm_append h k v) as [h1| | | |] eqn:Ea; try easy. cbn [obind].
    destruct (ents_append _ _ h k v h1 Hw Hk Hv Hh Ea) as [Hw1 Hh1].
    destruct (h_max_headers_count cfg <? 0 + 1)%N.
    + intros [= <- <- <- <-]. auto.
    + now apply IH.
Qed.

Section Accept.
Variable K : codec.
Notation message := (message K).

Lemma last_two {A} (n : nat) (t : list A) : n <= length t -> length (firstn (length t - n) t) = length t - n.
Proof. intros H. rewrite firstn_length. lia. Qed.

Lemma fl_headers_accept fuel cfg s e (m m' : message) s' e' :
  fresh m -> fl_headers fuel cfg s e m = Ret (RcOk, m', (s', e')) ->
  (Forall vchar (fl0 m') /\ length (fl0 m') <= 127)
  /\ (Forall vchar (fl1 m') /\ (lenN (fl1 m') < h_max_url_size cfg)%N)
  /\ (Forall vchar (fl2 m') /\ 1 <= length (fl2 m') <= 126)
  /\ wf (headers m')
  /\ ents (name_bound (h_max_header_line_size cfg)) (value_bound (h_max_header_line_size cfg))
          (content (headers m'))
  /\ mbody m' = mbody m.
Proof.
  intros (F0 & F1 & F2 & Fok & Fv). unfold fl_headers. rewrite F0, F1, F2. cbn [app].
  destruct (fu SP 128 s e) as [[o0 [s0 e0]]| | | |] eqn:E0; try easy.
  apply fu_inv in E0 as (-> & E0). cbn [obind fst snd]. destruct o0 as [t0|]; [|easy].
  destruct E0 as (_ & L0 & _).
  destruct (Nat.ltb_spec (length t0) 1); [easy|].
  destruct (forallb is_printable (firstn (length t0 - 1) t0)) eqn:P0; cbn [negb]; [|easy].
  destruct (fu SP (h_max_url_size cfg) s0 e) as [[o1 [s1 e1]]| | | |] eqn:E1; try easy.
  apply fu_inv in E1 as (-> & E1). cbn [obind fst snd]. destruct o1 as [t1|]; [|easy].
  destruct E1 as (_ & L1 & _).
  destruct (Nat.ltb_spec (length t1) 1); [easy|].
  destruct (forallb is_printable (firstn (length t1 - 1) t1)) eqn:P1; cbn [negb]; [|easy].
  destruct (fl_line 128 s1 e) as [[o2 [s2 e2]]| | | |] eqn:E2; try easy.
  apply fl_line_inv in E2 as (-> & E2). cbn [obind fst snd]. destruct o2 as [t2|]; [|easy].
  destruct E2 as (_ & L2 & _).
  destruct (Nat.ltb_spec (length t2) 3); [easy|].
  destruct (forallb is_printable (firstn (length t2 - 2) t2)) eqn:P2; cbn [negb]; [|easy].
  destruct (fl_lines fuel cfg s2 e (headers m)) as [[[c h] [s3 e3]]| | | |] eqn:E3; try easy.
  cbn [obind]. intros [= -> <- -> ->]. cbn [fl0 fl1 fl2 headers mbody].
  apply fl_lines_ents in E3 as [Hw He].
  - rewrite <- !vchars_printable in *. unfold lenN in *. rewrite !last_two by lia.
    splits; auto; lia.
  - apply Fok.
  - intros k vs Hi. destruct (h_get k (content (headers m))) eqn:Eg.
    + specialize (Fv k). unfold view in Fv. congruence.
    + apply h_get_none in Eg. exfalso. apply Eg. change k with (fst (k, vs)). now apply in_map.
Qed.

(** ** every handler invocation *)
Lemma serve_loop_log cfg caps ho svc inner : forall fuel k r w (req resp : message) log p,
  fresh req ->
  In p (cr_log (serve_loop fuel inner cfg caps ho svc k r w req resp log)) ->
  In p log \/
  exists k' r0 r1 r2 req0 req1, fresh req0
    /\ read_headers inner cfg r0 req0 = Ret (RcOk, req1, r1)
    /\ read_const_length_body inner (caps k') r1 req1 = Ret (RcOk, fst p, r2).
Proof.
  induction fuel as [|f IH]; intros k r w req resp log p Hf; [simpl; auto|].
  cbn [serve_loop].
  destruct (read_headers inner cfg r req) as [[[c req1] r1]| | | |] eqn:Eh; simpl; auto.
  destruct c; simpl; auto.
  destruct (read_const_length_body inner (caps k) r1 req1) as [[[c req2] r2]| | | |] eqn:Eb; simpl; auto.
  destruct c; simpl; auto.
  assert (Hsn : forall d, In p (log ++ [(req2, d)]) -> In p log \/
    exists k' r0 r1 r2 req0 req1, fresh req0
      /\ read_headers inner cfg r0 req0 = Ret (RcOk, req1, r1)
      /\ read_const_length_body inner (caps k') r1 req1 = Ret (RcOk, fst p, r2)).
  { intros d Hi. apply in_app_or in Hi as [Hi|[<-|[]]]; [auto|]. right.
    exists k, r, r1, r2, req, req1. auto. }
  destruct (svc req2 resp) as [[[[q|] req3] resp3]| | | |]; cbn [cr_log]; auto; try apply Hsn.
  destruct (serialize ho resp3) as [[[data|] resp4]| | | |]; cbn [cr_log]; auto; try apply Hsn.
  destruct (w_write data w) as [w' ok]. destruct ok; [|apply Hsn].
  destruct q as [ka| |]; try apply Hsn. destruct ka; cbn [negb]; [|apply Hsn].
  intros Hi. apply IH in Hi as [Hi|Hi]; auto.
  - now apply Hsn in Hi.
  - apply fresh_clear.
Qed.

End Accept.
