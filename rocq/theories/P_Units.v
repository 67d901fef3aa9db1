(** Properties C35-C40: size and duration strings.  [checked] tells whether arithmetic overflow
    panics (dev profile) or wraps (release profile); [Ret None] is a configuration error. *)
From Verif Require Import F_Units.

(** C35: groups of numbers and units b, k, kb, m, mb in any case (the last unit may be left out),
    with white space anywhere, denote the sum. *)
Theorem C35_sizes_sum : forall u checked s gs vs,
  unspaced s = text gs -> separated gs ->
  Forall2 (means size_table) gs vs -> (sum vs < 2 ^ 64)%N ->
  size_string u checked s = Ret (Some (sum vs)).
Proof. exact sizes_sum_small. Qed.
Print Assumptions C35_sizes_sum.
Definition plain : unicode := Unicode (fun _ => false) (fun c => if (c =? kelvin)%N then [107%N] else [c]).
Ltac group_means name factor :=
  unfold means; cbn [fst snd]; splits;
  [discriminate | apply digs; reflexivity | vm_compute; reflexivity
  | exists name, factor; splits; [cbn; auto 9 | reflexivity | reflexivity]].
Example C35_nonvacuous :
  let gs := [(chars "1", chars "M"); (chars "20", chars "kB"); (chars "3", [])] in
  unspaced (chars " 1M 2 0kB3") = text gs /\ separated gs
  /\ Forall2 (means size_table) gs [1048576; 20480; 3]%N
  /\ size_string plain false (chars " 1M 2 0kB3") = Ret (Some 1069059%N).
Proof.
  intros gs. splits; [reflexivity|repeat split; discriminate| |vm_compute; reflexivity].
  repeat apply Forall2_cons; try apply Forall2_nil.
  - group_means "m"%string (1024 ^ 2)%N.
  - group_means "kb"%string 1024%N.
  - group_means ""%string 1%N.
Qed.

(** C36 fails: a gigabyte is 1204 megabytes. *)
Theorem C36_gigabyte_refuted : forall u checked ds unit, ds <> [] -> Forall dig ds ->
  named_as unit "g" \/ named_as unit "gb" ->
  (value ds * giga_factor < 2 ^ 64)%N ->
  size_string u checked (ds ++ unit) = Ret (Some (value ds * giga_factor)%N)
  /\ (value ds <> 0%N -> size_string u checked (ds ++ unit) <> Ret (Some (value ds * 1024 ^ 3)%N)).
Proof. exact giga_wrong. Qed.
Print Assumptions C36_gigabyte_refuted.
(** C36, the part that holds: whatever gigabytes are written among other units, a size is at least
    what is meant, and exceeds it by less than 18 percent (1204 instead of 1024). *)
Theorem C36_at_least_partial : forall u checked s gs ws,
  unspaced s = text gs -> separated gs -> Forall2 (means (size_table ++ giga_table)) gs ws ->
  (sum ws * 1204 < 2 ^ 64 * 1024)%N ->
  exists n, size_string u checked s = Ret (Some n) /\ (sum ws <= n)%N /\ (n * 1024 <= sum ws * 1204)%N.
Proof.
  intros u checked s gs ws Hs Hp Hw Hn.
  assert (V : exists vs, Forall2 (means coded_table) gs vs /\ (sum ws <= sum vs)%N /\ (sum vs * 1024 <= sum ws * 1204)%N).
  { clear -Hw. induction Hw as [|g w gs ws (H1 & H2 & H3 & n & f & Hi & H4 & ->) _ (vs & V1 & V2 & V3)].
    - exists []. split; [constructor|]. cbn. lia.
    - assert (F : exists f', In (n, f') coded_table /\ (f <= f')%N /\ (f' * 1024 <= f * 1204)%N).
      { apply in_app_iff in Hi as [Hi|Hi].
        - exists f. split; [apply in_app_iff; now left|]. lia.
        - exists giga_factor. cbn in Hi. unfold coded_table, giga_factor. rewrite in_app_iff.
          destruct Hi as [[= <- <-]|[[= <- <-]|[]]]; (split; [right; cbn; tauto|split; vm_compute; discriminate]). }
      destruct F as (f' & Fi & F1 & F2). exists (value (fst g) * f' :: vs)%N. split; [constructor; [|exact V1]|].
      + unfold means. splits; auto. exists n, f'. auto.
      + cbn [sum fold_right] in *. fold (sum vs) (sum ws) in *.
        pose proof (N.mul_le_mono_l _ _ (value (fst g)) F1). pose proof (N.mul_le_mono_l _ _ (value (fst g)) F2). lia. }
  destruct V as (vs & V1 & V2 & V3). exists (sum vs). split; [|lia]. apply sizes_sum with gs; auto. lia.
Qed.
Print Assumptions C36_at_least_partial.
Example C36_nonvacuous : size_string plain false (chars "1GB") = Ret (Some 1262485504%N) /\ (1024 ^ 3)%N = 1073741824%N
  /\ Forall2 (means (size_table ++ giga_table)) [(chars "1", chars "Gb"); (chars "5", chars "K")] [1024 ^ 3; 5120]%N
  /\ size_string plain false (chars "1Gb 5K") = Ret (Some 1262490624%N).
Proof.
  split; [vm_compute; reflexivity|]. split; [reflexivity|]. split; [|vm_compute; reflexivity].
  apply Forall2_cons; [group_means "gb"%string (1024 ^ 3)%N|].
  apply Forall2_cons; [group_means "k"%string 1024%N|apply Forall2_nil].
Qed.

(** C37 fails: a size or duration that does not fit is reduced modulo 2^64 (release profile) or
    crashes the program (dev profile). *)
Theorem C37_wraps_refuted : forall u s vs, unicode_ok u -> (2 ^ 64 <= sum vs)%N ->
  (accepted coded_table s vs ->
   size_string u false s = Ret (Some (sum vs mod 2 ^ 64)%N) /\ size_string u true s = Panic)
  /\ (accepted duration_table s vs ->
   duration_string u false s = Ret (Some (sum vs mod 2 ^ 64)%N) /\ duration_string u true s = Panic).
Proof.
  intros u s vs Hu Hv. split; intros Ha.
  - pose proof (units_wrap _ _ size_table_for size_spaceless u s vs Hu Ha) as [E1 E2].
    destruct (sum vs <? 2 ^ 64)%N eqn:E; [lia|]. auto.
  - pose proof (units_wrap _ _ duration_table_for duration_spaceless u s vs Hu Ha) as [E1 E2].
    destruct (sum vs <? 2 ^ 64)%N eqn:E; [lia|]. auto.
Qed.
Print Assumptions C37_wraps_refuted.
(** C37, the part that holds: a single number that does not fit is refused. *)
Theorem C37_big_number_partial : forall u s gs g,
  unicode_ok u -> unspaced s = text gs -> separated gs -> In g gs ->
  Forall (fun g => fst g <> [] /\ Forall dig (fst g) /\ Forall (fun c => is_numeric u c = false) (snd g)) gs ->
  (2 ^ 64 <= value (fst g))%N ->
  size_string u false s = Ret None /\ duration_string u false s = Ret None.
Proof.
  intros u s gs g H1 H2 H3 H4 H5 H6. split.
  - exact (big_number _ _ size_table_for size_spaceless u s gs g H1 H2 H3 H4 H5 H6).
  - exact (big_number _ _ duration_table_for duration_spaceless u s gs g H1 H2 H3 H4 H5 H6).
Qed.
Print Assumptions C37_big_number_partial.
Example C37_nonvacuous :
  unicode_ok plain
  /\ size_string plain false (chars "18446744073709551615b 6b") = Ret (Some 5%N)
  /\ duration_string plain false (chars "18446744073709552 s") = Ret (Some 384%N)
  /\ size_string plain false (chars "18446744073709551616") = Ret None.
Proof.
  split; [unfold unicode_ok; splits; [reflexivity|reflexivity|]|vm_compute; auto]. intros c H1 H2 H3. exists c. cbn [u_lower plain].
  destruct (c =? kelvin)%N eqn:E; [apply N.eqb_eq in E; contradiction|]. cbn. auto.
Qed.

(** C38 fails: a string whose first visible character is no digit crashes the program. *)
Theorem C38_crash_refuted : forall u s c t checked, unspaced s = c :: t -> is_numeric u c = false ->
  size_string u checked s = Panic /\ duration_string u checked s = Panic.
Proof.
  intros u s c t checked E H.
  exact (conj (units_panic size_unit u s c t E H checked) (units_panic duration_unit u s c t E H checked)).
Qed.
Print Assumptions C38_crash_refuted.
(** C38, the part that holds (release profile): every other string either consists of groups with
    known units, or is an error, and what is accepted is described exactly. *)
Theorem C38_errors_partial : forall u s c t, unicode_ok u -> unspaced s = c :: t -> is_numeric u c = true ->
  (size_string u false s = Ret None \/ exists vs, accepted coded_table s vs)
  /\ (duration_string u false s = Ret None \/ exists vs, accepted duration_table s vs).
Proof.
  intros u s c t Hu E H. assert (s <> []) as Hne by (intros ->; discriminate E). split.
  - pose proof (units_total _ _ size_table_for size_spaceless u s Hu Hne) as T. rewrite E, H in T. exact T.
  - pose proof (units_total _ _ duration_table_for duration_spaceless u s Hu Hne) as T. rewrite E, H in T. exact T.
Qed.
Print Assumptions C38_errors_partial.
Theorem C38_accepted_exactly_partial : forall u s v, unicode_ok u ->
  (size_string u false s = Ret (Some v) <->
   s = [] /\ v = 0%N \/ exists vs, accepted coded_table s vs /\ v = (sum vs mod 2 ^ 64)%N)
  /\ (duration_string u false s = Ret (Some v) <->
   s = [] /\ v = 0%N \/ exists vs, accepted duration_table s vs /\ v = (sum vs mod 2 ^ 64)%N).
Proof.
  intros u s v Hu. split.
  - exact (units_exact _ _ size_table_for size_spaceless u s v Hu).
  - exact (units_exact _ _ duration_table_for duration_spaceless u s v Hu).
Qed.
Print Assumptions C38_accepted_exactly_partial.
Example C38_nonvacuous :
  size_string plain false (chars "-1") = Panic /\ size_string plain false (chars "1x") = Ret None
  /\ size_string plain false (chars "  ") = Ret None /\ duration_string plain false (chars "1k") = Ret None
  /\ size_string plain false (49%N :: [kelvin]) = Ret (Some 1024%N).
Proof. vm_compute. auto 9. Qed.

(** C39: the same as C35 for durations, in milliseconds. *)
Theorem C39_durations_sum : forall u checked s gs vs,
  unspaced s = text gs -> separated gs ->
  Forall2 (means duration_table) gs vs -> (sum vs < 2 ^ 64)%N ->
  duration_string u checked s = Ret (Some (sum vs)).
Proof. exact (units_sum _ _ duration_table_for duration_spaceless). Qed.
Print Assumptions C39_durations_sum.
Example C39_nonvacuous :
  let gs := [(chars "1", chars "W"); (chars "2", chars "h"); (chars "3", chars "Ms")] in
  unspaced (chars "1W2 h3Ms ") = text gs /\ separated gs
  /\ Forall2 (means duration_table) gs [604800000; 7200000; 3]%N
  /\ duration_string plain true (chars "1W2 h3Ms ") = Ret (Some 612000003%N).
Proof.
  intros gs. splits; [reflexivity|repeat split; discriminate| |vm_compute; reflexivity].
  repeat apply Forall2_cons; try apply Forall2_nil.
  - group_means "w"%string (7 * 24 * 3600 * 1000)%N.
  - group_means "h"%string (3600 * 1000)%N.
  - group_means "ms"%string 1%N.
Qed.

(** C40: strings that differ in white space and the case of ASCII letters mean the same. *)
Theorem C40_case_and_space : forall u checked s s', unspaced s <> [] ->
  map case_char (unspaced s) = map case_char (unspaced s') ->
  size_string u checked s = size_string u checked s'
  /\ duration_string u checked s = duration_string u checked s'.
Proof.
  intros u checked s s' H1 H2.
  exact (conj (case_space size_unit u checked s s' H1 H2) (case_space duration_unit u checked s s' H1 H2)).
Qed.
Print Assumptions C40_case_and_space.
Example C40_nonvacuous :
  unspaced (chars " 1 0 K b") <> []
  /\ map case_char (unspaced (chars " 1 0 K b")) = map case_char (unspaced (chars "10kB"))
  /\ size_string plain false (chars " 1 0 K b") = Ret (Some 10240%N).
Proof. splits; [discriminate|reflexivity|vm_compute; reflexivity]. Qed.
