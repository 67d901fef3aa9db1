(** Facts about log records. *)
From Verif Require Export F_LogStart.

Lemma bytes_eqb_neq a b : bytes_eqb a b = false <-> a <> b.
Proof. split; intros H; [intros E; apply bytes_eqb_eq in E; congruence|]. destruct (bytes_eqb a b) eqn:E; [|easy]. now apply bytes_eqb_eq in E. Qed.

(** the last numeric service attribute *)
Fixpoint last_service (l : list (bytes * kv_value)) (n : N) : N :=
  match l with
  | [] => n
  | (k, v) :: l' => last_service l' (if bytes_eqb k (B "service") then match v_u64 v with Some m => m | None => n end else n)
  end.
Fixpoint rendered_kvs (l : list (bytes * kv_value)) : list (bytes * bytes) :=
  match l with
  | [] => []
  | (k, v) :: l' => match k with [] => rendered_kvs l' | _ =>
      if bytes_eqb k (B "service") then rendered_kvs l' else (k, v_json v) :: rendered_kvs l' end
  end.
Lemma visit_all_eq : forall l kvs n, visit_all l kvs n = (kvs ++ rendered_kvs l, last_service l n).
Proof.
  induction l as [|[k v] l IH]; intros kvs n; cbn [visit_all rendered_kvs last_service]; [now rewrite app_nil_r|].
  unfold visit_pair. destruct k as [|x k']; [apply IH|].
  destruct (bytes_eqb (x :: k') (B "service")); rewrite IH; [easy|]. now rewrite <- app_assoc.
Qed.
Lemma rendered_kept l : kept l (rendered_kvs l).
Proof.
  induction l as [|[k v] l IH]; cbn [rendered_kvs]; [constructor|].
  destruct k as [|x k'] eqn:Ek; [apply kept_skip; auto|]. destruct (bytes_eqb (x :: k') (B "service")) eqn:E.
  - apply kept_skip; [right; now apply bytes_eqb_eq|easy].
  - apply kept_take; [easy|now apply bytes_eqb_neq|easy].
Qed.
Lemma last_service_cases : forall l n,
  (exists a p b, l = a ++ p :: b /\ numeric_service p (last_service l n) /\ forall q m, In q b -> ~ numeric_service q m)
  \/ (last_service l n = n /\ forall q m, In q l -> ~ numeric_service q m).
Proof.
  induction l as [|[k v] l IH]; intros n; cbn [last_service]; [right; split; [easy|intros q m []]|].
  set (n1 := if bytes_eqb k (B "service") then match v_u64 v with Some m => m | None => n end else n).
  destruct (IH n1) as [(a & p & b & -> & H1 & H2)|[E H]]; [left; now exists ((k, v) :: a), p, b|].
  rewrite E. unfold n1. destruct (bytes_eqb k (B "service")) eqn:Ek.
  - apply bytes_eqb_eq in Ek. destruct (v_u64 v) as [u|] eqn:Eu.
    + left. exists [], (k, v), l. splits; [easy|split; easy|easy].
    + right. split; [easy|]. intros q m [<-|Hq]; [|auto]. intros [_ H']. cbn in H'. congruence.
  - right. split; [easy|]. intros q m [<-|Hq]; [|auto]. intros [H' _]. apply bytes_eqb_neq in Ek. now cbn in H'.
Qed.
Lemma item_of_spec r : service_of (lr_kvs r) (i_service (item_of r)) /\ kept (lr_kvs r) (i_kvs (item_of r))
  /\ i_time (item_of r) = lr_time r /\ i_level (item_of r) = lr_level r /\ i_msg (item_of r) = lr_msg r
  /\ (lr_file r = Some (i_file (item_of r)) \/ lr_file r = None /\ i_file (item_of r) = [])
  /\ (lr_line r = Some (i_line (item_of r)) \/ lr_line r = None /\ i_line (item_of r) = 0%N).
Proof.
  unfold item_of. rewrite visit_all_eq. cbn [i_service i_kvs i_time i_level i_msg i_file i_line app]. splits; try easy.
  - destruct (last_service_cases (lr_kvs r) 0) as [H|H]; [now left|now right].
  - apply rendered_kept.
  - destruct (lr_file r); auto.
  - destruct (lr_line r); auto.
Qed.
Lemma kept_fun l a b : kept l a -> kept l b -> a = b.
Proof.
  intros H; revert b. induction H as [|k v l l' Hk _ IH|k v l l' H1 H2 _ IH]; intros b Hb;
  inversion Hb as [|? ? ? ? Hk' Hb'|? ? ? ? Hk1 Hk2 Hb']; subst; auto.
  - exfalso. tauto.
  - exfalso. tauto.
  - f_equal. auto.
Qed.
Lemma service_of_fun l n m : service_of l n -> service_of l m -> n = m.
Proof.
  intros [(a & p & b & -> & Hp & Hb)|[-> H]] [(a' & p' & b' & E & Hp' & Hb')|[-> H']].
  - revert a' E. induction a as [|q a IH]; intros [|q' a'] E; cbn [app] in E; injection E as E1 E2.
    + subst. destruct Hp as [_ Hp], Hp' as [_ Hp']. congruence.
    + exfalso. subst b. apply (Hb p' m); [|easy]. apply in_or_app. right. now left.
    + exfalso. subst b'. apply (Hb' p n); [|easy]. apply in_or_app. right. now left.
    + eauto.
  - exfalso. apply (H' p n); [|easy]. apply in_or_app. right. now left.
  - exfalso. subst l. apply (H p' m); [|easy]. apply in_or_app. right. now left.
  - easy.
Qed.
