(** Lemmas about the string functions of [Base]. *)
From Verif Require Import Base.

Lemma str_app_nil_r s : (s ++ "")%string = s.
Proof. induction s as [|c s IH]; cbn; congruence. Qed.

Lemma str_app_assoc a b c : ((a ++ b) ++ c)%string = (a ++ (b ++ c))%string.
Proof. induction a as [|x a IH]; cbn; congruence. Qed.

Lemma str_length_app a b : String.length (a ++ b)%string = String.length a + String.length b.
Proof. induction a as [|x a IH]; cbn; congruence. Qed.

Lemma str_app_inv_head a b c : (a ++ b)%string = (a ++ c)%string -> b = c.
Proof. induction a as [|x a IH]; cbn; [auto|]. intros H; injection H as H; auto. Qed.

Lemma str_app_inv_len a b c d :
  (a ++ b)%string = (c ++ d)%string -> String.length a = String.length c -> a = c /\ b = d.
Proof.
  revert c; induction a as [|x a IH]; intros [|y c]; cbn; intros H L; try discriminate; auto.
  injection H as -> H. injection L as L. destruct (IH c H L) as [-> ->]. auto.
Qed.

Lemma mem_char_app c a b : mem_char c (a ++ b)%string = mem_char c a || mem_char c b.
Proof. induction a as [|x a IH]; cbn; [auto|]. rewrite IH. apply orb_assoc. Qed.

Lemma partition_no c s : mem_char c s = false -> partition_at c s = (s, "").
Proof.
  induction s as [|x s IH]; cbn; [auto|]. intros H. apply orb_false_iff in H as [H1 H2].
  rewrite H1, (IH H2). reflexivity.
Qed.

Lemma partition_sep c a b :
  mem_char c a = false -> partition_at c (a ++ String c b)%string = (a, b).
Proof.
  induction a as [|x a IH]; cbn; intros H.
  - rewrite Ascii.eqb_refl. reflexivity.
  - apply orb_false_iff in H as [H1 H2]. rewrite H1, (IH H2). reflexivity.
Qed.

(** [partition] either splits at the first separator or finds none. *)
Lemma partition_spec c s a b :
  partition_at c s = (a, b) ->
  mem_char c a = false /\ ((s = a /\ b = "") \/ s = (a ++ String c b)%string).
Proof.
  revert a b; induction s as [|x s IH]; cbn; intros a b H.
  - injection H as <- <-. auto.
  - destruct (Ascii.eqb x c) eqn:E.
    + apply Ascii.eqb_eq in E. injection H as <- <-. subst x. auto.
    + destruct (partition_at c s) as [a' b'] eqn:P. injection H as <- <-.
      destruct (IH a' b' eq_refl) as [M [[-> ->] | ->]]; cbn; rewrite E; auto.
Qed.

Lemma partition_len c s a b :
  partition_at c s = (a, b) -> b <> "" -> String.length b < String.length s.
Proof.
  intros H N. destruct (partition_spec _ _ _ _ H) as [_ [[_ ->] | ->]]; [contradiction|].
  rewrite str_length_app. cbn. lia.
Qed.

Lemma starts_slash_strip s : starts_slash s = false -> strip_slash s = s.
Proof. destruct s as [|c s]; cbn; [auto|]. intros ->. reflexivity. Qed.

Lemma starts_slash_mem s : mem_char slash s = false -> starts_slash s = false.
Proof. destruct s as [|c s]; cbn; [auto|]. intros H; apply orb_false_iff in H; tauto. Qed.

Lemma starts_slash_app a b : a <> "" -> starts_slash (a ++ b)%string = starts_slash a.
Proof. destruct a; cbn; [congruence | auto]. Qed.

Lemma strip_len s : String.length (strip_slash s) <= String.length s.
Proof. destruct s as [|c s]; cbn; [lia|]. destruct (Ascii.eqb c slash); cbn; lia. Qed.

Lemma split_at_nonempty c s : split_at c s <> [].
Proof.
  destruct s as [|x s]; cbn; [discriminate|].
  destruct (Ascii.eqb x c); [discriminate|]. destruct (split_at c s); discriminate.
Qed.

Lemma split_at_no c s : mem_char c s = false -> split_at c s = [s].
Proof.
  induction s as [|x s IH]; cbn; [auto|]. intros H. apply orb_false_iff in H as [H1 H2].
  rewrite H1, (IH H2). reflexivity.
Qed.

Lemma split_at_sep c a b :
  mem_char c a = false -> split_at c (a ++ String c b)%string = a :: split_at c b.
Proof.
  induction a as [|x a IH]; cbn; intros H.
  - rewrite Ascii.eqb_refl. reflexivity.
  - apply orb_false_iff in H as [H1 H2]. rewrite H1, (IH H2). reflexivity.
Qed.

Lemma join_cons sep a b r : join sep (a :: b :: r) = (a ++ sep ++ join sep (b :: r))%string.
Proof. reflexivity. Qed.

Lemma split_join c parts :
  parts <> [] -> (forall p, In p parts -> mem_char c p = false) ->
  split_at c (join (String c "") parts) = parts.
Proof.
  induction parts as [|a r IH]; intros N H; [contradiction|].
  destruct r as [|b r].
  - cbn. apply split_at_no, H. now left.
  - rewrite join_cons. cbn [append]. rewrite split_at_sep by (apply H; now left).
    f_equal. apply IH; [discriminate|]. intros p Hp. apply H. now right.
Qed.

Lemma join_snoc sep l a : l <> [] -> join sep (l ++ [a]) = (join sep l ++ sep ++ a)%string.
Proof.
  induction l as [|x l IH]; intros N; [contradiction|].
  destruct l as [|y l]; [reflexivity|].
  change ((x :: y :: l) ++ [a]) with (x :: (y :: (l ++ [a]))).
  rewrite join_cons. change (y :: l ++ [a]) with ((y :: l) ++ [a]).
  rewrite IH by discriminate. rewrite join_cons, !str_app_assoc. reflexivity.
Qed.

Lemma eqb_empty s : String.eqb s "" = true <-> s = "".
Proof. apply String.eqb_eq. Qed.

Lemma assoc_in {A} k (v : A) l : assoc k l = Some v -> In (k, v) l.
Proof.
  induction l as [|[k' v'] l IH]; cbn; [discriminate|].
  destruct (String.eqb_spec k k') as [->|N]; intros H; [left; congruence | right; auto].
Qed.

Lemma assoc_none {A} k (l : list (string * A)) : assoc k l = None <-> ~ In k (map fst l).
Proof.
  induction l as [|[k' v'] l IH]; cbn; [tauto|].
  destruct (String.eqb_spec k k') as [->|N]; split; intros H; try discriminate.
  - exfalso; apply H; now left.
  - intros [E|I]; [congruence | now apply IH in H].
  - apply IH. intros I. apply H. now right.
Qed.

Lemma assoc_nodup {A} k (v : A) l : NoDup (map fst l) -> In (k, v) l -> assoc k l = Some v.
Proof.
  induction l as [|[k' v'] l IH]; cbn; [tauto|]. intros N [E|I].
  - injection E as -> ->. now rewrite String.eqb_refl.
  - inversion N as [|? ? Nk Nl]; subst. destruct (String.eqb_spec k k') as [->|D]; [|auto].
    exfalso. apply Nk. now apply (in_map fst) in I.
Qed.

Lemma assoc_set_fresh {A} k (v : A) l : assoc k l = None -> assoc_set k v l = l ++ [(k, v)].
Proof.
  induction l as [|[k' v'] l IH]; cbn; [auto|].
  destruct (String.eqb k k'); [discriminate|]. intros H. now rewrite IH.
Qed.

Lemma assoc_app {A} k (l r : list (string * A)) :
  assoc k (l ++ r) = match assoc k l with Some v => Some v | None => assoc k r end.
Proof.
  induction l as [|[k' v'] l IH]; cbn; [auto|]. destruct (String.eqb k k'); auto.
Qed.

Lemma join_split c s : join (String c "") (split_at c s) = s.
Proof.
  induction s as [|x s IH]; [reflexivity|]. cbn [split_at].
  destruct (Ascii.eqb_spec x c) as [->|N].
  - pose proof (split_at_nonempty c s). destruct (split_at c s) as [|a l] eqn:E; [contradiction|].
    rewrite join_cons, IH. reflexivity.
  - pose proof (split_at_nonempty c s). destruct (split_at c s) as [|a l] eqn:E; [contradiction|].
    destruct l as [|b l]; cbn [join] in *; cbn [String.append]; rewrite <- IH; reflexivity.
Qed.

Lemma assoc_set_same {A} k (v : A) l : assoc k (assoc_set k v l) = Some v.
Proof.
  induction l as [|[k' v'] l IH]; cbn; [now rewrite String.eqb_refl|].
  destruct (String.eqb_spec k k') as [->|N]; cbn.
  - now rewrite String.eqb_refl.
  - destruct (String.eqb_spec k k') as [->|_]; [contradiction|exact IH].
Qed.

Lemma assoc_set_other {A} k j (v : A) l : k <> j -> assoc k (assoc_set j v l) = assoc k l.
Proof.
  intros N. induction l as [|[k' v'] l IH]; cbn.
  - destruct (String.eqb_spec k j); [contradiction|auto].
  - destruct (String.eqb_spec j k') as [->|M]; cbn.
    + destruct (String.eqb_spec k k'); [contradiction|auto].
    + destruct (String.eqb k k'); auto.
Qed.
