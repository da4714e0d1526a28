(** Which texts are accepted as alignments and as display formats: C48. *)
From Verif Require Import Base PBase MNames MNum MXml MEnum MRefTab MRef MCodec MElem0 MElem1 MElemA MElemB SFormat.
Open Scope string_scope.

Lemma digit_iff c : (exists d, digit_val c = Some d) <-> from_to "0" "9" c.
Proof.
  unfold digit_val, from_to. cbv zeta. change (N_of_ascii "0") with 48%N. change (N_of_ascii "9") with 57%N.
  destruct (N.leb_spec 48 (N_of_ascii c)); destruct (N.leb_spec (N_of_ascii c) 57); cbn; split; intros H1; try (destruct H1; discriminate); try lia; eauto.
Qed.
Lemma digit_some c d : digit_val c = Some d -> from_to "0" "9" c.
Proof. intros E. apply digit_iff. eauto. Qed.
Lemma digit_none c : digit_val c = None -> ~ from_to "0" "9" c.
Proof. intros E H. apply digit_iff in H as (d & D). congruence. Qed.
Ltac inv H := inversion H; subst; clear H.
(** Removing the digits at the start. *)
Lemma skip_split s : exists a, s = a ++ skip_digits s /\ matches (Star digit) a.
Proof.
  induction s as [|c s (a & E & M)]; [exists ""; split; [reflexivity|constructor]|]. cbn [skip_digits]. destruct (digit_val c) eqn:D.
  - exists (String c a). split; [cbn; now rewrite <- E|]. change (String c a) with (String c "" ++ a). constructor; [constructor; eapply digit_some; exact D|exact M].
  - exists "". split; [reflexivity|constructor].
Qed.
Definition no_digit (s : string) : Prop := match s with String c _ => digit_val c = None | "" => True end.
Lemma digits_all r a : matches r a -> r = Star digit -> forall t, no_digit t -> skip_digits (a ++ t) = t.
Proof.
  intros M. induction M as [| | | | | |r s t Ms _ Mt IH| | |]; intros E u N; try discriminate.
  - destruct u as [|c u]; [reflexivity|]. cbn in N |- *. now rewrite N.
  - injection E as ->. inv Ms. cbn. match goal with H : from_to _ _ _ |- _ => apply digit_iff in H as (d & ->) end. now apply IH.
Qed.
Lemma digits_skipped a t : matches (Star digit) a -> no_digit t -> skip_digits (a ++ t) = t.
Proof. intros M. now apply (digits_all _ _ M). Qed.
Definition precision (r : string) : string :=
  match r with String "." (String c r') => match digit_val c with Some _ => skip_digits r' | None => r end | _ => r end.
Definition flagged (r : string) : string := match r with String c r' => if mem_char c " -+#" then r' else r | "" => "" end.
Definition conversion (r : string) : bool := match r with String c _ => mem_char c "diouxXfeEgGcs" | "" => false end.
Lemma format_eq r : display_format_ok (String "%" r) = conversion (precision (skip_digits (flagged r))).
Proof. reflexivity. Qed.
Lemma in_chars c s : mem_char c s = true -> exists a b, s = a ++ String c b.
Proof.
  induction s as [|x s IH]; [discriminate|]. cbn. intros H. apply orb_true_iff in H as [H|H].
  - apply Ascii.eqb_eq in H as ->. now exists "", s.
  - destruct (IH H) as (a & b & ->). now exists (String x a), b.
Qed.
Lemma precision_split r : exists a, r = a ++ precision r /\ matches (Opt (Seq (Word ".") (Plus digit))) a.
Proof.
  assert (Z : exists a, r = a ++ r /\ matches (Opt (Seq (Word ".") (Plus digit))) a) by (exists ""; split; [reflexivity|constructor]).
  unfold precision. destruct r as [|x r]; [exact Z|]. destruct (Ascii.eqb_spec x ".") as [->|N]; [|destruct x as [[|] [|] [|] [|] [|] [|] [|] [|]]; solve [exact Z|contradiction]].
  destruct r as [|c r]; [exact Z|]. destruct (digit_val c) eqn:D; [|exact Z]. destruct (skip_split r) as (a & E & M). exists (String "." (String c a)). split; [cbn; now rewrite <- E|].
  constructor. change (String "." (String c a)) with ("." ++ (String c "" ++ a)). constructor; [constructor|]. constructor; [constructor; eapply digit_some; exact D|exact M].
Qed.
Lemma flagged_split r : exists a, r = a ++ flagged r /\ matches (Opt (Chars (among " -+#"))) a.
Proof.
  unfold flagged. destruct r as [|c r]; [exists ""; split; [reflexivity|constructor]|]. destruct (mem_char c " -+#") eqn:M.
  - exists (String c ""). split; [reflexivity|]. constructor. constructor. exact M.
  - exists "". split; [reflexivity|constructor].
Qed.
Lemma mem_in c s : mem_char c s = true -> In c (list_ascii_of_string s).
Proof. induction s as [|x s IH]; [discriminate|]. cbn. intros H. apply orb_true_iff in H as [H|H]; [left; now apply Ascii.eqb_eq|right; auto]. Qed.
Lemma conversion_facts c t : mem_char c "diouxXfeEgGcs" = true -> no_digit (String c t) /\ mem_char c " -+#" = false /\ precision (String c t) = String c t.
Proof. intros H. apply mem_in in H. cbn [list_ascii_of_string] in H. repeat (destruct H as [<-|H]; [split; [reflexivity|split; reflexivity]|]). destruct H. Qed.
Lemma flag_no_digit c : from_to "0" "9" c -> mem_char c " -+#" = false.
Proof.
  intros D. destruct (mem_char c " -+#") eqn:H; [|reflexivity]. exfalso. apply mem_in in H. cbn [list_ascii_of_string] in H. apply digit_iff in D as (d & D).
  repeat (destruct H as [<-|H]; [discriminate D|]). destruct H.
Qed.
Lemma display_format_iff s : display_format_ok s = true <-> starts_like display_format_pattern s.
Proof.
  split.
  - destruct s as [|x r]; [discriminate|]. destruct (Ascii.eqb_spec x "%") as [->|N]; [|destruct x as [[|] [|] [|] [|] [|] [|] [|] [|]]; intros H; solve [discriminate H|contradiction]].
    rewrite format_eq. destruct (flagged_split r) as (a1 & E1 & M1). destruct (skip_split (flagged r)) as (a2 & E2 & M2). destruct (precision_split (skip_digits (flagged r))) as (a3 & E3 & M3).
    destruct (precision (skip_digits (flagged r))) as [|c t]; [discriminate|]. cbn [conversion]. intros C.
    exists ("%" ++ (a1 ++ (a2 ++ (a3 ++ String c "")))), t. split.
    + rewrite E1, E2, E3. rewrite !str_app_assoc. reflexivity.
    + unfold display_format_pattern. constructor; [constructor|]. constructor; [exact M1|]. constructor; [exact M2|]. constructor; [exact M3|]. constructor. exact C.
  - intros (a & t & -> & M). unfold display_format_pattern in M. inv M. match goal with H : matches (Word _) _ |- _ => inv H end.
    match goal with H : matches (Seq (Opt (Chars _)) _) _ |- _ => inv H end. match goal with H : matches (Seq (Star _) _) _ |- _ => inv H end.
    match goal with H : matches (Seq (Opt (Seq _ _)) _) _ |- _ => inv H end.
    match goal with H : matches (Chars (among "diouxXfeEgGcs")) _ |- _ => inversion H as [? c C Ec| | | | | | | | |]; subst; clear H end.
    rewrite !str_app_assoc.
    match goal with |- display_format_ok ("%" ++ ?x) = true => change (display_format_ok (String "%" x) = true) end. rewrite format_eq.
    match goal with |- context [flagged (?a1 ++ ?a2 ++ ?a3 ++ _)] => rename a1 into f1; rename a2 into f2; rename a3 into f3 end.
    destruct (conversion_facts c t C) as (F1 & F2 & F3).
    assert (P : no_digit (f3 ++ String c "" ++ t) /\ flagged (f3 ++ String c "" ++ t) = f3 ++ String c "" ++ t /\ precision (f3 ++ String c "" ++ t) = String c t).
    { match goal with H : matches (Opt (Seq _ _)) f3 |- _ => inversion H as [| | | | | | | |r E|r s Hs E]; subst; clear H end.
      - cbn [append]. unfold flagged. rewrite F2. auto.
      - inv Hs. match goal with H : matches (Word _) _ |- _ => inv H end. match goal with H : matches (Plus _) _ |- _ => inv H end.
        match goal with H : matches digit _ |- _ => inv H end. match goal with H : from_to _ _ _ |- _ => apply digit_iff in H as (d & D) end.
        rewrite !str_app_assoc. cbn [append]. split; [reflexivity|]. split; [reflexivity|]. unfold precision. rewrite D. now apply digits_skipped. }
    destruct P as (P1 & P2 & P3).
    assert (S2 : skip_digits (f2 ++ f3 ++ String c "" ++ t) = f3 ++ String c "" ++ t) by now apply digits_skipped.
    assert (S1 : flagged (f1 ++ f2 ++ f3 ++ String c "" ++ t) = f2 ++ f3 ++ String c "" ++ t).
    { match goal with H : matches (Opt (Chars _)) f1 |- _ => inversion H as [| | | | | | | |r E|r s Hs E]; subst; clear H end.
      - cbn [append]. match goal with H : matches (Star digit) f2 |- _ => inversion H as [| | | | |r E|r s u Hs Hu E| | |]; subst; clear H end.
        + exact P2.
        + inv Hs. rewrite str_app_assoc. cbn [append]. unfold flagged. match goal with H : from_to _ _ _ |- _ => now rewrite (flag_no_digit _ H) end.
      - inv Hs. cbn [append]. unfold flagged. match goal with H : among _ _ |- _ => unfold among in H; now rewrite H end. }
    rewrite S1, S2, P3. exact C.
Qed.
Lemma starts_with_iff p s : starts_with p s = true <-> exists r, s = p ++ r.
Proof.
  unfold starts_with. revert s. induction p as [|x p IH]; intros s; cbn [strip_prefix].
  - split; [intros _; now exists s|reflexivity].
  - destruct s as [|y s]; [split; [discriminate|intros (r & E); discriminate]|]. destruct (Ascii.eqb_spec x y) as [->|N].
    + rewrite IH. split; intros (r & E); exists r; [now rewrite E|now injection E].
    + split; [discriminate|]. intros (r & E). injection E as E _. now destruct N.
Qed.
Lemma alignment_iff s : alignment_ok s = true <-> starts_like alignment_pattern s.
Proof.
  assert (W : forall w r, matches r w -> forall t, s = w ++ t -> starts_like r s) by (intros w r M t E; exists w, t; auto).
  unfold alignment_ok. rewrite !orb_true_iff, !starts_with_iff. unfold alignment_pattern. split.
  - intros [[[[H|(r & E)]|(r & E)]|(r & E)]|(r & E)].
    + destruct s as [|c s]; [discriminate|]. destruct (digit_val c) eqn:D; [|discriminate]. apply digit_some in D. destruct (Ascii.eqb_spec c "0") as [->|N].
      * exists "0", s. split; [reflexivity|]. apply m_or_r, m_or_r, m_or_r, m_or_l. change "0" with ("0" ++ "") at 2. constructor; constructor.
      * exists (String c ""), s. split; [reflexivity|]. apply m_or_l. change (String c "") with (String c "" ++ ""). constructor; [|constructor]. constructor.
        unfold from_to in *. change (N_of_ascii "0") with 48%N in D. change (N_of_ascii "1") with 49%N. destruct (N.eq_dec (N_of_ascii c) 48) as [E|E]; [|lia].
        exfalso. apply N. rewrite <- (ascii_N_embedding c), E. reflexivity.
    + eapply W; [|exact E]. do 4 apply m_or_r. apply m_or_l. constructor.
    + eapply W; [|exact E]. do 5 apply m_or_r. apply m_or_l. constructor.
    + eapply W; [|exact E]. do 6 apply m_or_r. apply m_or_l. constructor.
    + eapply W; [|exact E]. do 7 apply m_or_r. constructor.
  - clear W. intros (a & t & -> & M).
    repeat match goal with H : matches (Or _ _) _ |- _ => inv H end; repeat match goal with H : matches (Seq _ _) _ |- _ => inv H end; repeat match goal with H : matches (Word _) _ |- _ => inv H end.
    2-4: do 4 left; reflexivity.
    + match goal with H : matches (Chars (from_to "1" "9")) _ |- _ => inversion H as [? c D E| | | | | | | | |]; subst end. do 4 left. cbn.
      assert (D' : from_to "0" "9" c) by (unfold from_to in *; change (N_of_ascii "0") with 48%N; change (N_of_ascii "1") with 49%N in *; lia).
      apply digit_iff in D' as (d & ->). reflexivity.
    + do 3 left. right. eauto.
    + do 2 left. right. eauto.
    + left. right. eauto.
    + right. eauto.
Qed.

(** An alignment that is a text is accepted if and only if it starts with an alignment, a display format
    if and only if it starts with a display format; what is accepted is stored as it is. *)
Theorem C48_alignment s x : assign_alignment (Some (IText s)) = Ok x <-> starts_like alignment_pattern s /\ x = Some (IText s).
Proof.
  unfold assign_alignment. rewrite <- alignment_iff. destruct (alignment_ok s); split; try discriminate; [|intros [_ ->]; reflexivity|intros [H _]; discriminate].
  intros E. split; [reflexivity|congruence].
Qed.
Theorem C48_display_format s x : assign_display_format (Some s) = Ok x <-> starts_like display_format_pattern s /\ x = Some s.
Proof.
  unfold assign_display_format. rewrite <- display_format_iff. destruct (display_format_ok s); split; try discriminate; [|intros [_ ->]; reflexivity|intros [H _]; discriminate].
  intros E. split; [reflexivity|congruence].
Qed.
(** Anything else is a ValueError; an int is always accepted as alignment. *)
Theorem C48_rejected s : (~ starts_like alignment_pattern s -> assign_alignment (Some (IText s)) = Err ValueError) /\
  (~ starts_like display_format_pattern s -> assign_display_format (Some s) = Err ValueError).
Proof.
  rewrite <- alignment_iff, <- display_format_iff. unfold assign_alignment, assign_display_format. split; intros H; [destruct (alignment_ok s)|destruct (display_format_ok s)]; solve [now destruct H|reflexivity].
Qed.
Theorem C48_int z : assign_alignment (Some (IInt z)) = Ok (Some (IInt z)).
Proof. reflexivity. Qed.
Example C48_example : assign_alignment (Some (IText "BOOLEAN")) = Ok (Some (IText "BOOLEAN")) /\ assign_alignment (Some (IText "four")) = Err ValueError /\
  assign_display_format (Some "%-10.3f") = Ok (Some "%-10.3f") /\ assign_display_format (Some "10.3f") = Err ValueError /\ starts_like display_format_pattern "%#5.2x".
Proof. rewrite <- display_format_iff. vm_compute. auto. Qed.
(** Text after the format is not looked at: texts that are no alignment and no display format are
    accepted. *)
Fixpoint allows (r : regex) (c : ascii) : Prop :=
  match r with
  | Chars p => p c
  | Word s => mem_char c s = true
  | Seq a b | Or a b => allows a c \/ allows b c
  | Star a | Plus a | Opt a => allows a c
  end.
Lemma mem_app c s t : mem_char c (s ++ t) = mem_char c s || mem_char c t.
Proof. induction s as [|x s IH]; [reflexivity|]. cbn. now rewrite IH, orb_assoc. Qed.
Lemma matches_allows r s c : matches r s -> mem_char c s = true -> allows r c.
Proof.
  intros M. induction M as [p x H| | | | | | | | |]; cbn [allows]; rewrite ?mem_app, ?orb_true_iff; try tauto; try discriminate.
  cbn. rewrite orb_false_r. intros E. apply Ascii.eqb_eq in E. now subst.
Qed.
Theorem C48_trailing_refuted : exists s t, assign_alignment (Some (IText s)) = Ok (Some (IText s)) /\ ~ matches alignment_pattern s /\
  assign_display_format (Some t) = Ok (Some t) /\ ~ matches display_format_pattern t.
Proof.
  exists "PTR!", "%d!". split; [reflexivity|]. split; [|split; [reflexivity|]]; intros M; apply (matches_allows _ _ "!") in M; try reflexivity; vm_compute in M;
  repeat match goal with H : _ \/ _ |- _ => destruct H as [H|H] end; try discriminate; destruct M as [M1 M2]; try (now destruct M1); now destruct M2.
Qed.
Print Assumptions C48_alignment.
Print Assumptions C48_display_format.
Print Assumptions C48_rejected.
Print Assumptions C48_int.
Print Assumptions C48_trailing_refuted.
