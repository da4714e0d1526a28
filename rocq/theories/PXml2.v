(** What happens to texts that do need escaping: exactly the safe texts are read back. *)
From Verif Require Import Base PBase MNames PNames MNum MXml SXml SSpell PSpell PXml.
Open Scope nat_scope.

(** What is read is no longer than what is written, and where it is as long it is the same text, if in
    attribute values there is no white space but blanks; then nothing needed to be escaped. *)
Lemma utf8_len n : String.length (utf8 n) <= 4 /\ ((n < 2048)%N -> String.length (utf8 n) <= 2).
Proof. unfold utf8. destruct (N.ltb_spec n 128), (N.ltb_spec n 2048), (N.ltb_spec n 65536); cbn; split; intros; try lia. Qed.
Lemma names_len x e : names x e -> String.length x < String.length e + 2.
Proof.
  destruct 1 as [ | | | | |d n N C|d n N C]; cbn; try lia.
  - pose proof (utf8_len n). apply number_value in N as [V N0]. destruct d as [|c1 [|c2 d]]; [easy| |rewrite ?str_length_app; cbn; lia].
    cbn in V. destruct (digit_of 10 c1) as [v|] eqn:D; [|discriminate]. unfold digit_of in D. match type of D with (if ?b then _ else _) = _ => destruct b eqn:B; [|discriminate] end.
    apply N.ltb_lt in B. injection D as D. injection V as V. cbn. lia.
  - pose proof (utf8_len n). apply number_value in N as [V N0]. destruct d as [|c1 d]; [easy|]. cbn. lia.
Qed.
Lemma chars_exact attr q t s : stop attr q -> chars attr q t s ->
  String.length t <= String.length s /\ (t = s -> if attr then (q = ascii_of_nat 34 -> safe_attr s) else safe_text s).
Proof.
  intros Q. induction 1 as [|c t s C1 C2 C3 C4 C5 C6 _ IH|t s _ IH|t s N _ IH|x e t s N _ IH].
  - split; [auto|]. intros _. destruct attr; [easy|]. split; [exact I|]. intros [(y & Y)|[]]. discriminate.
  - destruct IH as [L IH]. split; [cbn; lia|]. intros E. injection E as E1 E2. specialize (IH E2).
    assert (NB : (32 <= nat_of_ascii c \/ nat_of_ascii c = 9 \/ nat_of_ascii c = 10)%nat).
    { unfold xml_bad, xml_ws in C5. destruct (Nat.ltb_spec (nat_of_ascii c) 32); [|lia].
      cbn [andb] in C5. apply negb_false_iff in C5. rewrite !orb_true_iff, !Nat.eqb_eq in C5. destruct C5 as [[[B|B]|B]|B]; try lia.
      exfalso. apply C4. rewrite <- (ascii_nat_embedding c), B. reflexivity. }
    destruct attr.
    + intros ->. split; [|now apply IH]. repeat split; auto.
      * intros E. apply C1. rewrite <- (ascii_nat_embedding c), E. reflexivity.
      * cbn [andb] in E1. destruct (xml_ws c) eqn:W; [rewrite <- E1; cbn; lia|]. unfold xml_ws in W. rewrite !orb_false_iff, !Nat.eqb_neq in W. lia.
    + cbn in Q. subst q. destruct IH as [I1 I2]. split; [split; [repeat split; auto|exact I1]|].
      intros [(x & E)|E]; [|exact (I2 E)]. apply C6; [reflexivity|]. exists x. exact E.
  - destruct IH as [L _]. split; [cbn; lia|]. intros E. exfalso. apply (f_equal String.length) in E. cbn in E. lia.
  - destruct IH as [L _]. split; [cbn; lia|]. intros E. destruct attr; discriminate.
  - destruct IH as [L _]. pose proof (names_len x e N) as NL. split; [|intros E; exfalso; apply (f_equal String.length) in E; revert E];
      repeat (cbn [String.length append]; rewrite ?str_length_app); cbn; lia.
Qed.
Lemma line_ends_len s : String.length (line_ends s) <= String.length s.
Proof.
  induction s as [|c s IH]; cbn [line_ends]; auto. destruct (Ascii.eqb c (ascii_of_nat 13)); [|cbn; lia].
  destruct s as [|d s]; [cbn; lia|]. destruct (Ascii.eqb d (ascii_of_nat 10)); cbn [String.length] in *; lia.
Qed.
Lemma text_exact t s : text t s -> String.length t <= String.length s /\ (t = s -> safe_text s).
Proof.
  induction 1 as [t s C|t s c u v C _ _ _ IH]; [now apply (chars_exact false "<" t s eq_refl)|].
  destruct (chars_exact false "<" t s eq_refl C) as [L _]. destruct IH as [L2 _]. pose proof (line_ends_len c).
  split; [|intros E; exfalso; apply (f_equal String.length) in E; revert E]; repeat (cbn [String.length append]; rewrite ?str_length_app); cbn; lia.
Qed.
Lemma between_exact t s : between t s -> String.length t <= String.length s /\ (t = s -> safe_text s).
Proof.
  intros [t' s' T|t' s' m u v T A _]; [now apply text_exact|]. destruct (text_exact _ _ T) as [L _].
  destruct (aside_head m A) as (c & r & -> & _).
  split; [|intros E; exfalso; apply (f_equal String.length) in E; revert E]; repeat (cbn [String.length append]; rewrite ?str_length_app); cbn; lia.
Qed.

Lemma leaf_etext t a s tail : s <> "" ->
  (etext 0 0 (Leaf t a s) ++ tail)%string = String "<" (t ++ atext a ++ String ">" (s ++ String "<" (String "/" (t ++ String ">" tail))))%string.
Proof.
  intros H. destruct s as [|c s]; [congruence|].
  change (etext 0 0 (Leaf t a (String c s))) with (start t a ++ ">" ++ String c s ++ "</" ++ t ++ ">")%string.
  generalize (String c s). intros x. unfold start. fold (atext a). rewrite !str_app_assoc. reflexivity.
Qed.
Lemma leaf_step step d t a s : etext step d (Leaf t a s) = etext 0 0 (Leaf t a s).
Proof. destruct s; reflexivity. Qed.

(** A text that starts with '<' and a name is read from there. *)
Lemma parse_tag t r x : name_ok t -> parse (String "<" (t ++ r)) = Ok x -> exists e after, String "<" (t ++ r) = (e ++ after)%string /\ spelled x e /\ around after.
Proof.
  intros [N _] P. destruct t as [|c t]; [easy|]. apply parse_iff in P. remember (String "<" (String c t ++ r)) as s eqn:S.
  destruct P as [x mark decl before e after M D B E A]. cbn [append] in S.
  destruct M as [-> | ->]; [|discriminate]. destruct D as [->|(a & p & _ & _ & ->)]; [|injection S as S _; subst c; discriminate].
  cbn [append] in *. destruct B as [|d g W _|m g AS _].
  - exists e, after. auto.
  - injection S as -> _. discriminate.
  - destruct (aside_head m AS) as (d & m' & -> & D & _). injection S as -> _. destruct D as [-> | ->]; discriminate.
Qed.
(** The parts of a start tag. *)
Lemma start_tag t a p x r x' r' : name_ok t -> attributes a p -> attr_end x -> forall t' a' p', name_ok t' -> attributes a' p' -> attr_end x' ->
  (t ++ p ++ String x r = t' ++ p' ++ String x' r')%string -> t = t' /\ a = a' /\ String x r = String x' r'.
Proof.
  intros N A X t' a' p' N' A' X' E.
  pose proof (after_name t p x r N a A X) as P. rewrite E, (after_name t' p' x' r' N' a' A' X') in P. injection P as -> P. split; [reflexivity|].
  pose proof (attributes_complete a p A (S (String.length p + String.length p')) x r ltac:(lia) X) as Q.
  rewrite <- P, (attributes_complete a' p' A' (S (String.length p + String.length p')) x' r' ltac:(lia) X') in Q. injection Q as -> -> ->. auto.
Qed.

Lemma leaf_text_exact step t a s w : name_ok t -> attrs_well a ->
  render step (Leaf t a s) = Ok w -> parse w = Ok (Elem t a s [] []) -> safe_text s.
Proof.
  intros N A R P. rewrite render_etext, leaf_step in R.
  match type of R with Ok ?x = Ok w => assert (EW : w = x) by congruence end. rewrite EW in P. clear R EW.
  destruct s as [|c0 s0]; [split; [exact I|intros [(x & X)|[]]; discriminate]|].
  pose proof (leaf_etext t a (String c0 s0) "" ltac:(discriminate)) as E. rewrite str_app_nil_r in E. rewrite E in P. clear E.
  assert (NE : String c0 s0 <> "") by discriminate. generalize dependent (String c0 s0). intros s. clear c0 s0. intros P NE.
  apply (parse_tag t _ _ N) in P as (e & after & E & S & _). pose proof (atext_attributes a A) as AA.
  inversion S as [|? ? p ? u ? ? v w' _ A' B K W]; subst; [congruence|]. inversion K; subst. clear S K. injection E as E. rewrite !str_app_assoc in E. cbn [append] in E.
  destruct (start_tag t a (atext a) ">" _ ">" _ N AA ltac:(unfold attr_end; auto) t a p N A' ltac:(unfold attr_end; auto) E) as (_ & _ & E').
  injection E' as E'. destruct (between_exact s u B) as [L H].
  assert (LE := f_equal String.length E'). repeat (cbn [String.length append] in LE; rewrite ?str_length_app in LE).
  assert (LU : String.length u = String.length s) by lia. rewrite str_app_assoc in E'. destruct (str_app_inv_len _ _ _ _ E' (eq_sym LU)) as [E2 _]. rewrite E2. now apply H.
Qed.

Lemma attr_exact step t n v s w : name_ok t -> name_ok n ->
  render step (Leaf t [(n, v)] s) = Ok w -> parse w = Ok (Elem t [(n, v)] s [] []) -> safe_attr v.
Proof.
  intros N M R P. rewrite render_etext, leaf_step in R.
  match type of R with Ok ?x = Ok w => assert (EW : w = x) by congruence end. rewrite EW in P. clear R EW.
  assert (E : exists r, etext 0 0 (Leaf t [(n, v)] s) = String "<" (t ++ String " " (n ++ String "=" (String (ascii_of_nat 34) (v ++ String (ascii_of_nat 34) r))))%string).
  { destruct s as [|c0 s0].
    - exists "/>". cbn [etext]. unfold start. cbn [fold_right fst snd]. repeat (rewrite ?str_app_assoc; unfold quote; cbn [append]). reflexivity.
    - change (etext 0 0 (Leaf t [(n, v)] (String c0 s0))) with (start t [(n, v)] ++ ">" ++ String c0 s0 ++ "</" ++ t ++ ">")%string.
      eexists. unfold start. cbn [fold_right fst snd]. repeat (rewrite ?str_app_assoc; unfold quote; cbn [append]). reflexivity. }
  destruct E as (r & E). rewrite E in P. clear E. apply (parse_tag t _ _ N) in P as (e & after & E & S & _).
  assert (H : exists p x r', attributes [(n, v)] p /\ attr_end x /\ (e ++ after = String "<" (t ++ p ++ String x r'))%string).
  { inversion S as [? ? p _ A'|? ? p ? u ? ? v' w' _ A' _ _ _]; subst; exists p; do 2 eexists; (split; [exact A'|]);
      rewrite !str_app_assoc; cbn [append]; (split; [|reflexivity]); unfold attr_end; auto. }
  destruct H as (p & x & r' & A & X & E2). rewrite E2 in E. injection E as E. clear S E2.
  inversion A as [|w0 ? w1 w2 q ? sv ? r0 W0 W _ W1 W2 Q C _ _]; subst.
  (* the tag *)
  destruct w0 as [|b w0]; [easy|]. destruct W as [WB W]. cbn [append] in E.
  assert (NB : name_char b = false) by (destruct (name_char b) eqn:NB; [apply name_char_facts in NB as [NB _]; congruence|reflexivity]).
  assert (P1 := f_equal parse_name E). rewrite (parse_name_ok t " " _ N eq_refl), (parse_name_ok t b _ N NB) in P1. injection P1 as <- P1.
  rewrite !str_app_assoc in P1. cbn [append] in P1.
  (* the blanks *)
  destruct n as [|c n]; [destruct M; easy|]. assert (NC : name_char c = true) by apply M. destruct (name_char_facts c NC) as (F1 & _). cbn [append] in P1.
  assert (P2 := f_equal (span xml_ws) P1). rewrite (span_nil_ws (String c _)) in P2 by (intros ? ? Z; injection Z as <- _; exact F1).
  rewrite (span_blank_app w0 c _ W F1) in P2. injection P2 as <- P2.
  (* the name *)
  set (k := (w1 ++ String "=" ((w2 ++ String q (sv ++ String q r0)) ++ String x r'))%string) in *.
  assert (PK : parse_name (String c n ++ k) = Some (String c n, k)).
  { unfold k. destruct w1 as [|b1 w1]; [now apply (parse_name_ok (String c n) "="%char)|]. apply (parse_name_ok (String c n) b1); auto.
    destruct W1 as [W1 _]. destruct (name_char b1) eqn:NB1; [|reflexivity]. apply name_char_facts in NB1 as [NB1 _]. congruence. }
  assert (P3 := parse_name_ok (String c n) "="%char (String (ascii_of_nat 34) (v ++ String (ascii_of_nat 34) r)) M eq_refl). cbn [append] in P3, PK.
  rewrite P2, PK in P3. injection P3 as P3. unfold k in P3. clear P1 P2 PK E. clear k.
  destruct w1 as [|b1 w1]; [|cbn in P3; injection P3 as -> _; destruct W1; discriminate]. cbn [append] in P3. injection P3 as P3.
  destruct w2 as [|b2 w2]; [|cbn in P3; injection P3 as -> _; destruct W2; discriminate]. cbn [append] in P3. injection P3 as -> P3.
  (* the value *)
  rewrite !str_app_assoc in P3. cbn [append] in P3.
  destruct (chars_exact true _ _ _ Q C) as [L H].
  assert (V : sv = v).
  { assert (NQ : mem_char (ascii_of_nat 34) sv = false).
    { clear - C. remember (ascii_of_nat 34) as q eqn:HQ. induction C as [|c t s C1 C2 C3 C4 C5 C6 C IH|t s C IH|t s NN C IH|x e t s NN C IH]; cbn [mem_char]; auto.
      - rewrite IH, orb_false_r. apply Ascii.eqb_neq. congruence.
      - rewrite IH. subst q. reflexivity.
      - rewrite IH. subst q. reflexivity.
      - change ("&" ++ e ++ ";" ++ s)%string with (String "&" (e ++ ";" ++ s)). cbn [mem_char].
        assert (ME : mem_char q e = false).
        { clear - NN HQ. subst q. assert (D : forall base d k, (base <= 16)%N -> number base d k -> mem_char (ascii_of_nat 34) d = false).
          { intros base d k B. induction 1 as [c v D|s n c v _ IH D].
            - cbn [mem_char]. rewrite orb_false_r. apply Ascii.eqb_neq. intros Z. subst c. unfold digit_of in D. cbn in D. destruct (N.ltb_spec 16 base); [lia|discriminate].
            - revert IH. induction s as [|y s IHs]; cbn [append mem_char]; intros IH.
              + rewrite orb_false_r. apply Ascii.eqb_neq. intros Z. subst c. unfold digit_of in D. cbn in D. destruct (N.ltb_spec 16 base); [lia|discriminate].
              + apply orb_false_iff in IH as [I1 I2]. now rewrite I1, (IHs I2). }
          destruct NN as [ | | | | |d n N C|d n N C]; try reflexivity; cbn [append mem_char]; rewrite ?orb_false_l.
          - rewrite (D 10%N d n ltac:(lia) N). reflexivity.
          - rewrite (D 16%N d n ltac:(lia) N). reflexivity. }
        assert (MA : forall a b, mem_char q (a ++ b)%string = (mem_char q a || mem_char q b)%bool) by (intros a b; induction a as [|y a IHa]; cbn; [reflexivity|rewrite IHa; apply orb_assoc]).
        rewrite !MA, ME, IH. subst q. reflexivity. }
    assert (LL : String.length sv = String.length v).
    { assert (G : forall a b u z, mem_char (ascii_of_nat 34) a = false -> (b ++ String (ascii_of_nat 34) u = a ++ String (ascii_of_nat 34) z)%string -> String.length a <= String.length b).
      { induction a as [|y a IHa]; intros b u z MM EE; [cbn; lia|]. cbn [mem_char] in MM. apply orb_false_iff in MM as [M1 M2].
        destruct b as [|y' b]; cbn in EE; [injection EE as <- _; rewrite Ascii.eqb_refl in M1; discriminate|]. injection EE as _ EE. cbn. apply IHa in EE; auto. lia. }
      pose proof (G sv v _ _ NQ (eq_sym P3)). lia. }
    exact (proj1 (str_app_inv_len _ _ _ _ P3 LL)). }
  subst sv. apply H; reflexivity.
Qed.

Lemma markup_injected step t a x b : name_ok t -> attrs_well a -> safe_text x -> name_ok b ->
  exists w, render step (Leaf t a (x ++ "<" ++ b ++ "/>")) = Ok w /\ parse w = Ok (Elem t a x [Elem b [] "" [] []] [""]).
Proof.
  intros N A X B. rewrite render_etext, leaf_step. eexists. split; [reflexivity|].
  assert (NE : (x ++ "<" ++ b ++ "/>")%string <> "") by (destruct x; discriminate).
  pose proof (leaf_etext t a _ "" NE) as E. rewrite str_app_nil_r in E. rewrite E. clear E NE.
  apply parse_iff.
  assert (S : spelled (Elem t a x [Elem b [] "" [] []] [""]) (start t a ++ ">" ++ x ++ (("<" ++ b ++ "" ++ "/>") ++ "" ++ "") ++ "</" ++ t ++ ">")%string).
  { apply full_spelled; auto; [now apply safe_between|]. constructor; [|now do 3 constructor|constructor]. constructor; auto. constructor. exact I. }
  pose proof (spelled_doc _ "" "" "" _ "" (or_introl eq_refl) (or_introl eq_refl) around_nil S around_nil) as H.
  cbn [append] in H. rewrite !str_app_nil_r in H. unfold start in H. fold (atext a) in H.
  match type of H with spelled_document _ ?u => match goal with |- spelled_document _ ?v => replace v with u; [exact H|] end end.
  rewrite !str_app_assoc. cbn [append]. rewrite ?str_app_assoc. reflexivity.
Qed.

(** ** A checker for [safe], used for concrete cases *)
Fixpoint hasb (p s : string) : bool := starts_with p s || match s with "" => false | String _ r => hasb p r end.
Lemma starts_with_app p r : starts_with p (p ++ r) = true.
Proof. unfold starts_with. now rewrite strip_prefix_app. Qed.
Lemma has_dec_false p s : hasb p s = false -> ~ has p s.
Proof.
  induction s as [|c s IH]; cbn [has hasb]; intros H; apply orb_false_iff in H as [H1 H2];
    intros [(r & E)|X]; try (rewrite E, starts_with_app in H1; discriminate); auto.
  exact (IH H2 X).
Qed.
Fixpoint allb (p : ascii -> bool) (s : string) : bool := match s with "" => true | String c r => p c && allb p r end.
Lemma allb_sound p (P : ascii -> Prop) s : (forall c, p c = true -> P c) -> allb p s = true -> all_chars P s.
Proof. intros H. induction s; cbn; auto. intros E. apply andb_true_iff in E as [E1 E2]. auto. Qed.
Definition plainb (c : ascii) : bool :=
  negb (Ascii.eqb c "<") && negb (Ascii.eqb c "&") && (Nat.leb 32 (nat_of_ascii c) || Nat.eqb 9 (nat_of_ascii c) || Nat.eqb 10 (nat_of_ascii c)).
Definition safe_textb s := allb plainb s && negb (hasb "]]>" s).
Lemma safe_textb_sound s : safe_textb s = true -> safe_text s.
Proof.
  intros H. apply andb_true_iff in H as [H1 H2]. split.
  - revert H1. apply allb_sound. intros c C. unfold plainb in C.
    rewrite !andb_true_iff, !orb_true_iff, !negb_true_iff, !Ascii.eqb_neq, !Nat.eqb_eq, Nat.leb_le in C. unfold plain_char. intuition auto.
  - apply has_dec_false. now apply negb_true_iff.
Qed.
Definition safe_attrb := allb (fun c => negb (Ascii.eqb c "<") && negb (Ascii.eqb c "&") && negb (Nat.eqb (nat_of_ascii c) 34) && Nat.leb 32 (nat_of_ascii c)).
Lemma safe_attrb_sound s : safe_attrb s = true -> safe_attr s.
Proof.
  apply allb_sound. intros c C. rewrite !andb_true_iff, !negb_true_iff, !Ascii.eqb_neq, !Nat.eqb_neq, Nat.leb_le in C. intuition auto.
Qed.
Definition name_okb s := match s with "" => false | String c _ => name_start c end && allb name_char s && negb (has_colon s) && negb (String.eqb s "xmlns").
Lemma name_okb_sound s : name_okb s = true -> local_name s.
Proof.
  intros H. apply andb_true_iff in H as [H H4]. apply andb_true_iff in H as [H H3]. apply andb_true_iff in H as [H1 H2].
  split; [|split; [now apply negb_true_iff|now apply String.eqb_neq, negb_true_iff]]. split; [destruct s; [discriminate|exact H1]|].
  revert H2. apply allb_sound. auto.
Qed.
Lemma attrs_ok_well a : attrs_ok a -> attrs_well a.
Proof. intros [N H]. split; [exact N|]. intros n v I. destruct (H n v I) as [[L _] S]. now split. Qed.
Lemma safe_well w : safe w -> well w.
Proof.
  induction w as [t a s|t a s ms|t a ks IH] using wt_ind'; intros H; inversion H as [? ? ? T A X|? ? ? ? T A X F|? ? ? T A F]; subst; destruct T as [T _]; apply attrs_ok_well in A; constructor; auto.
  - eapply Forall_impl; [|exact F]. intros m ((N & _) & B & C). apply attrs_ok_well in B. auto.
  - rewrite Forall_forall in *. auto.
Qed.
Fixpoint nodupb (l : list string) : bool := match l with [] => true | x :: r => negb (existsb (String.eqb x) r) && nodupb r end.
Lemma nodupb_sound l : nodupb l = true -> NoDup l.
Proof.
  induction l as [|x l IH]; cbn; intros H; [constructor|]. apply andb_true_iff in H as [H1 H2]. constructor; auto.
  intros I. apply negb_true_iff in H1. rewrite (proj2 (existsb_exists _ _)) in H1; [discriminate|]. exists x. split; auto. apply String.eqb_refl.
Qed.
Definition attrs_okb (a : attrs) := nodupb (map fst a) && forallb (fun p => name_okb (fst p) && safe_attrb (snd p)) a.
Lemma attrs_okb_sound a : attrs_okb a = true -> attrs_ok a.
Proof.
  intros H. apply andb_true_iff in H as [H1 H2]. split; [now apply nodupb_sound|]. intros n v I.
  rewrite forallb_forall in H2. specialize (H2 _ I). apply andb_true_iff in H2 as [A B]. split; [now apply name_okb_sound|now apply safe_attrb_sound].
Qed.
Fixpoint safeb (w : wt) : bool :=
  match w with
  | Leaf t a s => name_okb t && attrs_okb a && safe_textb s
  | Line t a s ms => name_okb t && attrs_okb a && safe_textb s
      && forallb (fun m => name_okb (mk_tag m) && attrs_okb (mk_attrs m) && safe_textb (mk_text m) && safe_textb (mk_tail m)) ms
  | Node t a ks => name_okb t && attrs_okb a && forallb safeb ks
  end.
Lemma safeb_sound w : safeb w = true -> safe w.
Proof.
  induction w as [t a s|t a s ms|t a ks IH] using wt_ind'; cbn; intros H; rewrite !andb_true_iff in H.
  - destruct H as [[H1 H2] H3]. constructor; auto using name_okb_sound, attrs_okb_sound, safe_textb_sound.
  - destruct H as [[[H1 H2] H3] H4]. constructor; auto using name_okb_sound, attrs_okb_sound, safe_textb_sound.
    rewrite forallb_forall in H4. rewrite Forall_forall. intros m M. specialize (H4 m M). rewrite !andb_true_iff in H4.
    destruct H4 as [[[A B] C] D]. auto using name_okb_sound, attrs_okb_sound, safe_textb_sound.
  - destruct H as [[H1 H2] H3]. constructor; auto using name_okb_sound, attrs_okb_sound.
    rewrite forallb_forall in H3. rewrite Forall_forall in *. auto.
Qed.
