(** The parser accepts exactly the texts of the grammar of SSpell.v. *)
From Verif Require Import Base PBase MNames PNames MNum MXml SXml SSpell.
Open Scope string_scope.
Open Scope nat_scope.

(** ** Strings *)
Lemma strip_prefix_app p s : strip_prefix p (p ++ s)%string = Some s.
Proof. induction p as [|x p IH]; cbn; [destruct s; reflexivity|]. now rewrite Ascii.eqb_refl. Qed.
Lemma strip_prefix_inv p : forall s r, strip_prefix p s = Some r -> s = p ++ r.
Proof.
  induction p as [|c p IH]; intros s r E; [destruct s; cbn in *; congruence|].
  destruct s as [|d s]; [discriminate|]. cbn in *. destruct (Ascii.eqb c d) eqn:C; [|discriminate]. apply Ascii.eqb_eq in C. subst. f_equal. auto.
Qed.
Lemma strip_prefix_none p s : (forall r, s <> p ++ r) -> strip_prefix p s = None.
Proof. intros H. destruct (strip_prefix p s) as [r|] eqn:E; [|reflexivity]. apply strip_prefix_inv in E. now apply H in E. Qed.
Lemma strip_cons c p d s : strip_prefix (String c p) (String d s) = if Ascii.eqb c d then strip_prefix p s else None.
Proof. reflexivity. Qed.

Lemma span_app p s c r : all_chars (fun x => p x = true) s -> p c = false ->
  span p (s ++ String c r)%string = (s, String c r).
Proof.
  intros A C. induction s as [|x s IH]; cbn [append span]; [now rewrite C|]. cbn in A. destruct A as [X A]. rewrite X, IH by auto. reflexivity.
Qed.
Lemma span_inv p : forall s a b, span p s = (a, b) -> s = a ++ b /\ all_chars (fun x => p x = true) a /\ (forall c r, b = String c r -> p c = false).
Proof.
  induction s as [|c s IH]; cbn [span]; intros a b E; [injection E as <- <-; repeat split; discriminate|].
  destruct (p c) eqn:C.
  - destruct (span p s) as [a' b'] eqn:S. injection E as <- <-. destruct (IH _ _ eq_refl) as (-> & A & B). cbn. auto.
  - injection E as <- <-. cbn. repeat split. intros c' r' X. injection X as <- _. exact C.
Qed.

Lemma name_char_facts c : name_char c = true -> xml_ws c = false /\ c <> "<"%char /\ c <> ">"%char /\ c <> "/"%char /\ c <> "="%char /\ c <> "?"%char /\ c <> "!"%char.
Proof. destruct c as [[] [] [] [] [] [] [] []]; vm_compute; intros; try discriminate; repeat split; congruence. Qed.
Lemma name_start_char c : name_start c = true -> name_char c = true.
Proof. intros H. unfold name_char. now rewrite H. Qed.

Lemma parse_name_ok n c r : name_ok n -> name_char c = false -> parse_name (n ++ String c r) = Some (n, String c r).
Proof. intros [S A] C. unfold parse_name. rewrite span_app by auto. destruct n as [|x n]; [easy|]. now rewrite S. Qed.
Lemma parse_name_inv s n r : parse_name s = Some (n, r) -> s = n ++ r /\ name_ok n /\ (forall c r', r = String c r' -> name_char c = false).
Proof.
  unfold parse_name. destruct (span name_char s) as [[|x a] b] eqn:E; [discriminate|]. destruct (name_start x) eqn:X; [|discriminate].
  intros H. injection H as <- <-. apply span_inv in E as (-> & A & B). repeat split; auto; apply A.
Qed.
Lemma span_nil_ws s : (forall c r, s = String c r -> xml_ws c = false) -> span xml_ws s = ("", s).
Proof. destruct s as [|c s]; intros H; [reflexivity|]. cbn. now rewrite (H c s eq_refl). Qed.

(** [upto] *)
Fixpoint clear (p t r : string) : Prop :=
  match t with "" => True | String c t' => strip_prefix p (t ++ p ++ r) = None /\ clear p t' r end.
Lemma upto_complete p t r : clean t -> clear p t r -> upto p (t ++ p ++ r) = Some (t, r).
Proof.
  induction t as [|c t IH]; intros C N.
  - cbn [append]. assert (S := strip_prefix_app p r). destruct (p ++ r) eqn:E; cbn [upto]; rewrite S; reflexivity.
  - destruct C as [C1 C2], N as [N1 N2]. cbn [append] in *. cbn [upto]. rewrite N1, C1. rewrite IH; auto.
Qed.
Lemma upto_sound p : forall s t r, upto p s = Some (t, r) -> s = t ++ p ++ r /\ clean t /\ clear p t r.
Proof.
  induction s as [|c s IH]; cbn [upto]; intros t r E.
  - destruct (strip_prefix p "") eqn:S; [|discriminate]. injection E as <- <-. apply strip_prefix_inv in S. repeat split; auto.
  - destruct (strip_prefix p (String c s)) eqn:S; [injection E as <- <-; apply strip_prefix_inv in S; repeat split; auto|].
    destruct (xml_bad c) eqn:B; [discriminate|]. destruct (upto p s) as [[t' r']|] eqn:U; [|discriminate]. injection E as <- <-.
    destruct (IH _ _ eq_refl) as (-> & C & N). cbn [append]. repeat split; auto.
Qed.
Lemma has_app_l p a b : has p a -> has p (a ++ b).
Proof.
  induction a as [|c a IH]; cbn [append].
  - intros [(r & E)|[]]. destruct p; [|discriminate]. destruct b; left; eexists; reflexivity.
  - intros [(r & E)|H]; [left; exists (r ++ b); change (String c (a ++ b)) with (String c a ++ b); now rewrite E, str_app_assoc|right; auto].
Qed.

Lemma clear_cdata t r : clear "]]>" t r <-> ~ has "]]>" t.
Proof.
  induction t as [|c t IH]; cbn [clear has append].
  - split; auto. intros _ [(x & X)|[]]. discriminate.
  - rewrite IH. split.
    + intros [A B] [(x & X)|H]; [|auto]. injection X as -> ->. discriminate.
    + intros H. split; [|tauto]. apply strip_prefix_none. intros x X. apply H. left. injection X as -> X.
      destruct t as [|c1 t]; cbn in X; [discriminate|]. injection X as -> X. destruct t as [|c2 t]; cbn in X; [discriminate|]. injection X as -> X. eexists. reflexivity.
Qed.
Lemma clear_pi t r : clear "?>" t r <-> ~ has "?>" t.
Proof.
  induction t as [|c t IH]; cbn [clear has append].
  - split; auto. intros _ [(x & X)|[]]. discriminate.
  - rewrite IH. split.
    + intros [A B] [(x & X)|H]; [|auto]. injection X as -> ->. discriminate.
    + intros H. split; [|tauto]. apply strip_prefix_none. intros x X. apply H. left. injection X as -> X.
      destruct t as [|c1 t]; cbn in X; [discriminate|]. injection X as -> X. eexists. reflexivity.
Qed.
Lemma clear_comment t r : clear "--" t r <-> ~ has "--" (t ++ "-").
Proof.
  induction t as [|c t IH]; cbn [clear has append].
  - split; auto. intros _ [(x & X)|[(x & X)|[]]]; discriminate.
  - rewrite IH. split.
    + intros [A B] [(x & X)|H]; [|auto]. injection X as -> X. destruct t as [|d t]; [discriminate A|]. cbn in X. injection X as -> X. discriminate A.
    + intros H. split; [|tauto]. apply strip_prefix_none. intros x X. apply H. left. injection X as -> X.
      destruct t as [|c1 t]; cbn in X |- *; [eexists; reflexivity|]. injection X as -> X. eexists. reflexivity.
Qed.

(** ** References *)
Fixpoint value (base acc : N) (s : string) : option N :=
  match s with
  | "" => Some acc
  | String c r => match digit_of base c with Some v => value base (base * acc + v)%N r | None => None end
  end.
Lemma value_app base a : forall acc b, value base acc (a ++ b) = match value base acc a with Some n => value base n b | None => None end.
Proof. induction a as [|c a IH]; intros acc b; cbn; [reflexivity|]. destruct (digit_of base c); auto. Qed.
Lemma number_value base d n : number base d n -> value base 0 d = Some n /\ d <> "".
Proof.
  induction 1 as [c v D|s n c v _ [IH _] D].
  - cbn. rewrite D. split; [f_equal; lia|discriminate].
  - rewrite value_app, IH. cbn. rewrite D. split; [reflexivity|]. destruct s; discriminate.
Qed.
Lemma value_number base d : forall p m n, number base p m -> value base m d = Some n -> number base (p ++ d) n.
Proof.
  induction d as [|c d IH]; cbn; intros p m n P E; [injection E as <-; now rewrite str_app_nil_r|].
  destruct (digit_of base c) as [v|] eqn:D; [|discriminate].
  change (String c d) with (String c "" ++ d). rewrite <- str_app_assoc. eapply IH; [|exact E]. now constructor.
Qed.
Lemma semicolon base v : digit_of base ";" = Some v -> (16 < base)%N.
Proof. unfold digit_of. cbn. destruct (N.ltb_spec 16 base); [auto|discriminate]. Qed.
Lemma ref_digits_complete base d r : (base <= 16)%N -> forall acc n, d <> "" -> value base acc d = Some n -> ref_digits base acc (d ++ ";" ++ r) = Some (n, r).
Proof.
  intros B. induction d as [|c d IH]; intros acc n N0 E; [easy|]. cbn [value append ref_digits] in *.
  destruct (digit_of base c) as [v|] eqn:D; [|discriminate]. destruct d as [|c1 d].
  - match goal with |- context [strip_prefix ";" ?k] => change k with (";" ++ r) end. rewrite strip_prefix_app. cbn in E. congruence.
  - rewrite strip_prefix_none; [apply IH; [easy|exact E]|]. intros x X. cbn in X. injection X as -> _.
    cbn in E. destruct (digit_of base ";") as [u|] eqn:U; [|discriminate]. apply semicolon in U. lia.
Qed.
Lemma ref_digits_sound base : forall s acc n r, ref_digits base acc s = Some (n, r) -> exists d, s = d ++ ";" ++ r /\ d <> "" /\ value base acc d = Some n.
Proof.
  induction s as [|c s IH]; cbn [ref_digits]; intros acc n r E; [discriminate|].
  destruct (digit_of base c) as [v|] eqn:D; [|discriminate]. destruct (strip_prefix ";" s) as [r'|] eqn:S.
  - injection E as <- <-. apply strip_prefix_inv in S. exists (String c ""). rewrite S. repeat split; [discriminate|]. cbn. now rewrite D.
  - destruct (IH _ _ _ E) as (d & -> & _ & V). exists (String c d). repeat split; [discriminate|]. cbn. now rewrite D.
Qed.
Lemma value_to_number base d n : d <> "" -> value base 0 d = Some n -> number base d n.
Proof.
  destruct d as [|c d]; [easy|]. intros _. cbn. destruct (digit_of base c) as [v|] eqn:D; [|discriminate].
  intros E. apply (value_number base d (String c "") v n); [now constructor|]. rewrite <- E. f_equal. lia.
Qed.

Lemma reference_complete x e r : names x e -> parse_reference (e ++ ";" ++ r) = Some (x, r).
Proof.
  intros H. destruct H as [ | | | | |d n N C|d n N C]; try (cbn; destruct r; reflexivity).
  - apply number_value in N as [V N0]. unfold parse_reference. rewrite !str_app_assoc. 
    change ("#" ++ d ++ ";" ++ r) with (String "#" (d ++ ";" ++ r)).
    do 5 (rewrite strip_cons; cbn [Ascii.eqb Bool.eqb]). cbn iota.
    assert (X : strip_prefix "#x" (String "#" (d ++ ";" ++ r)) = None).
    { apply strip_prefix_none. intros y Y. injection Y as Y. destruct d as [|c d]; [easy|]. cbn in Y. injection Y as -> _. cbn in V. discriminate. }
    rewrite X. change (String "#" (d ++ ";" ++ r)) with ("#" ++ (d ++ ";" ++ r)). rewrite strip_prefix_app.
    rewrite (ref_digits_complete 10 d r ltac:(lia) 0 n N0 V). now rewrite C.
  - apply number_value in N as [V N0]. unfold parse_reference. rewrite !str_app_assoc.
    change ("#x" ++ d ++ ";" ++ r) with (String "#" (String "x" (d ++ ";" ++ r))).
    do 5 (rewrite strip_cons; cbn [Ascii.eqb Bool.eqb]). cbn iota.
    change (String "#" (String "x" (d ++ ";" ++ r))) with ("#x" ++ (d ++ ";" ++ r)). rewrite strip_prefix_app.
    rewrite (ref_digits_complete 16 d r ltac:(lia) 0 n N0 V). now rewrite C.
Qed.
Lemma reference_sound s x r : parse_reference s = Some (x, r) -> exists e, s = e ++ ";" ++ r /\ names x e.
Proof.
  unfold parse_reference. intros E.
  destruct (strip_prefix "lt;" s) eqn:H1; [injection E as <- <-; apply strip_prefix_inv in H1; exists "lt"; split; [exact H1|constructor]|].
  destruct (strip_prefix "gt;" s) eqn:H2; [injection E as <- <-; apply strip_prefix_inv in H2; exists "gt"; split; [exact H2|constructor]|].
  destruct (strip_prefix "amp;" s) eqn:H3; [injection E as <- <-; apply strip_prefix_inv in H3; exists "amp"; split; [exact H3|constructor]|].
  destruct (strip_prefix "quot;" s) eqn:H4; [injection E as <- <-; apply strip_prefix_inv in H4; exists "quot"; split; [exact H4|constructor]|].
  destruct (strip_prefix "apos;" s) eqn:H5; [injection E as <- <-; apply strip_prefix_inv in H5; exists "apos"; split; [exact H5|constructor]|].
  destruct (strip_prefix "#x" s) as [r0|] eqn:H6.
  - destruct (ref_digits 16 0 r0) as [[n r1]|] eqn:D; [|discriminate]. destruct (xml_char n) eqn:C; [|discriminate]. injection E as <- <-.
    apply ref_digits_sound in D as (d & -> & N & V). apply strip_prefix_inv in H6. exists ("#x" ++ d). split; [exact H6|].
    constructor; [now apply value_to_number|exact C].
  - destruct (strip_prefix "#" s) as [r0|] eqn:H7; [|discriminate].
    destruct (ref_digits 10 0 r0) as [[n r1]|] eqn:D; [|discriminate]. destruct (xml_char n) eqn:C; [|discriminate]. injection E as <- <-.
    apply ref_digits_sound in D as (d & -> & N & V). apply strip_prefix_inv in H7. exists ("#" ++ d). split; [exact H7|].
    constructor; [now apply value_to_number|exact C].
Qed.

(** ** Characters *)
Definition stop (attr : bool) (q : ascii) : Prop := if attr then q = ascii_of_nat 34 \/ q = "'"%char else q = "<"%char.
Lemma stop_facts attr q : stop attr q -> q <> nl /\ q <> cr /\ q <> "&"%char /\ q <> "]"%char /\ q <> ">"%char.
Proof. unfold stop, nl, cr. destruct attr; [intros [-> | ->]|intros ->]; repeat split; discriminate. Qed.
Lemma cdend attr q c s r : stop attr q -> (attr = false -> ~ exists r, String c s = ("]]>" ++ r)) ->
  (negb attr && match strip_prefix "]]>" (String c (s ++ String q r)) with Some _ => true | None => false end)%bool = false.
Proof.
  intros Q H. destruct attr; [reflexivity|]. cbn in Q. subst q. cbn [negb andb]. rewrite strip_prefix_none; [reflexivity|].
  intros x X. apply H; [reflexivity|]. injection X as -> X. destruct s as [|c1 s]; cbn in X; [discriminate|]. injection X as -> X.
  destruct s as [|c2 s]; cbn in X; [discriminate|]. injection X as -> X. eexists. reflexivity.
Qed.
Lemma char_data_complete attr q t s : stop attr q -> chars attr q t s -> forall f r, String.length s < f ->
  char_data f attr q (s ++ String q r) = Some (t, String q r).
Proof.
  intros Q. destruct (stop_facts attr q Q) as (Q1 & Q2 & Q3 & Q4 & Q5).
  induction 1 as [|c t s C1 C2 C3 C4 C5 C6 _ IH|t s _ IH|t s N _ IH|x e t s N _ IH]; intros f r L; (destruct f as [|f]; [lia|]).
  - cbn. now rewrite Ascii.eqb_refl.
  - cbn [append char_data]. cbn in L.
    apply Ascii.eqb_neq in C1, C2, C3. rewrite C1, C2, C3, C5. rewrite (cdend attr q c s r Q C6). unfold one_char.
    apply Ascii.eqb_neq in C4. unfold cr in C4. rewrite C4. rewrite IH by lia. reflexivity.
  - cbn [append char_data]. cbn in L. assert (Ascii.eqb cr q = false) as -> by (apply Ascii.eqb_neq; congruence).
    change (Ascii.eqb cr "<") with false. change (xml_bad cr) with false. change (Ascii.eqb cr "&") with false.
    pose proof (cdend attr q cr (String nl s) r Q ltac:(intros _ (x & X); discriminate)) as CE. cbn [append] in CE. rewrite CE. unfold one_char. change (xml_ws cr) with true.
    change (Ascii.eqb cr (ascii_of_nat 13)) with true. change (Ascii.eqb nl (ascii_of_nat 10)) with true. cbv iota beta. change (Ascii.eqb nl (ascii_of_nat 10)) with true. cbv iota beta. rewrite IH by lia. destruct attr; reflexivity.
  - cbn [append char_data]. cbn in L. assert (Ascii.eqb cr q = false) as -> by (apply Ascii.eqb_neq; congruence).
    change (Ascii.eqb cr "<") with false. change (xml_bad cr) with false. change (Ascii.eqb cr "&") with false.
    rewrite (cdend attr q cr s r Q); [|intros _ (x & X); discriminate]. unfold one_char. change (xml_ws cr) with true.
    change (Ascii.eqb cr (ascii_of_nat 13)) with true.
    assert (X : match s ++ String q r with String d r1 => if Ascii.eqb d (ascii_of_nat 10) then r1 else s ++ String q r | "" => s ++ String q r end = s ++ String q r).
    { destruct s as [|d s]; cbn [append].
      - assert (Ascii.eqb q (ascii_of_nat 10) = false) as -> by (apply Ascii.eqb_neq; exact Q1). reflexivity.
      - destruct (Ascii.eqb_spec d (ascii_of_nat 10)) as [->|]; [exfalso; apply N; eexists; reflexivity|reflexivity]. }
    cbv iota beta. rewrite X. rewrite IH by lia. destruct attr; reflexivity.
  - change (("&" ++ e ++ ";" ++ s) ++ String q r) with (String "&" ((e ++ ";" ++ s) ++ String q r)). rewrite !str_app_assoc. cbn [char_data].
    assert (Ascii.eqb "&" q = false) as -> by (apply Ascii.eqb_neq; congruence). change (Ascii.eqb "&" "<") with false. change (xml_bad "&") with false.
    change (Ascii.eqb "&" "&") with true. cbv iota.
    rewrite (reference_complete x e _ N). rewrite IH; [reflexivity|].
    repeat (cbn [String.length append] in L; rewrite ?str_length_app in L). lia.
Qed.
Lemma char_data_sound attr q : stop attr q -> forall f s t rest, char_data f attr q s = Some (t, rest) ->
  exists p r, s = p ++ String q r /\ rest = String q r /\ chars attr q t p.
Proof.
  intros Q. destruct (stop_facts attr q Q) as (Q1 & Q2 & Q3 & Q4 & Q5).
  induction f as [|f IH]; intros s t rest E; [discriminate|]. cbn [char_data] in E. destruct s as [|c r]; [discriminate|].
  destruct (Ascii.eqb_spec c q) as [->|C1]; [injection E as <- <-; exists "", r; repeat split; constructor|].
  destruct (Ascii.eqb_spec c "<"%char) as [|C2]; [discriminate|]. destruct (xml_bad c) eqn:C5; [discriminate|].
  destruct (Ascii.eqb_spec c "&"%char) as [->|C3].
  - destruct (parse_reference r) as [[x r']|] eqn:R; [|discriminate]. apply reference_sound in R as (e & -> & N).
    destruct (char_data f attr q r') as [[t' rest']|] eqn:D; [|discriminate]. injection E as <- <-.
    destruct (IH _ _ _ D) as (p & r1 & -> & -> & H). exists ("&" ++ e ++ ";" ++ p), r1. split; [|split; [reflexivity|now constructor]].
    cbn [append]. now rewrite !str_app_assoc.
  - destruct (negb attr && _)%bool eqn:B; [discriminate|]. unfold one_char in E.
    destruct (Ascii.eqb_spec c (ascii_of_nat 13)) as [->|C4].
    + change (xml_ws (ascii_of_nat 13)) with true in E. rewrite andb_true_r in E.
      destruct r as [|d r1]; [destruct f; discriminate|]. destruct (Ascii.eqb_spec d (ascii_of_nat 10)) as [->|ND].
      * destruct (char_data f attr q r1) as [[t' rest']|] eqn:D; [|discriminate]. injection E as <- <-.
        destruct (IH _ _ _ D) as (p & r2 & -> & -> & H). exists (String cr (String nl p)), r2. repeat split; [].
        destruct attr; now apply chars_crlf.
      * destruct (char_data f attr q (String d r1)) as [[t' rest']|] eqn:D; [|discriminate]. injection E as <- <-.
        destruct (IH _ _ _ D) as (p & r2 & P & -> & H). rewrite P. exists (String cr p), r2. split; [reflexivity|]. split; [reflexivity|].
        destruct attr; (apply chars_cr; [intros (y & ->); injection P as P _; exact (ND P)|exact H]).
    + destruct (char_data f attr q r) as [[t' rest']|] eqn:D; [|discriminate]. injection E as <- <-.
      destruct (IH _ _ _ D) as (p & r2 & -> & -> & H). exists (String c p), r2. split; [reflexivity|]. split; [reflexivity|].
      constructor; auto. intros A (y & Y). rewrite A in B. cbn [negb andb] in B.
      change (String c (p ++ String q r2)) with (String c p ++ String q r2) in B. rewrite Y in B. rewrite str_app_assoc, strip_prefix_app in B. discriminate.
Qed.

(** ** Text *)
Lemma text_complete t s : text t s -> forall f r, String.length s < f -> strip_prefix "<![CDATA[" (String "<" r) = None ->
  text_data f (s ++ String "<" r) = Some (t, String "<" r).
Proof.
  induction 1 as [t s C|t s c u v C CL NO _ IH]; intros f r L N; (destruct f as [|f]; [lia|]).
  - cbn [text_data]. now rewrite (char_data_complete false "<" t s eq_refl C (S f) r L), N.
  - cbn [text_data]. rewrite !str_app_assoc.
    change (s ++ "<![CDATA[" ++ c ++ "]]>" ++ v ++ String "<" r) with (s ++ String "<" ("![CDATA[" ++ c ++ "]]>" ++ v ++ String "<" r)).
    rewrite !str_length_app in L. cbn [String.length] in L. rewrite (char_data_complete false "<" t s eq_refl C) by lia.
    change (String "<" ("![CDATA[" ++ c ++ "]]>" ++ v ++ String "<" r)) with ("<![CDATA[" ++ (c ++ "]]>" ++ v ++ String "<" r)).
    rewrite strip_prefix_app. rewrite upto_complete by (auto; now apply clear_cdata). now rewrite IH by (auto; lia).
Qed.
Lemma text_sound : forall f s t rest, text_data f s = Some (t, rest) ->
  exists p r, s = p ++ String "<" r /\ rest = String "<" r /\ text t p /\ strip_prefix "<![CDATA[" rest = None.
Proof.
  induction f as [|f IH]; intros s t rest E; [discriminate|]. cbn [text_data] in E.
  destruct (char_data (S f) false "<" s) as [[t0 s1]|] eqn:C; [|discriminate].
  apply (char_data_sound false "<" eq_refl) in C as (p & r & -> & -> & C).
  destruct (strip_prefix "<![CDATA[" (String "<" r)) as [s2|] eqn:S.
  - destruct (upto "]]>" s2) as [[c s3]|] eqn:U; [|discriminate]. apply upto_sound in U as (-> & CL & NO). apply clear_cdata in NO.
    destruct (text_data f s3) as [[t' s4]|] eqn:T; [|discriminate]. injection E as <- <-.
    destruct (IH _ _ _ T) as (p' & r' & -> & -> & H & N). apply strip_prefix_inv in S. rewrite S.
    exists (p ++ "<![CDATA[" ++ c ++ "]]>" ++ p'), r'. rewrite !str_app_assoc. repeat split; auto. now constructor.
  - injection E as <- <-. exists p, r. repeat split; auto. now constructor.
Qed.

(** ** Comments and processing instructions *)
Lemma misc_complete m r : aside m -> parse_misc (m ++ r) = Some r.
Proof.
  intros H. destruct H as [c CL NO|n b N HC X CL NO B]; unfold parse_misc; rewrite !str_app_assoc.
  - rewrite strip_prefix_app. change ("-->" ++ r) with ("--" ++ ">" ++ r). rewrite upto_complete by (auto; now apply clear_comment).
    apply strip_prefix_app.
  - rewrite strip_prefix_none by (intros y Y; discriminate). rewrite strip_prefix_app.
    assert (P : exists c r', b ++ "?>" ++ r = String c r' /\ name_char c = false /\ (xml_ws c = true \/ c = "?"%char /\ b = "")).
    { destruct B as [->|(c & r' & -> & W)]; [do 2 eexists; split; [reflexivity|]; auto|].
      do 2 eexists; split; [reflexivity|]. split; [|auto]. destruct (name_char c) eqn:NC; [|reflexivity]. apply name_char_facts in NC as [NC _]. congruence. }
    destruct P as (c & r' & E & NC & W). rewrite E, (parse_name_ok n c r' N NC). apply String.eqb_neq in X. rewrite X, HC. cbn [orb]. rewrite <- E.
    rewrite upto_complete by (auto; now apply clear_pi). destruct W as [->|[-> ->]]; reflexivity.
Qed.
Lemma misc_sound s r : parse_misc s = Some r -> exists m, s = m ++ r /\ aside m.
Proof.
  unfold parse_misc. destruct (strip_prefix "<!--" s) as [r0|] eqn:S.
  - destruct (upto "--" r0) as [[c r1]|] eqn:U; [|discriminate]. intros E. apply strip_prefix_inv in E, S. subst.
    apply upto_sound in U as (-> & CL & NO). apply clear_comment in NO. exists ("<!--" ++ c ++ "-->"). split; [|now constructor].
    rewrite !str_app_assoc. reflexivity.
  - clear S. destruct (strip_prefix "<?" s) as [r0|] eqn:S; [|discriminate]. apply strip_prefix_inv in S. subst.
    destruct (parse_name r0) as [[n r1]|] eqn:N; [|discriminate]. apply parse_name_inv in N as (-> & N & _).
    destruct (String.eqb_spec (lower n) "xml") as [|X]; [discriminate|]. destruct (has_colon n) eqn:HC; [discriminate|]. cbn [orb]. destruct r1 as [|c r1]; [discriminate|].
    destruct (xml_ws c || Ascii.eqb c "?")%bool eqn:W; [|discriminate]. destruct (upto "?>" (String c r1)) as [[t r2]|] eqn:U; [|discriminate].
    destruct (xml_ws c || String.eqb t "")%bool eqn:W2; [|discriminate]. intros E. injection E as <-.
    apply upto_sound in U as (E & CL & NO). apply clear_pi in NO. rewrite E. exists ("<?" ++ n ++ t ++ "?>"). split; [now rewrite !str_app_assoc|].
    constructor; auto. apply orb_true_iff in W2 as [W2|W2]; [|left; now apply String.eqb_eq].
    destruct t as [|c' t]; [now left|]. right. injection E as <- _. eauto.
Qed.
Lemma aside_head m : aside m -> exists c r, m = String "<" (String c r) /\ (c = "!"%char \/ c = "?"%char) /\ forall z, strip_prefix "<![CDATA[" (m ++ z) = None.
Proof. intros [c _ _|n b _ _ _ _ _ _]; do 2 eexists; (split; [reflexivity|]); (split; [auto|]); intros z; apply strip_prefix_none; intros y Y; discriminate. Qed.

(** Start and end tags *)
Definition tag_ahead (s : string) : Prop := exists c r, s = String "<" (String c r) /\ (c = "/"%char \/ name_start c = true).
Lemma ahead_no_misc s : tag_ahead s -> parse_misc s = None.
Proof.
  intros (c & r & -> & C). destruct (parse_misc (String "<" (String c r))) as [y|] eqn:E; [|reflexivity].
  apply misc_sound in E as (m & E & A). destruct (aside_head m A) as (d & m' & -> & D & _). cbn in E. injection E as -> _.
  destruct D as [-> | ->], C as [C|C]; discriminate.
Qed.
Lemma ahead_no_cdata s : tag_ahead s -> strip_prefix "<![CDATA[" s = None.
Proof. intros (c & r & -> & C). apply strip_prefix_none. intros y Y. injection Y as -> _. destruct C as [C|C]; discriminate. Qed.

Lemma content_complete t s : between t s -> forall f r, String.length s < f -> tag_ahead r -> parse_content f (s ++ r) = Some (t, r).
Proof.
  induction 1 as [t s T|t s m u v T M _ IH]; intros f r L A; (destruct f as [|f]; [lia|]); cbn [parse_content].
  - pose proof (ahead_no_misc _ A) as N1. pose proof (ahead_no_cdata _ A) as N2. destruct A as (c & r' & -> & C).
    rewrite (text_complete t s T (S f) _ L N2). rewrite N1.
    destruct C as [->|C]; [reflexivity|]. rewrite C, orb_true_r. reflexivity.
  - rewrite !str_app_assoc. rewrite !str_length_app in L. destruct (aside_head m M) as (c & m' & E & _ & N2). specialize (N2 (v ++ r)).
    assert (E2 : m ++ v ++ r = String "<" (String c m' ++ v ++ r)) by (rewrite E; reflexivity). rewrite E2 in *.
    rewrite (text_complete t s T (S f) _) by (auto; lia). rewrite <- E2. rewrite (misc_complete m _ M). rewrite IH; auto.
    rewrite E in L. cbn in L. lia.
Qed.
Lemma content_sound : forall f s t rest, parse_content f s = Some (t, rest) -> exists p, s = p ++ rest /\ between t p /\ tag_ahead rest.
Proof.
  induction f as [|f IH]; intros s t rest E; [discriminate|]. cbn [parse_content] in E.
  destruct (text_data (S f) s) as [[t0 s1]|] eqn:T; [|discriminate]. apply text_sound in T as (p & r & -> & -> & T & N).
  destruct (parse_misc (String "<" r)) as [s2|] eqn:M.
  - destruct (parse_content f s2) as [[u s3]|] eqn:C; [|discriminate]. injection E as <- <-. apply misc_sound in M as (m & M & A). rewrite M.
    destruct (IH _ _ _ C) as (v & -> & B & H). exists (p ++ m ++ v). rewrite !str_app_assoc. split; [reflexivity|]. split; [|exact H]. exact (between_aside _ _ _ _ _ T A B).
  - destruct r as [|c r]; [discriminate|]. destruct (Ascii.eqb c "/" || name_start c)%bool eqn:H; [|discriminate]. injection E as <- <-.
    exists p. split; [reflexivity|]. split; [now constructor|]. exists c, r. split; [reflexivity|]. apply orb_true_iff in H as [H|H]; [left; now apply Ascii.eqb_eq|auto].
Qed.

(** ** Attributes *)
Definition attr_end (x : ascii) : Prop := x = ">"%char \/ x = "/"%char \/ x = "?"%char.
Lemma attr_end_facts x : attr_end x -> xml_ws x = false /\ (Ascii.eqb x ">" || Ascii.eqb x "/" || Ascii.eqb x "?")%bool = true /\ name_char x = false.
Proof. intros [-> |[-> | ->]]; auto. Qed.
Lemma existsb_fst n (a : attrs) : existsb (fun p => String.eqb n (fst p)) a = false <-> ~ In n (map fst a).
Proof.
  induction a as [|[m v] a IH]; cbn; [tauto|]. rewrite orb_false_iff, IH, String.eqb_neq. intuition congruence.
Qed.
Lemma span_blank_app w c r : blank w -> xml_ws c = false -> span xml_ws (w ++ String c r) = (w, String c r).
Proof. intros B C. now apply span_app. Qed.
Lemma attributes_complete a s : attributes a s -> forall f x r, String.length s < f -> attr_end x ->
  parse_attrs f (s ++ String x r) = Some (a, String x r).
Proof.
  induction 1 as [w W|w n w1 w2 q v s a r W0 W N W1 W2 Q C NI _ IH]; intros f x r' L X; (destruct f as [|f]; [lia|]);
    destruct (attr_end_facts x X) as (X1 & X2 & _); cbn [parse_attrs].
  - rewrite span_blank_app by auto. now rewrite X2.
  - rewrite !str_app_assoc. destruct n as [|c n]; [destruct N; easy|]. assert (NC : name_char c = true) by (apply N).
    destruct (name_char_facts c NC) as (F1 & F2 & F3 & F4 & F5 & F6 & _). cbn [append].
    rewrite span_blank_app by auto. apply Ascii.eqb_neq in F3, F4, F6. rewrite F3, F4, F6. cbn [orb].
    apply String.eqb_neq in W0. rewrite W0.
    set (k := w1 ++ String "=" (w2 ++ String q ((s ++ String q r) ++ String x r'))).
    assert (PN : parse_name (String c (n ++ k)) = Some (String c n, k)).
    { unfold k. destruct w1 as [|b w1].
      - apply (parse_name_ok (String c n) "="%char _ N). reflexivity.
      - apply (parse_name_ok (String c n) b _ N). destruct W1 as [W1 _]. destruct (name_char b) eqn:NB; [|reflexivity]. apply name_char_facts in NB as [NB _]. congruence. }
    rewrite PN. unfold k. rewrite (span_blank_app w1 "=") by auto. cbn [snd].
    change (String "=" (w2 ++ String q ((s ++ String q r) ++ String x r'))) with ("=" ++ (w2 ++ String q ((s ++ String q r) ++ String x r'))). rewrite strip_prefix_app.
    assert (QW : xml_ws q = false) by (destruct Q as [-> | ->]; reflexivity). rewrite (span_blank_app w2 q) by auto. cbn [snd].
    assert (QE : (Ascii.eqb q (ascii_of_nat 34) || Ascii.eqb q "'")%bool = true) by (destruct Q as [-> | ->]; reflexivity). rewrite QE.
    rewrite !str_app_assoc. repeat (cbn [String.length append] in L; rewrite ?str_length_app in L). cbn [append].
    rewrite (char_data_complete true q v s Q C) by lia. rewrite IH by (auto; lia). now rewrite (proj2 (existsb_fst (String c n) a) NI).
Qed.
Lemma attributes_sound : forall f s a rest, parse_attrs f s = Some (a, rest) -> exists p x r, s = p ++ String x r /\ rest = String x r /\ attributes a p /\ attr_end x.
Proof.
  induction f as [|f IH]; intros s a rest E; [discriminate|]. cbn [parse_attrs] in E. destruct (span xml_ws s) as [w s1] eqn:W.
  apply span_inv in W as (-> & W & _). destruct s1 as [|c s1]; [discriminate|].
  destruct (Ascii.eqb c ">" || Ascii.eqb c "/" || Ascii.eqb c "?")%bool eqn:X.
  { injection E as <- <-. exists w, c, s1. split; [reflexivity|]. split; [reflexivity|]. split; [now constructor|].
    rewrite !orb_true_iff, !Ascii.eqb_eq in X. unfold attr_end. tauto. }
  destruct (String.eqb_spec w "") as [|W0]; [discriminate|]. destruct (parse_name (String c s1)) as [[n s2]|] eqn:N; [|discriminate].
  apply parse_name_inv in N as (-> & N & _). destruct (span xml_ws s2) as [w1 s2'] eqn:E1. apply span_inv in E1 as (-> & W1 & _). cbn [snd] in E.
  destruct (strip_prefix "=" s2') as [s3|] eqn:S; [|discriminate]. apply strip_prefix_inv in S. subst s2'.
  destruct (span xml_ws s3) as [w2 s3'] eqn:E2. apply span_inv in E2 as (-> & W2 & _). cbn [snd] in E.
  destruct s3' as [|q s4]; [discriminate|]. destruct (Ascii.eqb q (ascii_of_nat 34) || Ascii.eqb q "'")%bool eqn:Q; [|discriminate].
  assert (Q' : q = ascii_of_nat 34 \/ q = "'"%char) by (now rewrite orb_true_iff, !Ascii.eqb_eq in Q).
  destruct (char_data f true q s4) as [[v s5]|] eqn:C; [|discriminate]. apply (char_data_sound true q Q') in C as (p & r & -> & -> & C).
  destruct (parse_attrs f r) as [[a' s6]|] eqn:P; [|discriminate]. destruct (existsb _ a') eqn:EX; [discriminate|]. injection E as <- <-.
  destruct (IH _ _ _ P) as (p' & x & r' & -> & -> & A & H). exists (w ++ n ++ w1 ++ "=" ++ w2 ++ String q (p ++ String q p')), x, r'.
  split; [now rewrite !str_app_assoc; cbn [append]; rewrite !str_app_assoc|]. split; [reflexivity|]. split; [|exact H].
  constructor; auto. now apply existsb_fst.
Qed.

(** ** Elements *)
Scheme spelled_mut := Induction for spelled Sort Prop with spelled_kids_mut := Induction for spelled_kids Sort Prop.
Combined Scheme spelled_both from spelled_mut, spelled_kids_mut.

Lemma spelled_ahead x e r : spelled x e -> tag_ahead (e ++ r).
Proof.
  intros H. destruct H as [tag a s [N _] _|tag a s t u kids tails v w [N _] _ _ _ _]; (destruct tag as [|c tag]; [easy|]); cbn; do 2 eexists; (split; [reflexivity|auto]).
Qed.
Lemma after_name tag s x r : name_ok tag -> (forall a, attributes a s -> attr_end x -> parse_name (tag ++ s ++ String x r) = Some (tag, s ++ String x r)).
Proof.
  intros N a A X. destruct A as [w W|w n w1 w2 q v s a r' W0 W _ _ _ _ _ _ _].
  - destruct w as [|c w]; [apply parse_name_ok; auto; apply (attr_end_facts x X)|]. cbn [append]. apply parse_name_ok; auto.
    destruct W as [W _]. destruct (name_char c) eqn:NB; [|reflexivity]. apply name_char_facts in NB as [NB _]. congruence.
  - destruct w as [|c w]; [easy|]. cbn [append]. apply parse_name_ok; auto.
    destruct W as [W _]. destruct (name_char c) eqn:NB; [|reflexivity]. apply name_char_facts in NB as [NB _]. congruence.
Qed.
Lemma parse_complete :
  (forall x e, spelled x e -> forall f r, String.length e <= f -> parse_elem f (e ++ r) = Some (x, r)) /\
  (forall kids tails v, spelled_kids kids tails v -> forall f r, String.length v < f -> parse_kids f (v ++ "</" ++ r) = Some (kids, tails, "</" ++ r)).
Proof.
  apply spelled_both.
  - intros tag a s N A f r L. repeat (cbn [String.length append] in L; rewrite ?str_length_app in L). destruct f as [|f]; [lia|]. rewrite !str_app_assoc. cbn [parse_elem].
    rewrite strip_prefix_app. change ("/>" ++ r) with (String "/" (String ">" r)). rewrite (after_name tag s "/" _ N a A) by (unfold attr_end; auto).
    rewrite (attributes_complete a s A) by (unfold attr_end; auto; lia). change (String "/" (String ">" r)) with ("/>" ++ r). now rewrite strip_prefix_app.
  - intros tag a s t u kids tails v w N A B K IH W f r L. repeat (cbn [String.length append] in L; rewrite ?str_length_app in L). destruct f as [|f]; [lia|]. rewrite !str_app_assoc. cbn [parse_elem].
    rewrite strip_prefix_app. set (k := u ++ v ++ "</" ++ tag ++ w ++ ">" ++ r).
    change (">" ++ k) with (String ">" k). rewrite (after_name tag s ">" _ N a A) by (unfold attr_end; auto).
    rewrite (attributes_complete a s A) by (unfold attr_end; auto; lia).
    rewrite strip_prefix_none by (intros y Y; discriminate). change (String ">" k) with (">" ++ k). rewrite strip_prefix_app.
    unfold k. rewrite (content_complete t u B) by (lia || (destruct K as [|x e t' u' kids tails v SX _ _];
      [do 2 eexists; split; [reflexivity|now left]|rewrite !str_app_assoc; now apply (spelled_ahead x)])).
    rewrite IH by lia. rewrite <- str_app_assoc, strip_prefix_app. change (">" ++ r) with (String ">" r). rewrite span_blank_app by auto. cbn [snd].
    change (String ">" r) with (">" ++ r). now rewrite strip_prefix_app.
  - intros f r L. destruct f as [|f]; [lia|]. change ("" ++ "</" ++ r) with ("</" ++ r). cbn [parse_kids]. now rewrite strip_prefix_app.
  - intros x e t u kids tails v SX IHx B K IH f r L. repeat (cbn [String.length append] in L; rewrite ?str_length_app in L). destruct f as [|f]; [lia|]. rewrite !str_app_assoc. cbn [parse_kids].
    pose proof (spelled_ahead x e (u ++ v ++ "</" ++ r) SX) as (c & z & E & C).
    rewrite strip_prefix_none.
    2: { intros y Y. rewrite E in Y. injection Y as -> _. destruct SX as [tag a s [N _] _|tag a s t' u' kids' tails' v' w [N _] _ _ _ _]; (destruct tag as [|c tag]; [easy|]); cbn in E; injection E as -> _; discriminate. }
    assert (E4 : 4 <= String.length e).
    { destruct SX as [tag a s [N _] _|tag a s t' u' kids' tails' v' w [N _] _ _ _ _]; (destruct tag as [|c' tag]; [easy|]); repeat (cbn [String.length append]; rewrite ?str_length_app); cbn; lia. }
    rewrite IHx by lia. rewrite (content_complete t u B) by (lia || (destruct K as [|x' e' t' u' kids tails v SX' _ _];
      [do 2 eexists; split; [reflexivity|now left]|rewrite !str_app_assoc; now apply (spelled_ahead x')])).
    rewrite IH by lia. reflexivity.
Qed.
Lemma parse_sound : forall f,
  (forall s x r, parse_elem f s = Some (x, r) -> exists e, s = e ++ r /\ spelled x e) /\
  (forall s kids tails r, parse_kids f s = Some (kids, tails, r) -> exists v, s = v ++ r /\ spelled_kids kids tails v /\ exists r', r = "</" ++ r').
Proof.
  induction f as [|f [IE IK]]; [split; discriminate|]. split.
  - intros s x r E. cbn [parse_elem] in E. destruct (strip_prefix "<" s) as [s0|] eqn:S; [|discriminate]. apply strip_prefix_inv in S. subst.
    destruct (parse_name s0) as [[tag s1]|] eqn:N; [|discriminate]. apply parse_name_inv in N as (-> & N & _).
    destruct (parse_attrs f s1) as [[a s2]|] eqn:A; [|discriminate]. apply attributes_sound in A as (p & x0 & r0 & -> & -> & A & X).
    destruct (strip_prefix "/>" (String x0 r0)) as [rest|] eqn:S.
    + injection E as <- <-. apply strip_prefix_inv in S. rewrite S. exists ("<" ++ tag ++ p ++ "/>"). split; [now rewrite !str_app_assoc|now constructor].
    + clear S. destruct (strip_prefix ">" (String x0 r0)) as [s3|] eqn:S; [|discriminate]. apply strip_prefix_inv in S. rewrite S. clear S.
      destruct (parse_content f s3) as [[t s4]|] eqn:C; [|discriminate]. apply content_sound in C as (u & -> & B & _).
      destruct (parse_kids f s4) as [[[kids tails] s5]|] eqn:K; [|discriminate]. apply IK in K as (v & -> & K & _).
      destruct (strip_prefix ("</" ++ tag) s5) as [s6|] eqn:S; [|discriminate]. apply strip_prefix_inv in S. subst.
      destruct (span xml_ws s6) as [w s7] eqn:W. apply span_inv in W as (-> & W & _). cbn [snd] in E.
      destruct (strip_prefix ">" s7) as [rest|] eqn:S; [|discriminate]. apply strip_prefix_inv in S. subst. injection E as <- <-.
      exists ("<" ++ tag ++ p ++ ">" ++ u ++ v ++ "</" ++ tag ++ w ++ ">"). split; [now rewrite !str_app_assoc|now constructor].
  - intros s kids tails r E. cbn [parse_kids] in E. destruct (strip_prefix "</" s) as [s0|] eqn:S.
    + injection E as <- <- <-. apply strip_prefix_inv in S. exists "". repeat split; [constructor|eauto].
    + destruct (parse_elem f s) as [[x s1]|] eqn:P; [|discriminate]. apply IE in P as (e & -> & P).
      destruct (parse_content f s1) as [[t s2]|] eqn:C; [|discriminate]. apply content_sound in C as (u & -> & B & _).
      destruct (parse_kids f s2) as [[[l ts] s3]|] eqn:K; [|discriminate]. apply IK in K as (v & -> & K & R). injection E as <- <- <-.
      exists (e ++ u ++ v). rewrite !str_app_assoc. repeat split; [now constructor|exact R].
Qed.

(** ** Documents *)
Definition settled (s : string) : Prop := (forall c r, s = String c r -> xml_ws c = false) /\ parse_misc s = None.
Lemma settled_nil : settled "".
Proof. split; [discriminate|reflexivity]. Qed.
Lemma settled_ahead s : tag_ahead s -> settled s.
Proof. intros A. split; [|now apply ahead_no_misc]. destruct A as (c & r & -> & _). intros c' r' E. injection E as <- _. reflexivity. Qed.
Lemma skip_blank f c s : xml_ws c = true -> skip_misc f (String c s) = skip_misc f s.
Proof. intros W. destruct f; cbn [skip_misc span]; rewrite W; destruct (span xml_ws s); reflexivity. Qed.
Lemma skip_aside f m s : aside m -> skip_misc (S f) (m ++ s) = skip_misc f s.
Proof.
  intros A. cbn [skip_misc]. pose proof (misc_complete m s A) as M. destruct (aside_head m A) as (c & r & -> & _).
  cbn [append] in *. cbn [span]. change (xml_ws "<") with false. cbn [snd]. now rewrite M.
Qed.
Lemma skip_settled f s : settled s -> skip_misc f s = s.
Proof. intros [W M]. destruct f; cbn [skip_misc]; rewrite span_nil_ws by auto; cbn [snd]; [reflexivity|]. now rewrite M. Qed.
Lemma skip_complete g s : around g -> settled s -> forall f, String.length g <= f -> skip_misc f (g ++ s) = s.
Proof.
  intros G S. induction G as [|c g W _ IH|m g A _ IH]; intros f L.
  - now apply skip_settled.
  - cbn [append]. rewrite skip_blank by auto. apply IH. cbn in L. lia.
  - rewrite str_app_assoc. rewrite str_length_app in L. destruct (aside_head m A) as (c & r & E & _). rewrite E in L. cbn in L.
    destruct f as [|f]; [lia|]. rewrite skip_aside by auto. apply IH. lia.
Qed.
Lemma around_blank_app w s : blank w -> around s -> around (w ++ s).
Proof. induction w as [|c w IH]; cbn; auto. intros [W B] S. now constructor; auto. Qed.
Lemma skip_sound : forall f s, exists g, s = g ++ skip_misc f s /\ around g.
Proof.
  induction f as [|f IH]; intros s; cbn [skip_misc]; destruct (span xml_ws s) as [w s1] eqn:W; apply span_inv in W as (-> & W & _); cbn [snd].
  - exists w. split; [reflexivity|]. rewrite <- (str_app_nil_r w). apply around_blank_app; [exact W|constructor].
  - destruct (parse_misc s1) as [s2|] eqn:M.
    + apply misc_sound in M as (m & -> & A). destruct (IH s2) as (g & G & H). exists (w ++ m ++ g). rewrite !str_app_assoc. rewrite <- G. split; [reflexivity|].
      apply around_blank_app; auto. now constructor.
    + exists w. split; [reflexivity|]. rewrite <- (str_app_nil_r w). apply around_blank_app; [exact W|constructor].
Qed.
Lemma around_cancel g s : around g -> around (g ++ s) -> around s.
Proof.
  induction 1 as [|c g W _ IH|m g A _ IH]; intros H; [exact H|apply IH|apply IH].
  - cbn [append] in H. inversion H as [|? ? _ H'|m s' A H' E]; subst; [exact H'|].
    destruct (aside_head m A) as (d & r & -> & _). injection E as <- _. discriminate.
  - rewrite str_app_assoc in H. remember (m ++ g ++ s) as z eqn:Z. destruct H as [|c z W H|m' z A' H].
    + destruct (aside_head m A) as (d & r & -> & _). discriminate.
    + destruct (aside_head m A) as (d & r & -> & _). injection Z as -> _. discriminate.
    + assert (z = g ++ s) as <-; [|exact H]. pose proof (misc_complete m' z A') as E1. rewrite Z, (misc_complete m _ A) in E1. congruence.
Qed.

Lemma decl_ok_iff a : decl_ok a = true <-> declares a.
Proof.
  unfold decl_ok, declares. split.
  - intros H. destruct a as [|[k1 v1] r]; [discriminate|]. apply andb_true_iff in H as [H H2]. apply andb_true_iff in H as [K1 V1].
    apply String.eqb_eq in K1, V1. subst.
    assert (ST : forall r, (match r with [] => true | [(k, v)] => String.eqb k "standalone" && (String.eqb v "yes" || String.eqb v "no") | _ => false end)%bool = true ->
       (r = [] \/ r = [("standalone", "yes")] \/ r = [("standalone", "no")])).
    { intros [|[k v] [|]]; try discriminate; auto. rewrite andb_true_iff, orb_true_iff, !String.eqb_eq. intros [-> [-> | ->]]; auto. }
    destruct r as [|[k2 v2] r']; [exists [], []; auto|]. apply orb_true_iff in H2 as [H2|H2].
    + apply andb_true_iff in H2 as [H2 H3]. apply andb_true_iff in H2 as [K2 V2]. apply String.eqb_eq in K2, V2. subst.
      exists [("encoding", v2)], r'. split; [reflexivity|]. split; [right; eauto|]. apply (ST r' H3).
    + exists [], ((k2, v2) :: r'). split; [reflexivity|]. split; [auto|]. apply (ST ((k2, v2) :: r')). destruct r'; exact H2.
  - intros (enc & alone & -> & E & A). cbn [andb String.eqb].
    destruct E as [->|(e & L & ->)].
    + cbn [app]. destruct A as [->|[->| ->]]; reflexivity.
    + cbn [app]. rewrite L. destruct A as [->|[->| ->]]; reflexivity.
Qed.
Lemma decl_complete a s r : declares a -> attributes a s -> parse_decl ("<?xml" ++ s ++ "?>" ++ r) = Some r.
Proof.
  intros D A. unfold parse_decl. rewrite strip_prefix_app. change ("?>" ++ r) with (String "?" (">" ++ r)).
  rewrite (attributes_complete a s A); [|rewrite str_length_app; cbn; lia|unfold attr_end; auto].
  apply decl_ok_iff in D. rewrite D. apply (strip_prefix_app "?>" r).
Qed.
Lemma decl_sound s r : parse_decl s = Some r -> exists a p, s = "<?xml" ++ p ++ "?>" ++ r /\ declares a /\ attributes a p.
Proof.
  unfold parse_decl. destruct (strip_prefix "<?xml" s) as [r0|] eqn:S; [|discriminate]. apply strip_prefix_inv in S. subst.
  destruct (parse_attrs _ r0) as [[a r1]|] eqn:A; [|discriminate]. destruct (decl_ok a) eqn:D; [|discriminate]. intros S. apply strip_prefix_inv in S.
  apply attributes_sound in A as (p & x & r' & -> & -> & A & _). apply decl_ok_iff in D. rewrite S. exists a, p. auto.
Qed.
Lemma no_decl s : (forall r, s <> "<?xml" ++ r) -> parse_decl s = None.
Proof. intros H. unfold parse_decl. now rewrite strip_prefix_none. Qed.
Lemma pi_xml m r : aside m -> m <> "" -> forall a p z, declares a -> attributes a p -> m ++ r = "<?xml" ++ p ++ "?>" ++ z -> False.
Proof.
  intros A _ a p z D T E. destruct A as [c _ _|n b N HC X CL NO B]; [discriminate|].
  rewrite !str_app_assoc in E. apply (f_equal (strip_prefix "<?")) in E. rewrite strip_prefix_app in E. change ("<?xml" ++ p ++ "?>" ++ z) with ("<?" ++ ("xml" ++ p ++ "?>" ++ z)) in E.
  rewrite strip_prefix_app in E. injection E as E.
  assert (P1 : parse_name ("xml" ++ p ++ "?>" ++ z) = Some ("xml", p ++ "?>" ++ z)).
  { apply (after_name "xml" p "?"%char (">" ++ z)) with (a := a); auto; [|unfold attr_end; auto]. split; [reflexivity|repeat split]. }
  change (parse_name (String "x" (String "m" (String "l" (p ++ String "?" (String ">" z))))) = Some ("xml", p ++ "?>" ++ z)) in P1.
  rewrite <- E in P1.
  assert (P2 : exists c r', b ++ "?>" ++ r = String c r' /\ name_char c = false).
  { destruct B as [->|(c & r' & -> & W)]; [do 2 eexists; split; [reflexivity|]; auto|].
    do 2 eexists; split; [reflexivity|]. destruct (name_char c) eqn:NC; [|reflexivity]. apply name_char_facts in NC as [NC _]. congruence. }
  change (parse_name (n ++ b ++ "?>" ++ r) = Some ("xml", p ++ "?>" ++ z)) in P1.
  destruct P2 as (c & r' & E2 & NC). rewrite E2, (parse_name_ok n c r' N NC) in P1. injection P1 as -> _. apply X. reflexivity.
Qed.

Lemma root_complete x mark decl before e after :
  (mark = "" \/ mark = bom) -> (decl = "" \/ exists a s, declares a /\ attributes a s /\ decl = "<?xml" ++ s ++ "?>") ->
  around before -> spelled x e -> parse_root (mark ++ decl ++ before ++ e ++ after) = Some (x, after).
Proof.
  intros M D B E. unfold parse_root.
  assert (B1 : exists c r, before ++ e ++ after = String c r /\ c <> ascii_of_nat 239).
  { destruct B as [|c g W _|m g A _].
    - destruct (spelled_ahead x e after E) as (c & r & X & _). cbn. rewrite X. do 2 eexists. split; [reflexivity|discriminate].
    - cbn. do 2 eexists. split; [reflexivity|]. intros ->. discriminate.
    - destruct (aside_head m A) as (c & r & -> & _). cbn. do 2 eexists. split; [reflexivity|discriminate]. }
  assert (M1 : match strip_prefix bom (mark ++ decl ++ before ++ e ++ after) with Some r => r | None => mark ++ decl ++ before ++ e ++ after end = decl ++ before ++ e ++ after).
  { destruct M as [-> | ->]; [|now rewrite strip_prefix_app].
    change ("" ++ decl ++ before ++ e ++ after) with (decl ++ before ++ e ++ after).
    rewrite strip_prefix_none; [reflexivity|]. intros r R. destruct B1 as (c & r' & E1 & N). unfold bom in R. destruct D as [->|(a & s & _ & _ & ->)].
    - change ("" ++ before ++ e ++ after) with (before ++ e ++ after) in R. rewrite E1 in R. injection R as R _. auto.
    - discriminate. }
  rewrite M1. clear M1.
  assert (D1 : match parse_decl (decl ++ before ++ e ++ after) with Some r => r | None => decl ++ before ++ e ++ after end = before ++ e ++ after).
  { destruct D as [->|(a & s & D & A & ->)].
    - change ("" ++ before ++ e ++ after) with (before ++ e ++ after).
      destruct (parse_decl (before ++ e ++ after)) as [z|] eqn:P; [|reflexivity]. exfalso. apply decl_sound in P as (a & p & P & D & A).
      destruct B as [|c g W _|m g AS _].
      + destruct (spelled_ahead x e after E) as (c & r & X & C). cbn [append] in P. rewrite X in P. injection P as -> _. destruct C; discriminate.
      + cbn in P. injection P as -> _. discriminate.
      + rewrite str_app_assoc in P. destruct (aside_head m AS) as (c & m' & EM & _). refine (pi_xml m _ AS _ a p z D A P). rewrite EM. discriminate.
    - rewrite !str_app_assoc. now rewrite (decl_complete a s _ D A). }
  rewrite D1. rewrite (skip_complete before (e ++ after) B) by (rewrite ?str_length_app; (lia || apply settled_ahead; now apply (spelled_ahead x))).
  apply (proj1 parse_complete); auto. rewrite str_length_app. lia.
Qed.
Lemma root_sound s x r : parse_root s = Some (x, r) -> exists mark decl before e,
  s = mark ++ decl ++ before ++ e ++ r /\ (mark = "" \/ mark = bom) /\ (decl = "" \/ exists a s, declares a /\ attributes a s /\ decl = "<?xml" ++ s ++ "?>") /\
  around before /\ spelled x e.
Proof.
  unfold parse_root. intros E.
  set (s0 := match strip_prefix bom s with Some r => r | None => s end) in E.
  set (s1 := match parse_decl s0 with Some r => r | None => s0 end) in E.
  assert (S0 : exists mark, s = mark ++ s0 /\ (mark = "" \/ mark = bom)).
  { subst s0. destruct (strip_prefix bom s) as [y|] eqn:B; [apply strip_prefix_inv in B; eauto|exists ""; auto]. }
  assert (S1 : exists decl, s0 = decl ++ s1 /\ (decl = "" \/ exists a s, declares a /\ attributes a s /\ decl = "<?xml" ++ s ++ "?>")).
  { subst s1. destruct (parse_decl s0) as [y|] eqn:D; [|exists ""; auto]. apply decl_sound in D as (a & p & D & H1 & H2).
    exists ("<?xml" ++ p ++ "?>"). rewrite !str_app_assoc. split; [exact D|]. right. eauto. }
  clearbody s0 s1. destruct (skip_sound (String.length s1) s1) as (g & G & A).
  apply (proj1 (parse_sound _)) in E as (e & E & H). rewrite E in G. destruct S0 as (mark & -> & M), S1 as (decl & -> & D). rewrite G.
  exists mark, decl, g, e. auto.
Qed.

(** The parser accepts exactly the documents of the grammar, and reads what they spell. *)
Theorem parse_iff s x : parse s = Ok x <-> spelled_document x s.
Proof.
  unfold parse. split.
  - destruct (parse_root s) as [[y r]|] eqn:R; [|discriminate]. destruct (String.eqb_spec (skip_misc (String.length r) r) "") as [K|]; [|discriminate].
    intros E. injection E as ->. apply root_sound in R as (mark & decl & before & e & -> & M & D & B & H). constructor; auto.
    destruct (skip_sound (String.length r) r) as (g & G & A). rewrite K, str_app_nil_r in G. now subst.
  - intros [y mark decl before e after M D B E A]. rewrite (root_complete y mark decl before e after M D B E).
    rewrite <- (str_app_nil_r after) at 2. rewrite (skip_complete after "" A settled_nil) by lia. reflexivity.
Qed.
