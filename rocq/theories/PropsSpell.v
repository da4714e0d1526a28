(** C68: the many ways to write the same document in XML are read alike.  Specification: SSpell.v. *)
From Verif Require Import Base PBase MNames MNum MXml MNs SXml SSpell PSpell PXml PXml2 MEnum MRefTab MRef MCodec MArxml SOrder PropsOrder.
Open Scope list_scope.

(** The parser accepts exactly the spellings, and reads what they spell. *)
Theorem C68_exact s x : parse s = Ok x <-> spelled_document x s.
Proof. apply parse_iff. Qed.
(** No text spells two documents. *)
Theorem C68_unambiguous s x y : spelled_document x s -> spelled_document y s -> x = y.
Proof. rewrite <- !parse_iff. congruence. Qed.
(** Two spellings of the same document are read alike ... *)
Theorem C68_same_reading v stop x s t : spelled_document x s -> spelled_document x t -> read_str v s stop = read_str v t stop.
Proof. rewrite <- !parse_iff. unfold read_str, load, parse_names. now intros -> ->. Qed.
(** ... and so are spellings of documents that differ in what has no meaning (names taken with their namespaces, see
    C69). *)
Theorem C68_rearranged v stop x y x' y' s t : spelled_document x s -> spelled_document y t ->
  resolve [] x = Some x' -> resolve [] y = Some y' -> rearranged (clean_namespace x') (clean_namespace y') -> x_attrs x' = x_attrs y' ->
  read_str v s stop = read_str v t stop.
Proof.
  rewrite <- !parse_iff. intros S T X Y R A. apply (C55_text v stop s t (clean_namespace x') (clean_namespace y')); unfold load, parse_names.
  - now rewrite S, X.
  - now rewrite T, Y.
  - exact R.
  - destruct x', y'. exact A.
Qed.
(** A text that spells no document is refused and leaves the reader as it was. *)
Theorem C68_malformed v stop s : (~ exists x, spelled_document x s) -> exists e, read_str v s stop = (v, Err e).
Proof.
  intros N. unfold read_str, load, parse_names. destruct (parse s) as [x|e] eqn:P; [|now exists e]. exfalso. apply N. exists x. now apply parse_iff.
Qed.

(** ** Comments and processing instructions *)
Local Open Scope string_scope.
Lemma sapp_assoc (a b c : string) : (a ++ b) ++ c = a ++ b ++ c.
Proof. induction a as [|x a IH]; [reflexivity|]. cbn. now f_equal. Qed.
Lemma append_nil_r (s : string) : s ++ "" = s.
Proof. induction s as [|c s IH]; [reflexivity|]. cbn. now f_equal. Qed.
Lemma append_nil_l (s : string) : "" ++ s = s.
Proof. reflexivity. Qed.
Lemma between_more t s m : between t s -> aside m -> between t (s ++ m).
Proof.
  intros B A. induction B as [t s T|t s n u v T N B IH].
  - replace (s ++ m) with (s ++ m ++ "") by (now rewrite append_nil_r). apply between_aside with "" ; [exact T|exact A|apply between_text, text_chars, chars_nil].
  - rewrite !sapp_assoc. now apply between_aside with u.
Qed.
Lemma kids_more k t v m : spelled_kids k t v -> aside m -> k <> nil -> spelled_kids k t (v ++ m).
Proof.
  intros S A. induction S as [|x e t u kids tails v X B S IH]; [congruence|]. intros _. rewrite !sapp_assoc.
  destruct kids as [|y kids].
  - inversion S; subst. rewrite append_nil_l. replace (e ++ u ++ m) with (e ++ (u ++ m) ++ "") by (now rewrite append_nil_r). constructor; [exact X|now apply between_more|constructor].
  - constructor; [exact X|exact B|]. apply IH. discriminate.
Qed.
Lemma kids_app k1 t1 v1 k2 t2 v2 : spelled_kids k1 t1 v1 -> spelled_kids k2 t2 v2 -> spelled_kids (k1 ++ k2) (t1 ++ t2) (v1 ++ v2).
Proof. intros S T. induction S as [|x e t u kids tails v X B S IH]; [exact T|]. cbn. rewrite !sapp_assoc. now constructor. Qed.
Lemma before_spelled x p q : before_tag x p q -> spelled x (p ++ q).
Proof.
  induction 1 as [tag a s t u k1 t1 v1 k2 t2 v2 w N A B S1 S2 W|tag a s t u k1 t1 v1 x p q t' u' k2 t2 v2 w N A B S1 H IH B' S2 W].
  - rewrite !sapp_assoc. rewrite <- (sapp_assoc v1). apply spelled_full; try assumption. now apply kids_app.
  - rewrite !sapp_assoc. replace (v1 ++ p ++ q ++ u' ++ v2 ++ "</" ++ tag ++ w ++ ">") with ((v1 ++ (p ++ q) ++ u' ++ v2) ++ "</" ++ tag ++ w ++ ">") by (now rewrite !sapp_assoc).
    apply spelled_full; try assumption. apply kids_app; [exact S1|]. now constructor.
Qed.
Lemma before_more x p q m : before_tag x p q -> aside m -> before_tag x (p ++ m) q.
Proof.
  intros H A. induction H as [tag a s t u k1 t1 v1 k2 t2 v2 w N AT B S1 S2 W|tag a s t u k1 t1 v1 x p q t' u' k2 t2 v2 w N AT B S1 H IH B' S2 W]; rewrite !sapp_assoc.
  - destruct k1 as [|y k1].
    + inversion S1; subst. rewrite append_nil_l. replace (u ++ m) with ((u ++ m) ++ "") by (now rewrite append_nil_r). apply before_here with (t1 := nil); try assumption. now apply between_more.
    + apply before_here; try assumption. apply kids_more; try assumption. discriminate.
  - now apply before_inside.
Qed.
(** A comment or processing instruction right before any tag, or around the document element, changes nothing. *)
Theorem C68_aside_before_tag x mark decl before p q after m v stop :
  (mark = "" \/ mark = bom) -> (decl = "" \/ exists a s, declares a /\ attributes a s /\ decl = "<?xml" ++ s ++ "?>") ->
  around before -> before_tag x p q -> around after -> aside m ->
  parse (mark ++ decl ++ before ++ (p ++ q) ++ after) = Ok x /\
  read_str v (mark ++ decl ++ before ++ (p ++ m ++ q) ++ after) stop = read_str v (mark ++ decl ++ before ++ (p ++ q) ++ after) stop.
Proof.
  intros M D B P A I. split; [apply parse_iff; constructor; try assumption; now apply before_spelled|].
  apply C68_same_reading with x; constructor; try assumption; [|now apply before_spelled]. rewrite <- sapp_assoc. apply before_spelled. now apply before_more.
Qed.
Lemma around_app a b : around a -> around b -> around (a ++ b).
Proof. intros A B. induction A; [exact B| |]; cbn; rewrite ?sapp_assoc; now constructor. Qed.
Theorem C68_aside_around x mark decl before e after m w v stop :
  (mark = "" \/ mark = bom) -> (decl = "" \/ exists a s, declares a /\ attributes a s /\ decl = "<?xml" ++ s ++ "?>") ->
  around before -> spelled x e -> around after -> around m -> around w ->
  read_str v (mark ++ decl ++ (before ++ m) ++ e ++ (w ++ after)) stop = read_str v (mark ++ decl ++ before ++ e ++ after) stop.
Proof. intros M D B P A I J. apply C68_same_reading with x; constructor; try assumption; now apply around_app. Qed.
(** Inside a text it cuts off the rest of the text: whatever follows, up to the next tag, is lost. *)
Theorem C68_comment_cuts_text tag a s t u m t' u' w : name_ok tag -> attributes a s -> text t u -> aside m -> between t' u' -> blank w ->
  parse ("<" ++ tag ++ s ++ ">" ++ (u ++ m ++ u') ++ "</" ++ tag ++ w ++ ">") = Ok (Elem tag a t nil nil).
Proof.
  intros N A T M B W. apply parse_iff. assert (S : spelled (Elem tag a t nil nil) ("<" ++ tag ++ s ++ ">" ++ (u ++ m ++ u') ++ "" ++ "</" ++ tag ++ w ++ ">")).
  { apply spelled_full; try assumption; [now apply between_aside with t'|constructor]. }
  rewrite append_nil_l in S. rewrite <- (append_nil_l (append "<" _)), <- (append_nil_l (append "" _)), <- (append_nil_l (append "" (append "" _))).
  rewrite <- (append_nil_r ("<" ++ tag ++ s ++ ">" ++ (u ++ m ++ u') ++ "</" ++ tag ++ w ++ ">")). constructor; [now left|now left|constructor|exact S|constructor].
Qed.
Definition named (n : string) : string :=
  "<AUTOSAR><AR-PACKAGES><AR-PACKAGE><SHORT-NAME>" ++ n ++ "</SHORT-NAME></AR-PACKAGE></AR-PACKAGES></AUTOSAR>".
(** Desired: a comment never changes what is read.  Refuted: *)
Theorem C68_comment_refuted : read_str 51 (named "Pa<!-- x -->ck") true = read_str 51 (named "Pa") true /\
  read_str 51 (named "Pa<!-- x -->ck") true <> read_str 51 (named "Pack") true.
Proof. split; [vm_compute; reflexivity|vm_compute; discriminate]. Qed.

(** ** Characters *)
(** A numeric reference stands for the UTF-8 sequence of its number, in decimal and in hexadecimal. *)
Lemma N_byte n : (n < 256)%N -> N_of_ascii (utf8_byte n) = n.
Proof. apply N_ascii_embedding. Qed.
Theorem C68_utf8 n : (n < 1114112)%N -> utf8_number (utf8 n) = Some n.
Proof.
  intros H. unfold utf8, utf8_number.
  assert (D : forall k, (k <> 0 -> n = k * (n / k) + n mod k /\ n mod k < k)%N) by (intros k K; split; [now apply N.div_mod|now apply N.mod_lt]).
  assert (E : (n / 64 = 64 * (n / 4096) + n / 64 mod 64 /\ n / 64 mod 64 < 64)%N).
  { split; [|now apply N.mod_lt]. change 4096%N with (64 * 64)%N. rewrite <- N.div_div by discriminate. now apply N.div_mod. }
  assert (F : (n / 4096 = 64 * (n / 262144) + n / 4096 mod 64 /\ n / 4096 mod 64 < 64)%N).
  { split; [|now apply N.mod_lt]. change 262144%N with (4096 * 64)%N. rewrite <- N.div_div by discriminate. now apply N.div_mod. }
  destruct (D 64%N ltac:(discriminate)) as [D1 D2]. destruct E as [E1 E2]. destruct F as [F1 F2]. clear D.
  set (r0 := (n mod 64)%N) in *. set (q1 := (n / 64)%N) in *. set (r1 := (q1 mod 64)%N) in *. set (q2 := (n / 4096)%N) in *. set (r2 := (q2 mod 64)%N) in *. set (q3 := (n / 262144)%N) in *.
  clearbody r0 q1 r1 q2 r2 q3.
  destruct (N.ltb_spec n 128); [rewrite N_byte by lia; reflexivity|].
  destruct (N.ltb_spec n 2048); [rewrite !N_byte by lia; f_equal; lia|].
  destruct (N.ltb_spec n 65536); rewrite !N_byte by lia; f_equal; lia.
Qed.
Theorem C68_utf8_shape n : (n < 1114112)%N -> utf8_shape n (utf8 n).
Proof.
  intros H. unfold utf8, utf8_shape, continues.
  assert (M : forall k, (k mod 64 < 64)%N) by (intros k; now apply N.mod_lt).
  assert (D6 := N.div_mod n 64 ltac:(discriminate)). assert (D12 := N.div_mod n 4096 ltac:(discriminate)). assert (D18 := N.div_mod n 262144 ltac:(discriminate)).
  assert (M6 := M n). assert (M12 := N.mod_lt n 4096 ltac:(discriminate)). assert (M18 := N.mod_lt n 262144 ltac:(discriminate)).
  assert (A1 := M (n / 64)%N). assert (A2 := M (n / 4096)%N). clear M.
  set (r0 := (n mod 64)%N) in *. set (q1 := (n / 64)%N) in *. set (r1 := (q1 mod 64)%N) in *. set (q2 := (n / 4096)%N) in *. set (r2 := (q2 mod 64)%N) in *. set (q3 := (n / 262144)%N) in *.
  set (s1 := (n mod 4096)%N) in *. set (s2 := (n mod 262144)%N) in *. clearbody r0 q1 r1 q2 r2 q3 s1 s2.
  destruct (N.ltb_spec n 128); [lia|]. destruct (N.ltb_spec n 2048); [rewrite !N_byte by lia; lia|].
  destruct (N.ltb_spec n 65536); rewrite !N_byte by lia; lia.
Qed.
(** Different references stand for different characters. *)
Theorem C68_references_differ m n : (m < 1114112 -> n < 1114112 -> utf8 m = utf8 n -> m = n)%N.
Proof. intros M N E. apply (f_equal utf8_number) in E. rewrite !C68_utf8 in E by assumption. congruence. Qed.

Fixpoint is_one_of (l : string) (c : ascii) : bool := match l with "" => false | String d r => Ascii.eqb c d || is_one_of r c end.
(** The classes of characters are those of the recommendation. *)
Theorem C68_characters c :
  (xml_ws c = true <-> is_blank c) /\ (xml_bad c = true <-> is_control c) /\
  (name_start c = true <-> starts_name c) /\ (name_char c = true <-> in_name c) /\
  (forall v, digit_of 10 c = Some v <-> decimal_digit c v) /\ (forall v, digit_of 16 c = Some v <-> hex_digit c v).
Proof.
  assert (R : forall b b' (P : Prop), b = b' -> Bool.reflect P b' -> (b = true <-> P)) by (intros b b' P -> H; symmetry; apply Bool.reflect_iff; exact H).
  assert (I : forall l, Bool.reflect (one_of l c) (is_one_of l c)).
  { induction l as [|d l IH]; cbn; [constructor; intros []|]. destruct (Ascii.eqb_spec c d) as [E|E]; cbn; [constructor; now left|]. destruct IH; constructor; tauto. }
  assert (OR : forall P Q b d, Bool.reflect P b -> Bool.reflect Q d -> Bool.reflect (P \/ Q) (b || d)) by (intros P Q b d H K; destruct H, K; constructor; tauto).
  assert (S : Bool.reflect (starts_name c) (is_one_of letters c || (is_one_of "_:" c || N.leb 128 (N_of_ascii c)))).
  { apply OR; [apply I|]. apply OR; [apply I|]. apply N.leb_spec0. }
  split; [|split; [|split; [|split; [|split]]]].
  - unfold is_blank, In. destruct c as [[] [] [] [] [] [] [] []]; vm_compute; intuition discriminate.
  - unfold is_control, is_blank, In. destruct c as [[] [] [] [] [] [] [] []]; vm_compute; intuition discriminate.
  - eapply R; [|exact S]. destruct c as [[] [] [] [] [] [] [] []]; vm_compute; reflexivity.
  - eapply R; [|apply OR; [exact S|apply I]]. destruct c as [[] [] [] [] [] [] [] []]; vm_compute; reflexivity.
  - intros v. unfold decimal_digit. replace (place "0123456789" c) with (digit_of 10 c); [tauto|]. destruct c as [[] [] [] [] [] [] [] []]; vm_compute; reflexivity.
  - intros v. unfold hex_digit. destruct c as [[] [] [] [] [] [] [] []]; vm_compute; intuition discriminate.
Qed.
Theorem C68_char_numbers n : xml_char n = true <-> is_char n.
Proof.
  unfold xml_char, is_char. rewrite !Bool.orb_true_iff, !Bool.andb_true_iff, !N.eqb_eq, !N.leb_le. lia.
Qed.
Theorem C68_line_ends s t : line_ends s = t <-> normal s t.
Proof.
  split.
  - intros <-. remember (String.length s) as n eqn:L. assert (LE : (String.length s <= n)%nat) by lia. clear L. revert s LE.
    induction n as [|n IH]; intros [|c s] L; cbn in L; try lia; try constructor. cbn [line_ends].
    destruct (Ascii.eqb_spec c (ascii_of_nat 13)) as [->|N]; [|constructor; [exact N|apply IH; lia]].
    destruct s as [|d s]; [apply normal_cr; [intros [r H]; discriminate|constructor]|].
    destruct (Ascii.eqb_spec d (ascii_of_nat 10)) as [->|N].
    + cbn [line_ends]. change (Ascii.eqb (ascii_of_nat 10) (ascii_of_nat 13)) with false. cbv iota. apply normal_crlf, IH. cbn in L. lia.
    + apply normal_cr; [intros [r H]; injection H as E _; now apply N|]. apply IH. lia.
  - induction 1 as [|s t _ <-|s t N _ <-|c s t N _ <-]; cbn [line_ends].
    + reflexivity.
    + reflexivity.
    + change (Ascii.eqb cr (ascii_of_nat 13)) with true. cbv iota. destruct s as [|d s]; [reflexivity|]. destruct (Ascii.eqb_spec d (ascii_of_nat 10)) as [->|_]; [|reflexivity]. exfalso. apply N. now exists s.
    + destruct (Ascii.eqb_spec c (ascii_of_nat 13)) as [->|_]; [now destruct N|reflexivity].
Qed.

(** ** Examples *)
Definition plain : string :=
  "<AUTOSAR><AR-PACKAGES><AR-PACKAGE><SHORT-NAME>P</SHORT-NAME><ELEMENTS><UNIT UUID=""a&lt;b""><SHORT-NAME>Km</SHORT-NAME><DISPLAY-NAME>" ++ utf8 8364 ++ " &amp; &lt;km&gt;</DISPLAY-NAME></UNIT></ELEMENTS></AR-PACKAGE></AR-PACKAGES></AUTOSAR>".
Definition fancy : string :=
  bom ++ "<?xml version='1.0' encoding=""UTF-8"" ?>" ++ String cr (String nl "<!-- a > b --><?tool do it?><AUTOSAR  ><AR-PACKAGES><AR-PACKAGE><SHORT-NAME>&#80;</SHORT-NAME ><ELEMENTS><!-- the units --><UNIT UUID = 'a&#x3C;b' ><SHORT-NAME><![CDATA[Km]]></SHORT-NAME><DISPLAY-NAME>&#x20aC; <![CDATA[& <k]]>m&gt;</DISPLAY-NAME></UNIT><?x?></ELEMENTS></AR-PACKAGE></AR-PACKAGES></AUTOSAR> <!-- end -->").
Definition plain_tree : xml := ltac:(let t := eval vm_compute in (match parse plain with Ok x => x | Err _ => Elem "" nil "" nil nil end) in exact t).
Example C68_plain_and_fancy : spelled_document plain_tree plain /\ spelled_document plain_tree fancy /\
  (exists d, snd (read_str 51 plain true) = Ok d) /\ read_str 51 fancy true = read_str 51 plain true.
Proof.
  assert (P : spelled_document plain_tree plain) by (apply C68_exact; vm_compute; reflexivity).
  assert (F : spelled_document plain_tree fancy) by (apply C68_exact; vm_compute; reflexivity).
  split; [exact P|]. split; [exact F|]. split; [eexists; vm_compute; reflexivity|]. exact (C68_same_reading 51 true _ _ _ F P).
Qed.
Example C68_place : before_tag (Elem "A" nil "" (Elem "B" nil "x" nil nil :: nil) ("" :: nil)) "<A><B>x" "</B></A>".
Proof.
  apply (before_inside "A" nil "" "" "" nil nil "" (Elem "B" nil "x" nil nil) "<B>x" "</B>" "" "" nil nil "" "").
  - now split.
  - now constructor.
  - constructor; constructor; constructor.
  - constructor.
  - apply (before_here "B" nil "" "x" "x" nil nil "" nil nil "" ""); [now split|now constructor| |constructor|constructor|reflexivity].
    constructor; constructor. apply (chars_literal false "<" "x" "" ""); try discriminate; [reflexivity| |constructor]. intros _ [r H]. discriminate.
  - constructor; constructor; constructor.
  - constructor.
  - reflexivity.
Qed.
Example C68_malformed_example : parse "<A><B></A></B>" = Err ParseError /\ ~ exists x, spelled_document x "<A><B></A></B>".
Proof. split; [vm_compute; reflexivity|]. intros [x H]. apply C68_exact in H. vm_compute in H. discriminate. Qed.
Example C68_utf8_examples : utf8 233 = String (ascii_of_nat 195) (String (ascii_of_nat 169) "") /\ String.length (utf8 8364) = 3 /\ String.length (utf8 128512) = 4.
Proof. split; [reflexivity|]. split; reflexivity. Qed.

Print Assumptions C68_exact.
Print Assumptions C68_unambiguous.
Print Assumptions C68_same_reading.
Print Assumptions C68_rearranged.
Print Assumptions C68_malformed.
Print Assumptions C68_aside_before_tag.
Print Assumptions C68_aside_around.
Print Assumptions C68_comment_cuts_text.
Print Assumptions C68_comment_refuted.
Print Assumptions C68_utf8.
Print Assumptions C68_utf8_shape.
Print Assumptions C68_characters.
Print Assumptions C68_char_numbers.
Print Assumptions C68_line_ends.
Print Assumptions C68_references_differ.
