(** Property theorems about which texts are numbers (C54).
    Vocabulary: SLiteral.v.  The model of the code: MNum.v (texts) and MCodec.v, MElemA.v, MElemB.v
    (XML elements holding them). *)
From Coq Require Import QArith.
From Verif Require Import Base PBase MNames MNum SNum MXml MCodec MElem0 MElem1 MElemA MElemB SLiteral PNum PNum2 PLiteral PLiteral2.
Open Scope list_scope.
Open Scope string_scope.

Lemma int10_none s : int10 s = None <-> forall z, ~ decimal_text s z.
Proof.
  destruct (int10 s) as [z|] eqn:E; split; try discriminate; auto.
  - intros H. apply int10_iff in E. now destruct (H z).
  - intros _ z H. apply int10_iff in H. congruence.
Qed.
Lemma int0_none s : int0 s = None <-> forall z, ~ integer_text s z.
Proof.
  destruct (int0 s) as [z|] eqn:E; split; try discriminate; auto.
  - intros H. apply int0_iff in E. now destruct (H z).
  - intros _ z H. apply int0_iff in H. congruence.
Qed.
Lemma float_none s : float_of s = None <-> forall f, ~ float_text s f.
Proof.
  destruct (float_of s) as [f|] eqn:E; split; try discriminate; auto.
  - intros H. apply float_of_iff in E. now destruct (H f).
  - intros _ f H. apply float_of_iff in H. congruence.
Qed.

(** ** C54: texts *)
(** A text reads as an integer exactly when it is written like one: blanks, a sign, decimal digits
    without leading zeros or hexadecimal, octal or binary ones behind their prefix, single underscores
    between digits. *)
Theorem C54_read_integer : forall s z, read_integer s = Ok z <-> integer_text s z.
Proof. intros s z. unfold read_integer. rewrite <- int0_iff. destruct (int0 s); split; congruence. Qed.
Theorem C54_read_integer_error : forall s e, read_integer s = Err e <-> e = ParseError /\ forall z, ~ integer_text s z.
Proof. intros s e. unfold read_integer. rewrite <- int0_none. destruct (int0 s); split; try intros [? ?]; try congruence. intros H. injection H as <-. auto. Qed.
(** A text reads as an int when it is a decimal numeral (leading zeros allowed), otherwise as the float it
    is written as. *)
Theorem C54_read_number : forall s n, read_number s = Ok n <-> number_text s n.
Proof.
  intros s n. unfold read_number, number_text. destruct (int10 s) as [z|] eqn:I.
  - split; [intros E; injection E as <-; now apply int10_iff|]. destruct n as [y|f].
    + intros H. apply int10_iff in H. congruence.
    + intros [_ N]. apply int10_iff in I. now destruct (N z).
  - pose proof (proj1 (int10_none s) I) as N. destruct (float_of s) as [f|] eqn:F.
    + split; [intros E; injection E as <-; apply float_of_iff in F; auto|]. destruct n as [y|g].
      * intros H. now destruct (N y).
      * intros [H _]. apply float_of_iff in H. congruence.
    + split; [discriminate|]. destruct n as [y|g].
      * intros H. now destruct (N y).
      * intros [H _]. apply float_of_iff in H. congruence.
Qed.
Theorem C54_read_number_error : forall s e, read_number s = Err e <-> e = ParseError /\ forall n, ~ number_text s n.
Proof.
  intros s e. split.
  - intros H. split; [unfold read_number in H; destruct (int10 s), (float_of s); congruence|]. intros n T. apply C54_read_number in T. congruence.
  - intros [-> N]. unfold read_number. destruct (int10 s) as [z|] eqn:I; [apply int10_iff in I; now destruct (N (NInt z))|]. pose proof (proj1 (int10_none s) I) as NI.
    destruct (float_of s) as [f|] eqn:F; [|reflexivity]. apply float_of_iff in F. now destruct (N (NFloat f)).
Qed.
(** The value object of a text holds the integer it is written as, otherwise the float, and remembers a
    prefix 0x or 0b that the text begins with; other texts are refused. *)
Theorem C54_numerical_value : forall s asked v,
  nv_new (AText s) asked = Ok v <-> numerical_text s (nv_value v) /\ format_of_text asked s (nv_format v).
Proof.
  intros s asked v. assert (V : forall n, nv_validate (AText s) = Ok n <-> numerical_text s n).
  { intros n. cbn [nv_validate]. unfold numerical_text. destruct (int0 s) as [z|] eqn:I.
    - split; [intros E; injection E as <-; now apply int0_iff|]. destruct n as [y|f].
      + intros H. apply int0_iff in H. congruence.
      + intros [_ N]. apply int0_iff in I. now destruct (N z).
    - pose proof (proj1 (int0_none s) I) as N. destruct (float_of s) as [f|] eqn:F.
      + split; [intros E; injection E as <-; apply float_of_iff in F; auto|]. destruct n as [y|g].
        * intros H. now destruct (N y).
        * intros [H _]. apply float_of_iff in H. congruence.
      + split; [discriminate|]. destruct n as [y|g].
        * intros H. now destruct (N y).
        * intros [H _]. apply float_of_iff in H. congruence. }
  assert (P : forall p r, starts_with p r = true <-> exists q, r = p ++ q).
  { clear. induction p as [|c p IH]; intros r; unfold starts_with.
    - cbn. split; eauto.
    - destruct r as [|d r]; cbn [strip_prefix]; [split; [discriminate|intros [q E]; discriminate]|]. destruct (Ascii.eqb_spec c d) as [->|N].
      + rewrite (IH r : (match strip_prefix p r with Some _ => true | None => false end = true <-> _)). cbn. split; intros [q E]; exists q; congruence.
      + split; [discriminate|]. intros [q E]. injection E as E _. congruence. }
  assert (F : forall g, (if starts_with "0x" s then FMT_HEXADECIMAL else if starts_with "0b" s then FMT_BINARY else asked) = g <-> format_of_text asked s g).
  { intros g. pose proof (P "0x" s) as X. pose proof (P "0b" s) as B. destruct (starts_with "0x" s).
    - destruct (proj1 X eq_refl) as [q ->]. split; [intros <-; constructor|]. intros H. remember ("0x" ++ q) as t. destruct H as [|r|r Nx Nb]; [reflexivity|discriminate|now destruct (Nx q)].
    - destruct (starts_with "0b" s).
      + destruct (proj1 B eq_refl) as [q ->]. split; [intros <-; constructor|]. intros H. remember ("0b" ++ q) as t. destruct H as [r|r|r Nx Nb]; [discriminate|reflexivity|now destruct (Nb q)].
      + split.
        * intros <-. apply format_other; intros r ->; [assert (false = true) by (apply X; eauto)|assert (false = true) by (apply B; eauto)]; discriminate.
        * intros H. remember s as t eqn:T. destruct H as [r|r|r _ _]; [assert (false = true) by (apply X; eauto)|assert (false = true) by (apply B; eauto)|]; congruence. }
  unfold nv_new. destruct (nv_validate (AText s)) as [n|e] eqn:E; cbn [bind].
  - split.
    + intros H. injection H as <-. cbn [nv_value nv_format]. split; [now apply V|now apply F].
    + intros [H G]. apply V in H. apply F in G. injection H as ->. rewrite G. now destruct v.
  - split; [discriminate|]. intros [H _]. apply V in H. discriminate.
Qed.
Theorem C54_numerical_value_error : forall s asked e,
  nv_new (AText s) asked = Err e <-> e = ValueError /\ (forall z, ~ integer_text s z) /\ (forall f, ~ float_text s f).
Proof.
  intros s asked e. rewrite <- int0_none, <- float_none. unfold nv_new, nv_validate. destruct (int0 s), (float_of s); cbn [bind]; split; try (intros (? & ? & ?); congruence); try discriminate.
  intros H. injection H as <-. auto.
Qed.
Theorem C54_positive_value : forall s n, pos_validate (AText s) = Ok n <-> integer_text s (Z.of_N n).
Proof.
  intros s n. cbn [pos_validate]. rewrite <- int0_iff. destruct (int0 s) as [z|]; [|split; discriminate]. destruct (Z.ltb_spec z 0) as [L|L].
  - split; [discriminate|]. intros H. injection H as ->. lia.
  - split; intros H; injection H as H; [subst n; f_equal; lia|f_equal; lia].
Qed.
Theorem C54_positive_value_error : forall s e, pos_validate (AText s) = Err e <->
  (e = ValueError /\ exists z, integer_text s z /\ (z < 0)%Z) \/ (e = TypeError /\ forall z, ~ integer_text s z).
Proof.
  intros s e. cbn [pos_validate]. rewrite <- int0_none. destruct (int0 s) as [z|] eqn:I.
  - destruct (Z.ltb_spec z 0) as [L|L].
    + split; [intros H; injection H as <-; left; split; [reflexivity|]; exists z; split; [now apply int0_iff|exact L]|]. intros [[-> _]|[_ H]]; [reflexivity|discriminate].
    + split; [discriminate|]. intros [[_ (y & Y & N)]|[_ H]]; [|discriminate]. apply int0_iff in Y. rewrite I in Y. injection Y as ->. lia.
  - split; [intros H; injection H as <-; auto|]. intros [[_ (y & Y & _)]|[-> _]]; [|reflexivity]. apply int0_iff in Y. congruence.
Qed.
(** No text is written like two numbers. *)
Theorem C54_one_value : forall s,
  (forall y z, integer_text s y -> integer_text s z -> y = z) /\ (forall y z, decimal_text s y -> decimal_text s z -> y = z) /\
  (forall f g, float_text s f -> float_text s g -> f = g) /\ (forall y z, integer_text s y -> decimal_text s z -> y = z).
Proof.
  intros s. repeat split; intros y z H K.
  - apply int0_iff in H, K. congruence.
  - apply int10_iff in H, K. congruence.
  - apply float_of_iff in H, K. congruence.
  - assert (A : forall r n m, literal r n -> decimal r m -> n = m).
    { clear. intros r n m [c t ds D N|t ds D Z|x base u t ds B U D] (es & E & ->); pose proof (proj2 (digits_value 10 _ (value 10 es)) (ex_intro _ es (conj E eq_refl))) as V.
      - pose proof (proj2 (digits_value 10 _ (value 10 ds)) (ex_intro _ ds (conj D eq_refl))) as W. congruence.
      - pose proof (proj2 (digits_value 10 _ (value 10 ds)) (ex_intro _ ds (conj D eq_refl))) as W. congruence.
      - exfalso. clear - B V. destruct B; cbn in V; discriminate V. }
    pose proof (proj2 (int0_iff s y) H) as H0. pose proof (proj2 (int10_iff s z) K) as K0. unfold int0, int10 in H0, K0. destruct (take_sign (strip s)) as [neg r].
    change (option_map (signed neg) (int0_body r) = Some y) in H0. destruct (int0_body r) as [n|] eqn:I; [|discriminate]. cbn in H0. injection H0 as <-.
    destruct (digits_in 10 r false 0) as [m|] eqn:M; [|discriminate]. cbn in K0. injection K0 as <-.
    apply int0_body_iff in I. apply (digits_value 10) in M. now rewrite (A r n m I M).
Qed.

(** ** C54: elements of a document *)
(** The number elements of a document read as the number their text is written as; an empty element and
    other texts are refused. *)
Lemma no_integer z : ~ integer_text "" z.
Proof. intros H. apply int0_iff in H. discriminate. Qed.
Lemma no_decimal z : ~ decimal_text "" z.
Proof. intros H. apply int10_iff in H. discriminate. Qed.
Lemma no_float f : ~ float_text "" f.
Proof. intros H. apply float_of_iff in H. discriminate. Qed.
Theorem C54_number_element : forall x n, rd_number x = Ok n <-> number_text (x_text x) n.
Proof.
  intros x n. rewrite <- C54_read_number. unfold rd_number, text_opt. destruct (x_text x); [|reflexivity]. split; discriminate.
Qed.
Theorem C54_integer_element : forall x z, rd_integer x = Ok z <-> integer_text (x_text x) z.
Proof. intros x n. rewrite <- C54_read_integer. unfold rd_integer, text_opt. destruct (x_text x); [|reflexivity]. split; discriminate. Qed.
Theorem C54_int_element : forall x z, rd_int x = Ok z <-> decimal_text (x_text x) z.
Proof. intros x z. rewrite <- int10_iff. unfold rd_int, text_opt. destruct (x_text x) as [|c t]; [split; discriminate|]. destruct (int10 _); split; congruence. Qed.
Theorem C54_float_element : forall x n, rd_float x = Ok n <-> exists f, n = NFloat f /\ float_text (x_text x) f.
Proof.
  intros x n. unfold rd_float, text_opt. destruct (x_text x) as [|c t]; [split; [discriminate|intros (f & _ & H); now destruct (no_float f)]|].
  destruct (float_of _) as [f|] eqn:F.
  - split; [intros H; injection H as <-; apply float_of_iff in F; eauto|]. intros (g & -> & H). apply float_of_iff in H. congruence.
  - split; [discriminate|]. intros (g & -> & H). apply float_of_iff in H. congruence.
Qed.
Theorem C54_positive_element : forall x z, rd_positive x = Ok z <-> (0 <= z)%Z /\ integer_text (x_text x) z.
Proof.
  intros x z. unfold rd_positive, text_opt. destruct (x_text x) as [|c t]; [split; [discriminate|intros (_ & H); now destruct (no_integer z)]|].
  destruct (pos_validate (AText (String c t))) as [n|e] eqn:E; cbn [bind].
  - apply C54_positive_value in E. split; [intros H; injection H as <-; split; [lia|exact E]|]. intros [_ H]. f_equal. exact (proj1 (C54_one_value _) _ _ E H).
  - split; [discriminate|]. intros [L H]. rewrite <- (Z2N.id z L) in H. apply C54_positive_value in H. congruence.
Qed.
Theorem C54_value_element : forall x v, rd_numval x = Ok v <-> numerical_text (x_text x) (nv_value v) /\ format_of_text FMT_DEFAULT (x_text x) (nv_format v).
Proof.
  intros x v. rewrite <- C54_numerical_value. unfold rd_numval, text_opt. destruct (x_text x); [|reflexivity]. split; discriminate.
Qed.
(** Where a number or a text is allowed the element is the number if it is written as one. *)
Theorem C54_index_element : forall x i, rd_index x = Ok i <->
  x_text x <> "" /\ match i with IInt z => decimal_text (x_text x) z | IText s => s = x_text x /\ forall z, ~ decimal_text s z end.
Proof.
  intros x i. unfold rd_index, text_opt. destruct (x_text x) as [|c t]; [split; [discriminate|intros [H _]; congruence]|]. destruct (int10 (String c t)) as [z|] eqn:I.
  - apply int10_iff in I. split; [intros H; injection H as <-; split; [discriminate|exact I]|]. intros [_ H]. destruct i as [y|s].
    + f_equal. f_equal. exact (proj1 (proj2 (C54_one_value _)) _ _ I H).
    + destruct H as [-> H]. now destruct (H z).
  - pose proof (proj1 (int10_none _) I) as N. split; [intros H; injection H as <-; split; [discriminate|auto]|]. intros [_ H]. destruct i as [y|s]; [now destruct (N y)|]. now destruct H as [-> _].
Qed.
Theorem C54_alignment_element : forall x i, rd_alignment x = Ok i <->
  x_text x <> "" /\ match i with IInt z => integer_text (x_text x) z | IText s => s = x_text x /\ forall z, ~ integer_text s z end.
Proof.
  intros x i. unfold rd_alignment, text_opt. destruct (x_text x) as [|c t]; [split; [discriminate|intros [H _]; congruence]|]. destruct (int0 (String c t)) as [z|] eqn:I.
  - apply int0_iff in I. split; [intros H; injection H as <-; split; [discriminate|exact I]|]. intros [_ H]. destruct i as [y|s].
    + f_equal. f_equal. exact (proj1 (C54_one_value _) _ _ I H).
    + destruct H as [-> H]. now destruct (H z).
  - pose proof (proj1 (int0_none _) I) as N. split; [intros H; injection H as <-; split; [discriminate|auto]|]. intros [_ H]. destruct i as [y|s]; [now destruct (N y)|]. now destruct H as [-> _].
Qed.

(** ** Concrete cases *)
Example C54_hexadecimal : integer_text " -0x_1F " (-31).
Proof.
  apply (sign_negative literal " " "0x_1F" 31 " "); cbn; unfold white; cbn; [tauto ..|].
  apply (literal_based "x" 16 "_" "1F" [1; 15]%N); [constructor|auto|]. apply digits_more; [|apply digits_one]; (split; [cbn; tauto|reflexivity]).
Qed.
Example C54_thousand : exists f, float_text "1_000.5e-3" f /\ f = FFin false 10005 (-4).
Proof. exists (FFin false 10005 (-4)). split; [|reflexivity]. now apply float_of_iff. Qed.
Example C54_same_text_two_readers : read_number "007" = Ok (NInt 7) /\ read_integer "007" = Err ParseError /\ read_number "0x1F" = Err ParseError /\ read_integer "0x1F" = Ok 31%Z.
Proof. repeat split. Qed.
(** A leading zero makes the value object a float, and a blank hides the prefix. *)
Example C54_leading_zero : nv_new (AText "007") FMT_DEFAULT = Ok (mkNum (NFloat (FFin false 7 0)) FMT_DEFAULT).
Proof. reflexivity. Qed.
Example C54_hidden_prefix : nv_new (AText " 0x1F") FMT_DEFAULT = Ok (mkNum (NInt 31) FMT_DEFAULT) /\ nv_new (AText "0x1F") FMT_DEFAULT = Ok (mkNum (NInt 31) FMT_HEXADECIMAL).
Proof. split; reflexivity. Qed.
Example C54_infinity : read_number "InFinity" = Ok (NFloat (FInf false)) /\ read_number "-iNf" = Ok (NFloat (FInf true)).
Proof. split; reflexivity. Qed.
Example C54_rejected : forall n, ~ number_text "1__0" n /\ ~ number_text "_1" n /\ ~ number_text "1e" n /\ ~ number_text "." n /\ ~ number_text "0x10" n.
Proof. intros n. repeat split; intros H; apply C54_read_number in H; discriminate. Qed.
Example C54_rejected_integers : forall z, ~ integer_text "0x" z /\ ~ integer_text "0b2" z /\ ~ integer_text "00_1" z /\ ~ integer_text "- 1" z.
Proof. intros n. repeat split; intros H; apply C54_read_integer in H; discriminate. Qed.

Print Assumptions C54_read_integer.
Print Assumptions C54_read_integer_error.
Print Assumptions C54_read_number.
Print Assumptions C54_read_number_error.
Print Assumptions C54_numerical_value.
Print Assumptions C54_numerical_value_error.
Print Assumptions C54_positive_value.
Print Assumptions C54_positive_value_error.
Print Assumptions C54_one_value.
Print Assumptions C54_number_element.
Print Assumptions C54_integer_element.
Print Assumptions C54_int_element.
Print Assumptions C54_float_element.
Print Assumptions C54_positive_element.
Print Assumptions C54_value_element.
Print Assumptions C54_index_element.
Print Assumptions C54_alignment_element.
