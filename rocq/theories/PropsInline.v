(** Formatted text: C52. *)
From Verif Require Import Base PBase MNum SNum MXml SXml PXml PXml2 MEnum PEnum MRefTab MRef SEnum MCodec SCodec PCodec PPiece PIdent MStr SElem PSame SInline PInline.
Open Scope list_scope.

(** ** Creation *)
(** A line is created if and only if it may contain every inline element given, and then it has
    exactly the given language and parts; otherwise the constructor raises TypeError. *)
Theorem C52_line_created_iff line l parts t : a_line line ->
  (new_lang line l parts = Ok t <-> t = mkLang l parts /\ forall i, In (PInline i) parts -> may_contain line i).
Proof.
  intros L. rewrite new_lang_eq. destruct (forallb _ parts) eqn:F.
  - rewrite all_parts in F. split; [|intros [-> _]; reflexivity]. intros E. injection E as <-. split; auto. intros i I. apply admits_iff; auto.
  - split; [discriminate|]. intros [_ H]. assert (X : forall i, In (PInline i) parts -> admits line i = true) by (intros; apply admits_iff; auto).
    apply all_parts in X. congruence.
Qed.
Theorem C52_line_refused line l parts e : new_lang line l parts = Err e -> e = TypeError.
Proof. rewrite new_lang_eq. destruct (forallb _ parts); congruence. Qed.
(** Superscripts are documented parts of a long name, an overview and a paragraph; no line accepts one. *)
Theorem C52_superscript_refuted line l parts s : a_line line -> In (PInline (ISuperscript s)) parts -> new_lang line l parts = Err TypeError.
Proof.
  intros L I. destruct (new_lang line l parts) as [t|e] eqn:E; [|now rewrite (C52_line_refused _ _ _ _ E)].
  apply C52_line_created_iff in E as [_ H]; auto. specialize (H _ I). inversion H.
Qed.
(** Unit names accept subscripts and superscripts only. *)
Theorem C52_unit_names_created_iff parts l :
  new_unit_names parts = Ok l <-> l = parts /\ forall i, In (PInline i) parts -> exists s, i = ISubscript s \/ i = ISuperscript s.
Proof.
  rewrite new_unit_names_eq. destruct (forallb _ parts) eqn:F.
  - rewrite all_parts in F. split; [|intros [-> _]; reflexivity]. intros E. injection E as <-. split; auto. intros i I. specialize (F i I). destruct i; try discriminate; eauto.
  - split; [discriminate|]. intros [_ H]. assert (X : forall i, In (PInline i) parts -> admits_unit i = true) by (intros i I; destruct (H i I) as (s & [-> | ->]); reflexivity).
    apply all_parts in X. congruence.
Qed.

Example C52_created_example :
  new_lang "L-1" Language_EN [PText "See "; PInline (ITechnicalTerm (Some "Rte") None None); PInline IBreak; PInline (ISubscript (Some "i"))]
    = Ok (mkLang Language_EN [PText "See "; PInline (ITechnicalTerm (Some "Rte") None None); PInline IBreak; PInline (ISubscript (Some "i"))])
  /\ new_lang "L-4" Language_EN [PText "a"; PInline IBreak] = Err TypeError
  /\ new_lang "L-5" Language_EN [PInline (IIndexEntry (Some "x"))] = Err TypeError
  /\ new_lang "L-2" Language_EN [PText "m"; PInline (ISuperscript (Some "2"))] = Err TypeError
  /\ new_unit_names [PText "m/s"; PInline (ISuperscript (Some "2"))] = Ok [PText "m/s"; PInline (ISuperscript (Some "2"))]
  /\ new_unit_names [PInline IBreak] = Err TypeError.
Proof. repeat split. Qed.

(** ** Markup *)
(** A created line is written as its start tag with the language, the markup of the parts one after
    the other, and the end tag; writing fails exactly if some part has no text. *)
Theorem C52_line_text line l parts t s text : a_line line -> new_lang line l parts = Ok t -> enum_text em_Language l = Ok s ->
  (element_text (write_lang line t) = Ok text <->
   exists ms, Forall2 markup parts ms /\ text = (start line [("L", s)] ++ ">" ++ join "" ms ++ "</" ++ line ++ ">")%string).
Proof.
  intros L N E. rewrite new_lang_eq in N. destruct (forallb _ parts) eqn:F; [|discriminate]. injection N as <-. rewrite all_parts in F.
  apply lang_text_iff; cbn [lt_parts lt_language]; auto. intros i I. apply admits_writes; auto.
Qed.
Theorem C52_unit_names_text tag parts l text : new_unit_names parts = Ok l ->
  (element_text (write_unit_names tag l) = Ok text <->
   exists ms, Forall2 markup parts ms /\ text = (start tag [] ++ ">" ++ join "" ms ++ "</" ++ tag ++ ">")%string).
Proof.
  intros N. rewrite new_unit_names_eq in N. destruct (forallb _ parts) eqn:F; [|discriminate]. injection N as <-. rewrite all_parts in F. now apply names_text_iff.
Qed.
(** The markup of a part is unique, and missing only if the part is an inline element without text. *)
Theorem C52_markup_unique p m m' : markup p m -> markup p m' -> m = m'.
Proof. intros H H'. destruct H; inversion H'; subst; reflexivity. Qed.
Theorem C52_markup_exists p : (exists m, markup p m) <->
  match p with
  | PInline (IEmphasis None _ _ _) | PInline (IIndexEntry None) | PInline (ISubscript None) | PInline (ISuperscript None) | PInline (ITechnicalTerm None _ _) => False
  | _ => True
  end.
Proof.
  split; [intros (m & H); destruct H; exact I|]. destruct p as [s|[|[s|] c f y|[s|]|[s|]|[s|]|[s|] x y]]; intros []; eexists; constructor.
Qed.

Example C52_text_example :
  element_text (write_lang "L-1" (mkLang Language_EN
    [PText "Use "; PInline (IEmphasis (Some "only") (Some "red") (Some EmphasisFont_MONO) (Some EmphasisType_BOLD)); PText " with ";
     PInline (ITechnicalTerm (Some "Rte") None (Some "SW")); PInline IBreak; PText "now"]))
  = Ok ("<L-1 L=" ++ quote ++ "EN" ++ quote ++ ">Use <E COLOR=" ++ quote ++ "red" ++ quote ++ " FONT=" ++ quote ++ "MONO" ++ quote ++ " TYPE=" ++ quote ++ "BOLD" ++ quote
        ++ ">only</E> with <TT TYPE=" ++ quote ++ "SW" ++ quote ++ ">Rte</TT><BR/>now</L-1>")%string
  /\ element_text (write_unit_names "DISPLAY-NAME" [PText "m/s"; PInline (ISuperscript (Some "2"))]) = Ok "<DISPLAY-NAME>m/s<SUP>2</SUP></DISPLAY-NAME>"
  /\ element_text (write_lang "L-4" (mkLang Language_EN [PInline (IIndexEntry None)])) = Err AssertionError
  /\ element_text (write_lang "L-4" (mkLang Language_EN [PInline (IEmphasis None None None None)])) = Err NotImplementedError.
Proof. repeat split; vm_compute; reflexivity. Qed.

(** ** Reading back *)
(** The property asks that every line that can be created and written is read back unchanged.  It is
    not so: of the lines whose texts need no escaping, exactly those are read back that consist of a
    text and of technical terms, each followed by nothing or by that same text. *)
Theorem C52_line_read_back_iff_partial line t : a_line line -> clean (lt_parts t) ->
  (reloads_as (write_lang line) (read_lang line) t t <-> made_of a_term (lt_parts t)).
Proof. apply lang_read_iff. Qed.
(** Unit names: subscripts and superscripts, each followed by nothing or by the first text; adjacent
    texts may be joined. *)
Theorem C52_unit_names_read_back_iff_partial tag parts : name_okb tag = true -> clean parts ->
  ((exists l, reloads_as (write_unit_names tag) read_unit_names parts l /\ same_names parts l) <-> made_of a_script (merged parts)).
Proof. apply names_read_iff. Qed.
(** A line with any other inline element is written, and then reading it fails. *)
Theorem C52_formatting_refuted line t text i : a_line line -> clean (lt_parts t) -> In (PInline i) (lt_parts t) ->
  (forall s x y, i <> ITechnicalTerm s x y) -> element_text (write_lang line t) = Ok text ->
  exists e, read_element (read_lang line) text = Err e.
Proof. intros L C I N. apply lang_fails with (i := i); auto. destruct i; auto. now destruct (N text0 tex_render type). Qed.
(** Text after a technical term is replaced by the text before the first one. *)
Theorem C52_text_after_term_refuted line l s1 s2 s x y : a_line line -> good_text s1 -> good_text s2 -> good_text s ->
  opt_ok safe_attr x -> opt_ok safe_attr y ->
  reloads_as (write_lang line) (read_lang line)
    (mkLang l [PText s1; PInline (ITechnicalTerm (Some s) x y); PText s2])
    (mkLang l [PText s1; PInline (ITechnicalTerm (Some s) x y); PText s1]).
Proof.
  intros L [N1 S1] [N2 S2] G X Y.
  assert (TC : crosses (writes line) (read_inline line) (ITechnicalTerm (Some s) x y)) by (apply term_crosses; cbn; auto).
  destruct TC as (O & tag & a & z & W & N & A & Z & R). destruct (ok_Language l) as (lt & WL & RL & _ & _ & AL).
  apply (carries_reloads _ _ line). unfold write_lang. cbn [lt_language lt_parts write_parts]. rewrite WL, O, W. cbn [bind]. rewrite !str_app_nil_r.
  apply e_line; auto using line_name.
  - now apply attrs_ok_one.
  - constructor; auto. unfold good_mark. auto.
  - unfold read_lang. cbn [x_attrs assoc]. rewrite String.eqb_refl, RL. cbn [bind]. rewrite read_mixed_eq. cbn [map with_tails mapM mk_tail].
    change (mark_elem (mkMark tag a z s2)) with (Elem tag a z [] []). unfold read_tail. cbn [fst snd]. rewrite R. cbn [bind]. apply String.eqb_neq in N2. rewrite N2.
    destruct s1; [congruence|reflexivity].
Qed.
(** If there is no text before the term, reading fails. *)
Theorem C52_text_after_first_term_refuted line l s2 s x y text : a_line line -> good_text s2 -> good_text s -> opt_ok safe_attr x -> opt_ok safe_attr y ->
  element_text (write_lang line (mkLang l [PInline (ITechnicalTerm (Some s) x y); PText s2])) = Ok text ->
  read_element (read_lang line) text = Err TypeError.
Proof.
  intros L [N2 S2] [NS S] X Y E.
  assert (TC : crosses (writes line) (read_inline line) (ITechnicalTerm (Some s) x y)) by (apply term_crosses; cbn; split; auto; split; auto).
  destruct TC as (O & tag & a & z & W & N & A & Z & R).
  assert (C : clean [PInline (ITechnicalTerm (Some s) x y); PText s2]).
  { unfold clean. cbn [clean_from clean_inline opt_ok append]. splits; auto using safe_nil. }
  destruct (read_written line (mkLang l [PInline (ITechnicalTerm (Some s) x y); PText s2]) text L C E) as (w & ms & WP & RE). cbn [lt_parts write_parts] in WP. rewrite O, W in WP. cbn [bind] in WP. injection WP as <- <-.
  rewrite (RE []), read_mixed_eq. cbn [map with_tails mapM mk_tail]. rewrite str_app_nil_r. unfold mark_elem. cbn [mk_tag mk_attrs mk_text].
  unfold read_tail. cbn [fst snd]. rewrite R. cbn [bind]. apply String.eqb_neq in N2. now rewrite N2.
Qed.
(** The same for unit names: the text after a superscript or subscript is replaced by the first text. *)
Theorem C52_text_after_script_refuted tag s1 s2 s i : name_okb tag = true -> good_text s1 -> good_text s2 -> good_text s ->
  i = ISubscript (Some s) \/ i = ISuperscript (Some s) ->
  reloads_as (write_unit_names tag) read_unit_names [PText s1; PInline i; PText s2] [PText s1; PInline i; PText s1].
Proof.
  intros L [N1 S1] [N2 S2] G I. assert (TC : crosses admits_unit read_unit_inline i) by (apply script_crosses; destruct I as [-> | ->]; exact G).
  destruct TC as (O & tg & a & z & W & N & A & Z & R). apply (carries_reloads _ _ tag). unfold write_unit_names. cbn [write_parts]. rewrite O, W. cbn [bind]. rewrite !str_app_nil_r.
  apply e_line; auto using attrs_ok_nil.
  - constructor; auto. unfold good_mark. auto.
  - unfold read_unit_names. rewrite read_mixed_eq. cbn [map with_tails mapM mk_tail].
    change (mark_elem (mkMark tg a z s2)) with (Elem tg a z [] []). unfold read_tail. cbn [fst snd]. rewrite R. cbn [bind]. apply String.eqb_neq in N2. rewrite N2.
    destruct s1; [congruence|reflexivity].
Qed.

Example C52_read_back_example :
  (let t := mkLang Language_FOR_ALL [PText "x"; PInline (ITechnicalTerm (Some "Rte") None (Some "SW")); PText "x"; PInline (ITechnicalTerm (Some "Os") (Some "q") None)] in
   clean (lt_parts t) /\ made_of a_term (lt_parts t) /\ reloads_as (write_lang "L-2") (read_lang "L-2") t t)
  /\ (let p := [PText "m"; PText "/s"; PInline (ISuperscript (Some "2"))] in
      clean p /\ made_of a_script (merged p) /\ reloads_as (write_unit_names "DISPLAY-NAME") read_unit_names p [PText "m/s"; PInline (ISuperscript (Some "2"))]).
Proof.
  assert (S : forall s, calmb s = true -> safe_text s) by (intros; now apply calm_safe, calmb_sound).
  split; cbv zeta.
  - assert (C : clean [PText "x"; PInline (ITechnicalTerm (Some "Rte") None (Some "SW")); PText "x"; PInline (ITechnicalTerm (Some "Os") (Some "q") None)]).
    { cbn -[safe_text safe_attr]. splits; auto; apply safe_attrb_sound; reflexivity. }
    assert (M : made_of a_term [PText "x"; PInline (ITechnicalTerm (Some "Rte") None (Some "SW")); PText "x"; PInline (ITechnicalTerm (Some "Os") (Some "q") None)]).
    { apply made_first; [discriminate|]. apply repeats_again; [eexists _, _, _; split; [|reflexivity]; discriminate|discriminate|]. apply repeats_plain; [eexists _, _, _; split; [|reflexivity]; discriminate|constructor]. }
    split; [exact C|]. split; [exact M|]. apply C52_line_read_back_iff_partial; auto. constructor.
  - split; [cbn -[safe_text safe_attr]; splits; auto|]. split.
    + apply made_first; [discriminate|]. apply repeats_plain; [|constructor]. exists "2". split; [discriminate|auto].
    + eexists. split; [vm_compute; reflexivity|vm_compute; reflexivity].
Qed.
(** One line of each kind of inline element: it is created and written, and reading the text fails. *)
Example C52_formatting_example :
  map (fun i => match new_lang "L-1" Language_EN [PText "a"; PInline i] with
                | Ok t => match element_text (write_lang "L-1" t) with Ok text => Some (read_element (read_lang "L-1") text) | Err _ => None end
                | Err _ => None end)
      [IBreak; IEmphasis (Some "b") None None None; IIndexEntry (Some "b"); ISubscript (Some "b")]
  = [Some (Err ParseError); Some (Err ParseError); Some (Err ParseError); Some (Err ParseError)].
Proof. vm_compute. reflexivity. Qed.
Example C52_text_after_example :
  (let* text := element_text (write_lang "L-4" (mkLang Language_EN [PText "The "; PInline (ITechnicalTerm (Some "Rte") None None); PText " module"])) in
   read_element (read_lang "L-4") text)
  = Ok (mkLang Language_EN [PText "The "; PInline (ITechnicalTerm (Some "Rte") None None); PText "The "]).
Proof. vm_compute. reflexivity. Qed.

(** ** Unit names given as a str *)
(** They are kept as one part per character; str() gives the text back, and reading gives one part. *)
Theorem C52_unit_names_of_str s :
  exists l, new_unit_names_str s = Ok l /\ l = map (fun c => PText (String c "")) (list_ascii_of_string s) /\ unit_names_str l = Ok s /\
    (good_text s -> forall tag, name_okb tag = true -> reloads_as (write_unit_names tag) read_unit_names l [PText s]).
Proof.
  exists (map (fun c => PText (String c "")) (list_ascii_of_string s)). split; [apply new_str|]. split; [reflexivity|]. split.
  - rewrite <- (str_chars s) at 2. rewrite <- (str_texts (map (fun c => String c "") (list_ascii_of_string s))). now rewrite map_map.
  - intros [NE S] tag N. apply (carries_reloads _ _ tag). assert (M := merged_chars s). destruct s as [|c s]; [congruence|].
    rewrite <- M. apply c_unit_names; auto. unfold good_names. rewrite M. exists (String c s), []. splits; auto.
Qed.
(** str() of unit names with a subscript fails, with a superscript it has a caret. *)
Theorem C52_unit_names_str_iff l s :
  unit_names_str l = Ok s <->
  exists ts, Forall2 (fun p t => p = PText t \/ exists x, p = PInline (ISuperscript (Some x)) /\ t = ("^" ++ x)%string) l ts /\ s = join "" ts.
Proof.
  unfold unit_names_str. match goal with |- (let* ps := mapM ?f l in _) = _ <-> _ => set (g := f) end.
  assert (X : forall ts, mapM g l = Ok ts <-> Forall2 (fun p t => p = PText t \/ exists x, p = PInline (ISuperscript (Some x)) /\ t = ("^" ++ x)%string) l ts).
  { induction l as [|p l IH]; intros ts; cbn [mapM].
    - split; [intros E; injection E as <-; constructor|intros F; inversion F; reflexivity].
    - split.
      + intros E. destruct (g p) as [t|] eqn:G; [|discriminate]. cbn [bind] in E. destruct (mapM g l) as [ts'|]; [|discriminate]. injection E as <-. constructor; [|now apply IH].
        destruct p as [x|[| | | |[x|]|]]; try discriminate G; injection G as <-; eauto.
      + intros F. inversion F as [|? t ? ts' H F']; subst. apply IH in F'. rewrite F'. destruct H as [->|(x & -> & ->)]; reflexivity. }
  split.
  - intros E. destruct (mapM g l) as [ts|]; [|discriminate]. injection E as <-. exists ts. split; auto. now apply X.
  - intros (ts & F & ->). apply X in F. now rewrite F.
Qed.
Example C52_unit_names_example :
  (let* l := new_unit_names_str "kg" in Ok l) = Ok [PText "k"; PText "g"]
  /\ unit_names_str [PText "m/s"; PInline (ISuperscript (Some "2"))] = Ok "m/s^2"
  /\ unit_names_str [PText "x"; PInline (ISubscript (Some "2"))] = Err ValueError.
Proof. repeat split. Qed.

Print Assumptions C52_line_created_iff.
Print Assumptions C52_line_refused.
Print Assumptions C52_superscript_refuted.
Print Assumptions C52_unit_names_created_iff.
Print Assumptions C52_line_text.
Print Assumptions C52_unit_names_text.
Print Assumptions C52_markup_unique.
Print Assumptions C52_markup_exists.
Print Assumptions C52_line_read_back_iff_partial.
Print Assumptions C52_unit_names_read_back_iff_partial.
Print Assumptions C52_formatting_refuted.
Print Assumptions C52_text_after_term_refuted.
Print Assumptions C52_text_after_first_term_refuted.
Print Assumptions C52_text_after_script_refuted.
Print Assumptions C52_unit_names_of_str.
Print Assumptions C52_unit_names_str_iff.
