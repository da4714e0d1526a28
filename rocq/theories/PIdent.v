(** Round trips of texts, documentation, annotations and of what every identifiable element has. *)
From Verif Require Import Base PBase MNames MNum SNum MXml SXml PXml PXml2 MEnum MRefTab MRef SEnum MCodec SCodec PCodec PPiece.
Open Scope list_scope.

(** Attributes *)
Definition attrs_of (l : list (string * option string)) : attrs :=
  flat_map (fun p => match snd p with None => [] | Some s => [(fst p, s)] end) l.
Lemma attrs_of_cons n o l : attrs_of ((n, o) :: l) = match o with None => attrs_of l | Some s => (n, s) :: attrs_of l end.
Proof. destruct o; reflexivity. Qed.
Lemma attrs_of_names l x : In x (map fst (attrs_of l)) -> In x (map fst l).
Proof.
  induction l as [|[n o] l IH]; [auto|]. rewrite attrs_of_cons. cbn [map fst In]. destruct o; cbn [map fst In]; [|now right; auto].
  intros [<-|H]; [now left|right; auto].
Qed.
Lemma attrs_of_ok l : nodupb (map fst l) = true -> forallb (fun p => name_okb (fst p)) l = true -> Forall (fun p => opt_ok safe_attr (snd p)) l ->
  attrs_ok (attrs_of l).
Proof.
  intros D N S. apply nodupb_sound in D. induction l as [|[n o] l IH].
  - apply attrs_ok_nil.
  - cbn [map fst] in D. apply NoDup_cons_iff in D as [D1 D2]. cbn [forallb fst] in N. apply andb_true_iff in N as [N1 N2].
    apply Forall_cons_iff in S as [S1 S2]. cbn [snd] in S1. destruct (IH D2 N2 S2) as [I1 I2]. rewrite attrs_of_cons. destruct o as [s|]; [|split; auto].
    split.
    + cbn [map fst]. constructor; auto. intros I. apply D1. now apply attrs_of_names.
    + intros n' v [E|I]; [injection E as <- <-; split; auto; now apply name_okb_sound|auto].
Qed.
Lemma assoc_attrs_of l n o : nodupb (map fst l) = true -> In (n, o) l -> assoc n (attrs_of l) = o.
Proof.
  intros D. apply nodupb_sound in D. induction l as [|[n' o'] l IH]; intros I; [destruct I|].
  cbn [map fst] in D. apply NoDup_cons_iff in D as [D1 D2]. rewrite attrs_of_cons. destruct I as [E|I].
  - injection E as -> ->. destruct o as [s|]; [cbn; now rewrite String.eqb_refl|].
    assert (X : forall k (a : attrs), ~ In k (map fst a) -> assoc k a = None).
    { intros k a. induction a as [|[k' y] a IHa]; cbn; auto. intros H. destruct (String.eqb_spec k k') as [->|]; [tauto|]. apply IHa. tauto. }
    apply X. intros I. apply D1. now apply attrs_of_names.
  - assert (NE : n <> n') by (intros ->; apply D1; apply (in_map fst) in I; exact I). destruct o' as [s|]; [|auto].
    cbn. apply String.eqb_neq in NE. rewrite NE. auto.
Qed.
Definition etext {A} (m : enum_map A) (o : option A) : option string :=
  match o with None => None | Some a => match enum_text m a with Ok t => Some t | Err _ => None end end.
Lemma attr_enum_eq {A} n (m : enum_map A) o : enum_ok m -> attr_enum n m o = Ok (attrs_of [(n, etext m o)]).
Proof. intros H. destruct o as [a|]; auto. unfold attr_enum, etext. destruct (H a) as (t & -> & _). reflexivity. Qed.
Lemma attr_text_eq n o : attr_text n o = Ok (attrs_of [(n, o)]).
Proof. destruct o; reflexivity. Qed.
Lemma attr_cat_of l : attr_cat (map (fun p => Ok (attrs_of [p])) l) = Ok (attrs_of l).
Proof.
  unfold attr_cat. assert (X : mapM (fun x => x) (map (fun p => Ok (attrs_of [p])) l) = Ok (map (fun p => attrs_of [p]) l)).
  { induction l as [|p l IH]; cbn [map mapM]; auto. now rewrite IH. }
  rewrite X. cbn [bind]. f_equal. clear X. induction l as [|[n o] l IH]; auto. cbn [map List.concat]. rewrite IH.
  rewrite !attrs_of_cons. destruct o; reflexivity.
Qed.
Lemma etext_safe {A} (m : enum_map A) o : enum_ok m -> opt_ok safe_attr (etext m o).
Proof. intros H. destruct o as [a|]; [|exact I]. unfold etext. destruct (H a) as (t & -> & _ & _ & _ & S). exact S. Qed.
Lemma get_enum_eq {A} n (m : enum_map A) o a : enum_ok m -> assoc n a = etext m o -> get_enum n m a = Ok o.
Proof.
  intros H E. unfold get_enum. rewrite E. destruct o as [x|]; auto. unfold etext. destruct (H x) as (t & -> & R & _). now rewrite R.
Qed.
(** ** Text with inline elements *)
Lemma write_merged ok l : write_parts ok (merged l) = write_parts ok l.
Proof.
  induction l as [|[s|i] l IH]; cbn [merged write_parts]; auto.
  - rewrite <- IH. destruct s as [|c s].
    + cbn [append]. destruct (write_parts ok (merged l)) as [[t ms]|]; reflexivity.
    + destruct (merged l) as [|[t|i] m]; cbn [write_parts]; auto.
      destruct (write_parts ok m) as [[t' ms]|]; cbn [bind]; auto. now rewrite str_app_assoc.
  - destruct (ok i); auto. now rewrite IH.
Qed.
Lemma merged_text s l : s <> "" -> merged (PText s :: l) = match merged l with PText t :: m => PText (s ++ t) :: m | m => PText s :: m end.
Proof. intros H. destruct s; [congruence|reflexivity]. Qed.
Lemma merged_shape l : (forall m, merged l <> PText "" :: m) /\ (forall s t m, merged l <> PText s :: PText t :: m).
Proof.
  induction l as [|[s|i] l (IH1 & IH2)]; cbn [merged]; [split; discriminate| |split; discriminate].
  destruct s as [|c s]; [auto|]. destruct (merged l) as [|[t|i] m]; [split; discriminate| |split; discriminate].
  split; [discriminate|]. intros x y z E. injection E as _ ->. exact (IH2 _ _ _ eq_refl).
Qed.
Lemma merged_merged l : merged (merged l) = merged l.
Proof.
  induction l as [|[s|i] l IH]; auto.
  - destruct s as [|c s]; [exact IH|]. rewrite merged_text by discriminate. destruct (merged_shape l) as [M1 M2].
    destruct (merged l) as [|[t|i] m]; auto.
    + assert (NE : (String c s ++ t)%string <> "") by discriminate.
      rewrite merged_text by exact NE. destruct t as [|d t]; [destruct (M1 _ eq_refl)|]. rewrite merged_text in IH by discriminate.
      destruct m as [|[t'|i] m]; [reflexivity|destruct (M2 _ _ _ eq_refl)|]. cbn [merged] in *. now injection IH as ->.
    + rewrite merged_text by discriminate. cbn [merged] in IH |- *. now injection IH as ->.
  - cbn [merged]. now rewrite IH.
Qed.

Definition crosses (ok : inline_elem -> bool) (rd : xml -> result (list part)) (i : inline_elem) : Prop :=
  ok i = true /\ exists tag a t, write_inline i = Ok (tag, a, t) /\ local_name tag /\ attrs_ok a /\ safe_text t /\ rd (Elem tag a t [] []) = Ok [PInline i].
Lemma safe_nil : safe_text "".
Proof. split; [exact I|]. intros [(x & X)|[]]. discriminate. Qed.
Lemma mixed ok rd s l : safe_text s -> Forall (fun p : inline_elem * bool => crosses ok rd (fst p) /\ (snd p = true -> s <> "")) l ->
  exists ms, write_parts ok (pieces s l) = Ok (s, ms) /\ Forall good_mark ms /\
    forall tag a, read_mixed rd (Elem tag a s (map mark_elem ms) (map mk_tail ms)) = Ok (pieces s l).
Proof.
  intros S F. unfold pieces.
  assert (X : exists ms, write_parts ok (flat_map (fun p : inline_elem * bool => PInline (fst p) :: (if snd p then [PText s] else [])) l) = Ok ("", ms) /\ Forall good_mark ms /\
    forall x, x_text x = s -> exists ls, mapM (fun c => let* ps := rd (fst c) in
                           if String.eqb (snd c) "" then Ok ps
                           else match text_opt x with None => Err TypeError | Some s => Ok (ps ++ [PText s]) end)
                 (with_tails (map mark_elem ms) (map mk_tail ms)) = Ok ls /\
       List.concat ls = flat_map (fun p : inline_elem * bool => PInline (fst p) :: (if snd p then [PText s] else [])) l).
  { induction F as [|[i b] l ((O & tag & a & t & W & N & A & T & R) & B) F (ms & W' & G & M)].
    - exists []. splits; auto. intros x _. exists []. auto.
    - exists (mkMark tag a t (if b then s else "") :: ms). cbn [fst snd] in *. splits.
      + cbn [flat_map fst snd app write_parts]. rewrite O, W. cbn [bind]. destruct b; cbn [app write_parts]; rewrite W'; cbn [bind].
        * now rewrite str_app_nil_r.
        * reflexivity.
      + constructor; auto. unfold good_mark. cbn [mk_tag mk_attrs mk_text mk_tail]. splits; auto. destruct b; auto using safe_nil.
      + intros x X. destruct (M x X) as (ls & E & C). cbn [map with_tails mk_tail mapM fst snd]. change (mark_elem (mkMark tag a t (if b then s else ""))) with (Elem tag a t [] []). rewrite R. cbn [bind].
        destruct b.
        * specialize (B eq_refl). apply String.eqb_neq in B. rewrite B. apply String.eqb_neq in B.
          assert (TO : text_opt x = Some s) by (unfold text_opt; rewrite X; destruct s; congruence).
          rewrite TO in E |- *. cbn [bind app]. rewrite E. cbn [bind].
          eexists. split; [reflexivity|]. cbn [List.concat flat_map fst snd]. now rewrite C.
        * cbn [String.eqb]. rewrite E. cbn [bind]. eexists. split; [reflexivity|]. cbn [List.concat flat_map fst snd]. now rewrite C. }
  destruct X as (ms & W & G & M). exists ms. splits; auto.
  - destruct s as [|c s]; [exact W|]. cbn [app write_parts]. rewrite W. cbn [bind]. now rewrite str_app_nil_r.
  - intros tag a. unfold read_mixed. cbn [x_kids x_tails]. destruct (M (Elem tag a s (map mark_elem ms) (map mk_tail ms)) eq_refl) as (ls & E & C).
    rewrite E. cbn [bind]. rewrite C. unfold text_opt. cbn [x_text]. destruct s; reflexivity.
Qed.

Lemma term_crosses line i : good_term i -> crosses (writes line) (read_inline line) i.
Proof.
  destruct i as [| | | | |[t|] x y]; try now intros []. cbn [good_term]. intros ((NE & S) & X & Y). split.
  - unfold writes. destruct (String.eqb line "L-4"); auto. now destruct (String.eqb line "L-5").
  - pose (l := [("TEX-RENDER", x); ("TYPE", y)]). exists "TT", (attrs_of l), t. cbn [write_inline]. rewrite !attr_text_eq.
    pose proof (attr_cat_of l) as E. cbn [map l] in E. rewrite E. cbn [bind asserted]. splits; auto.
    + now apply name_okb_sound.
    + apply attrs_of_ok; [reflexivity|reflexivity|]. unfold l. repeat apply Forall_cons; try apply Forall_nil; cbn [snd]; auto.
    + unfold read_inline, read_first. cbn [x_tag String.eqb Ascii.eqb Bool.eqb andb]. destruct (String.eqb line "L-5"); cbn [bind app];
        unfold read_term; cbn [x_kids x_attrs bind]; rewrite text_opt_ne by auto;
        rewrite (assoc_attrs_of l "TEX-RENDER" x), (assoc_attrs_of l "TYPE" y) by (cbn; auto);
        unfold append_inline, admits; cbn [is_term is_break is_emphasis is_index is_sub orb];
        destruct (String.eqb line "L-1"); reflexivity || (destruct (String.eqb line "L-5"); reflexivity).
Qed.
Lemma script_crosses i : good_script i -> crosses admits_unit read_unit_inline i.
Proof.
  destruct i as [| | |[t|]|[t|]|]; try (now intros []); cbn [good_script]; intros (NE & S); (split; [reflexivity|]).
  - exists "SUB", [], t. splits; auto using attrs_ok_nil; [now apply name_okb_sound|]. unfold read_unit_inline. cbn [x_tag String.eqb Ascii.eqb Bool.eqb].
    rewrite text_opt_ne by exact NE. reflexivity.
  - exists "SUP", [], t. splits; auto using attrs_ok_nil; [now apply name_okb_sound|]. unfold read_unit_inline. cbn [x_tag String.eqb Ascii.eqb Bool.eqb].
    rewrite text_opt_ne by exact NE. reflexivity.
Qed.

Lemma good_plain_lang l s : good_text s -> good_lang (mkLang l [PText s]).
Proof.
  intros [NE S]. exists s, []. splits; auto. cbn. destruct s; [congruence|reflexivity].
Qed.
Lemma good_plain_names l : safe_text (join "" l) -> good_names (map PText l).
Proof.
  intros S. exists (join "" l), []. splits; auto. clear S. unfold pieces. cbn [flat_map]. rewrite app_nil_r.
  assert (J : forall s r, join "" (s :: r) = (s ++ join "" r)%string).
  { intros s [|x r]; cbn [join]; [now rewrite str_app_nil_r|]. reflexivity. }
  induction l as [|s l IH]; [reflexivity|]. rewrite J. cbn [map]. destruct s as [|c s]; [exact IH|]. rewrite merged_text by discriminate. rewrite IH.
  cbn [append]. destruct (join "" l); [now rewrite str_app_nil_r|reflexivity].
Qed.

Lemma c_lang tag t : name_okb tag = true -> good_lang t -> carries tag (write_lang tag t) (read_lang tag) t.
Proof.
  intros N (s & l & P & S & F). destruct t as [lg ps]. cbn in P. subst ps. destruct (ok_Language lg) as (x & W & R & _ & _ & A).
  destruct (mixed (writes tag) (read_inline tag) s l S) as (ms & E & G & M).
  { eapply Forall_impl; [|exact F]. intros [i b] [O B]. split; auto using term_crosses. }
  unfold write_lang. cbn [lt_language lt_parts]. rewrite W. cbn [bind]. rewrite E. cbn [bind]. apply e_line; auto.
  - now apply attrs_ok_one.
  - unfold read_lang. cbn [x_attrs assoc]. rewrite String.eqb_refl, R. cbn [bind]. now rewrite M.
Qed.
Lemma mapM_id_map {A B} (f : A -> result B) g l : (forall a, In a l -> f a = Ok (g a)) -> mapM f l = Ok (map g l).
Proof.
  induction l as [|a l IH]; intros H; cbn; auto. rewrite (H a) by now left. cbn. rewrite IH by (intros; apply H; now right). reflexivity.
Qed.
Lemma c_langs tag line l : name_okb tag = true -> name_okb line = true -> all_ok good_lang l ->
  carries tag (write_langs tag line l) (read_langs line) l.
Proof.
  intros N1 N2 G. unfold write_langs, read_langs. apply all_ok_Forall in G. rewrite Forall_forall in G.
  pose proof (c_list tag line l (write_lang line) (read_lang line) (fun t => t) N1) as X. rewrite map_id in X. apply X.
  intros a I. apply c_lang; auto.
Qed.
Lemma c_unit_names tag parts : name_okb tag = true -> good_names parts -> carries tag (write_unit_names tag parts) read_unit_names (merged parts).
Proof.
  intros N (s & l & P & S & F). destruct (mixed admits_unit read_unit_inline s l S) as (ms & E & G & M).
  { eapply Forall_impl; [|exact F]. intros [i b] [O B]. split; auto using script_crosses. }
  unfold write_unit_names. rewrite <- write_merged, P, E. cbn [bind]. apply e_line; auto using attrs_ok_nil.
Qed.

Lemma c_lines {A} tag a line l (rd : xml -> result A) x : name_okb tag = true -> name_okb line = true -> attrs_ok a -> all_ok good_lang l ->
  (forall t k ls, mapM (read_lang line) (findall line k) = Ok l -> rd (Elem tag a t k ls) = Ok x) -> carries tag (node tag a (for_each l (write_lang line))) rd x.
Proof.
  intros N1 N2 AO G H. apply all_ok_Forall in G. rewrite Forall_forall in G.
  destruct (each l (write_lang line) (read_lang line) (fun t => t) (fun w => w_tag w = line)) as (L & E & F & _ & M).
  { intros a0 I. apply c_lang; auto. }
  apply (c_node _ _ _ _ _ L); auto; [eapply Forall_safe; exact F|]. intros step d. cbn [element]. apply H. rewrite findall_all by auto. now rewrite M, map_id.
Qed.

Lemma c_doc_item i : good_doc_item i ->
  (exists w, write_doc_item i = Ok [w] /\ safe w /\
     ((w_tag w = "P" /\ forall step d, read_paragraph (element step d w) = Ok i) \/
      (w_tag w = "VERBATIM" /\ forall step d, read_verbatim (element step d w) = Ok i))).
Proof.
  destruct i as [[si vw pb kp] he ls|[si vw pb kp] ab fl he pw ls]; cbn [good_doc_item]; unfold good_pag; cbn [pg_semantic_information pg_view].
  - intros ((G1 & G2) & G3 & G4). cbn [write_doc_item]. unfold pag_attrs. cbn [pg_semantic_information pg_view pg_page_break pg_keep_with_previous].
    rewrite !attr_text_eq, !attr_enum_eq by auto with enums. cbn [app].
    pose (l := [("SI", si); ("VIEW", vw); ("BREAK", etext em_PageBreak pb); ("KEEP-WITH-PREVIOUS", etext em_KeepWithPrevious kp); ("HELP-ENTRY", he)]).
    pose proof (attr_cat_of l) as X.
    change (attr_cat _) with (attr_cat (map (fun p => Ok (attrs_of [p])) l)). rewrite X. cbn [bind].
    assert (AO : attrs_ok (attrs_of l)) by (apply attrs_of_ok; [reflexivity|reflexivity|unfold l; repeat apply Forall_cons; try apply Forall_nil; cbn [snd]; auto using etext_safe with enums]).
    destruct (c_lines "P" (attrs_of l) "L-1" ls read_paragraph (Paragraph (mkPag si vw pb kp) he ls)) as (w & W & T & S & R); auto.
    + intros t k kl M. unfold read_paragraph, read_pag, read_langs. cbn [x_attrs x_kids].
      rewrite (get_enum_eq "BREAK" _ pb), (get_enum_eq "KEEP-WITH-PREVIOUS" _ kp);
        auto with enums; try (apply assoc_attrs_of; [reflexivity|cbn; tauto]). cbn [bind]. rewrite M. cbn [bind].
      rewrite (assoc_attrs_of l "SI" si), (assoc_attrs_of l "VIEW" vw), (assoc_attrs_of l "HELP-ENTRY" he); auto; cbn; tauto.
    + exists w. split; auto.
  - intros ((G1 & G2) & G3 & G4 & G5). cbn [write_doc_item]. unfold pag_attrs. cbn [pg_semantic_information pg_view pg_page_break pg_keep_with_previous].
    rewrite !attr_text_eq, !attr_enum_eq by auto with enums. cbn [app].
    pose (l := [("SI", si); ("VIEW", vw); ("BREAK", etext em_PageBreak pb); ("KEEP-WITH-PREVIOUS", etext em_KeepWithPrevious kp);
                ("ALLOW-BREAK", ab); ("FLOAT", etext em_Float fl); ("HELP-ENTRY", he); ("PGWIDE", etext em_PageWide pw)]).
    pose proof (attr_cat_of l) as X.
    change (attr_cat _) with (attr_cat (map (fun p => Ok (attrs_of [p])) l)). rewrite X. cbn [bind].
    assert (AO : attrs_ok (attrs_of l)) by (apply attrs_of_ok; [reflexivity|reflexivity|unfold l; repeat apply Forall_cons; try apply Forall_nil; cbn [snd]; auto using etext_safe with enums]).
    destruct (c_lines "VERBATIM" (attrs_of l) "L-5" ls read_verbatim (Verbatim (mkPag si vw pb kp) ab fl he pw ls)) as (w & W & T & S & R); auto.
    + intros t k kl M. unfold read_verbatim, read_pag, read_langs. cbn [x_attrs x_kids].
      rewrite (get_enum_eq "BREAK" _ pb), (get_enum_eq "KEEP-WITH-PREVIOUS" _ kp), (get_enum_eq "FLOAT" _ fl), (get_enum_eq "PGWIDE" _ pw);
        auto with enums; try (apply assoc_attrs_of; [reflexivity|cbn; tauto]). cbn [bind]. rewrite M. cbn [bind].
      rewrite (assoc_attrs_of l "SI" si), (assoc_attrs_of l "VIEW" vw), (assoc_attrs_of l "HELP-ENTRY" he), (assoc_attrs_of l "ALLOW-BREAK" ab); auto; cbn; tauto.
    + exists w. split; auto.
Qed.

Lemma doc_items d : good_doc d -> exists L, for_each d write_doc_item = Ok L /\ Forall safe L /\
  forall step dp, read_doc_items (map (element step dp) L) = Ok d.
Proof.
  unfold good_doc. rewrite all_ok_Forall. induction 1 as [|i d G F (L & E & S & R)].
  - exists []. splits; auto.
  - destruct (c_doc_item i G) as (w & W & SW & C). exists (w :: L). unfold for_each in *. cbn [map cat]. rewrite W, E. cbn [bind andthen app].
    splits; auto. intros step dp. cbn [map read_doc_items]. rewrite x_tag_element. destruct C as [(T & RD)|(T & RD)]; rewrite T; cbn [String.eqb Ascii.eqb Bool.eqb];
      rewrite RD; cbn [bind]; now rewrite R.
Qed.
Lemma c_doc tag d : name_okb tag = true -> good_doc d -> carries tag (write_doc tag d) read_doc d.
Proof.
  intros N G. destruct (doc_items d G) as (L & E & S & R). unfold write_doc. destruct d as [|i d].
  - now apply e_empty.
  - apply (c_node _ _ _ _ _ L); auto using attrs_ok_nil. intros step dp. unfold read_doc. cbn [element x_kids]. apply R.
Qed.

Ltac unand H := match type of H with _ /\ _ => let A := fresh "G" in let B := fresh "G" in destruct H as [A B]; unand A; unand B | _ => idtac end.

Ltac use_facts := repeat match goal with H : ?l = Ok _ |- context[?l] => rewrite H; clear H; cbn [bind] end.

Lemma c_annotation a : good_annotation a -> carries "ANNOTATION" (write_annotation a) read_annotation a.
Proof.
  destruct a as [lb og tx]. unfold good_annotation. cbn [Annotation_label Annotation_origin Annotation_text]. intros (G1 & G2 & G3).
  unfold write_annotation, Annotation_is_empty. cbn [Annotation_label Annotation_origin Annotation_text].
  destruct (unset lb && unset og && unset tx) eqn:E.
  - rewrite !andb_true_iff in E. destruct lb, og, tx, E as [[? ?] ?]; try discriminate. now apply e_empty.
  - eapply e_node; auto using attrs_ok_nil.
    + eapply piece_cons; [eapply (p_child_id "LABEL")|eapply piece_cons; [eapply p_text|eapply piece_cat1, (p_child_id "ANNOTATION-TEXT") |reflexivity]|reflexivity]; auto.
      * intros l ->. now apply c_langs.
      * intros d ->. now apply c_doc.
    + intros t k ktl H. cbv beta in H. unand H. unfold read_annotation. cbn [x_kids]. use_facts. reflexivity.
Qed.

(** ** Identifiable *)
(** The three writer calls made by every identifiable element. *)
Definition ident_tags := ["SHORT-NAME"; "LONG-NAME"; "DESC"; "CATEGORY"; "ADMIN-DATA"; "INTRODUCTION"; "ANNOTATIONS"].

Lemma p_referrable e : good_text (id_name e) -> piece ["SHORT-NAME"] (write_referrable e)
  (fun k => exists x, get "SHORT-NAME" k = Some x /\ x_text x = id_name e).
Proof.
  intros [NE S]. eapply (piece_one _ _ (fun x => Ok (x_text x)) (id_name e)).
  - apply e_leaf; auto using attrs_ok_nil.
  - intros k x F R. rewrite get_findall, F. exists x. split; auto. now injection R.
Qed.
Lemma p_ml_referrable e : opt_ok (all_ok good_lang) (id_long_name e) -> piece ["LONG-NAME"] (write_multilanguage_referrable e)
  (fun k => child "LONG-NAME" k (read_langs "L-4") = Ok (id_long_name e)).
Proof. intros G. apply p_child_id. intros l E. rewrite E in G. now apply c_langs. Qed.
Lemma p_identifiable e : good_ident e -> piece ["DESC"; "CATEGORY"; "ADMIN-DATA"; "INTRODUCTION"; "ANNOTATIONS"] (write_identifiable e)
  (fun k => forall a n l, assoc "UUID" a = id_uuid e -> n = id_name e -> l = id_long_name e -> read_identifiable a k n l = Ok e).
Proof.
  destruct e as [n l d c ad intro an u]. unfold good_ident. cbn [id_name id_long_name id_desc id_category id_admin_data id_introduction id_annotations id_uuid]. intros (G1 & G2 & G3 & G4 & -> & -> & -> & G5).
  unfold write_identifiable. cbn [id_desc id_category id_admin_data id_introduction id_annotations].
  eapply piece_imp.
  - eapply piece_more.
    + eapply piece_cons; [eapply (p_child_id "DESC")|eapply piece_cons; [|eapply piece_cons; [|eapply piece_cons; [|eapply piece_cat1|]|]|]|].
      * intros x ->. now apply (c_langs "DESC" "L-2").
      * pose proof (p_text "CATEGORY" c eq_refl G4) as X.
        destruct c as [c|]; [|exact X]. cbn [if_set]. destruct (String.eqb_spec c "") as [->|]; [destruct G4; congruence|exact X].
      * apply (piece_none ["ADMIN-DATA"] (fun k => child "ADMIN-DATA" k read_admin_data = Ok None)). intros k F. apply child_none, F, in_head.
      * apply (piece_none ["INTRODUCTION"] (fun k => child "INTRODUCTION" k read_doc = Ok None)). intros k F. apply child_none, F, in_head.
      * apply (piece_none ["ANNOTATIONS"] (fun k => child "ANNOTATIONS" k read_annotations = Ok None)). intros k F. apply child_none, F, in_head.
      * reflexivity.
      * reflexivity.
      * reflexivity.
      * reflexivity.
    + cbn. apply incl_refl.
  - cbv beta. intros k H a n' l' U -> ->. unand H. unfold read_identifiable. use_facts. now rewrite U.
Qed.

Lemma uuid_attrs e : opt_ok safe_attr (id_uuid e) -> attrs_ok (identifiable_attributes e).
Proof. unfold identifiable_attributes. destruct (id_uuid e) as [u|]; intros G; [now apply attrs_ok_one|apply attrs_ok_nil]. Qed.
Lemma uuid_assoc e : assoc "UUID" (identifiable_attributes e) = id_uuid e.
Proof. unfold identifiable_attributes. destruct (id_uuid e); reflexivity. Qed.
Lemma new_ident e : good_ident e -> new_identifiable e = Ok e.
Proof. destruct e. unfold good_ident, new_identifiable. cbn. intros (_ & _ & _ & _ & -> & -> & -> & _). reflexivity. Qed.

(** Readers of an identifiable element *)
Definition ident_read (e : identifiable) (k : list xml) : Prop := forall a, assoc "UUID" a = id_uuid e -> read_ident a k = Ok e.
Lemma p_ident e n r T P : good_ident e -> piece T (cat (n :: r)) P -> disjointb ident_tags T = true ->
  piece (ident_tags ++ T) (cat (write_referrable e :: write_multilanguage_referrable e :: write_identifiable e :: n :: r))
    (fun k => ident_read e k /\ P k).
Proof.
  intros G H D. assert (D' : forall a, incl a ident_tags -> disjointb a T = true).
  { intros a I. unfold disjointb in *. rewrite forallb_forall in *. auto. }
  eapply piece_imp.
  - eapply (piece_more (["SHORT-NAME"] ++ ["LONG-NAME"] ++ ["DESC"; "CATEGORY"; "ADMIN-DATA"; "INTRODUCTION"; "ANNOTATIONS"] ++ T)); [|apply incl_refl].
    pose proof G as G0. destruct G as (G1 & G2 & G3).
    eapply piece_cons; [now apply p_referrable|eapply piece_cons; [now apply p_ml_referrable|eapply piece_cons; [exact (p_identifiable _ G0)|exact H|]|]|].
    + apply D'. intros x I. cbn in *. tauto.
    + specialize (D' ["LONG-NAME"]). apply D'. intros x I. cbn in *. tauto.
    + specialize (D' ["SHORT-NAME"]). apply D'. intros x I. cbn in *. tauto.
  - cbv beta. intros k ((x & X1 & X2) & L & I & Q). split; auto. intros a U. unfold read_ident, read_referrable, read_multilanguage_referrable.
    rewrite X1, L. cbn [bind]. apply I; auto.
Qed.
