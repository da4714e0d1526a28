(** Formatted text: creation, markup, and what is read back. *)
From Verif Require Import Base PBase MNum SNum MXml SXml PXml PXml2 MEnum PEnum MRefTab MRef SEnum MCodec SCodec PCodec PPiece PIdent MStr SElem PSame SInline.
Open Scope list_scope.

(** ** Creation *)
Lemma admits_iff line i : a_line line -> (admits line i = true <-> may_contain line i).
Proof.
  intros A. destruct A, i; vm_compute; (split; [intros H; try discriminate H; constructor; auto; discriminate|intros H; inversion H; subst; try reflexivity; try congruence; intuition discriminate]).
Qed.
Lemma append_parts ok parts : mapM (fun p => match p with PText s => Ok [PText s] | PInline i => append_inline ok i end) parts =
  if forallb (fun p => match p with PText _ => true | PInline i => ok i end) parts then Ok (map (fun p => [p]) parts) else Err TypeError.
Proof.
  induction parts as [|[s|i] parts IH]; cbn [mapM forallb map]; auto.
  - rewrite IH. cbn [bind andb]. now destruct (forallb _ parts).
  - unfold append_inline at 1. destruct (ok i); cbn [bind andb]; auto. rewrite IH. now destruct (forallb _ parts).
Qed.
Lemma concat_single {A} (l : list A) : List.concat (map (fun p => [p]) l) = l.
Proof. induction l; cbn; congruence. Qed.
Lemma all_parts ok parts : forallb (fun p => match p with PText _ => true | PInline i => ok i end) parts = true <-> (forall i, In (PInline i) parts -> ok i = true).
Proof.
  rewrite forallb_forall. split; [intros H i I; exact (H _ I)|]. intros H [s|i] I; auto.
Qed.
Lemma new_lang_eq line l parts : new_lang line l parts =
  if forallb (fun p => match p with PText _ => true | PInline i => admits line i end) parts then Ok (mkLang l parts) else Err TypeError.
Proof. unfold new_lang. rewrite append_parts. destruct (forallb _ parts); auto. cbn [bind]. now rewrite concat_single. Qed.
Lemma new_unit_names_eq parts : new_unit_names parts =
  if forallb (fun p => match p with PText _ => true | PInline i => admits_unit i end) parts then Ok parts else Err TypeError.
Proof. unfold new_unit_names. rewrite append_parts. destruct (forallb _ parts); auto. cbn [bind]. now rewrite concat_single. Qed.

(** ** Markup *)
Lemma simple_inline tag a text tail : (simple tag a text ++ tail)%string = inline (mkMark tag a text tail).
Proof. unfold simple, inline. cbn [mk_tag mk_attrs mk_text mk_tail]. destruct text; rewrite ?str_app_assoc; cbn [append]; rewrite ?str_app_assoc; reflexivity. Qed.
Lemma emphasis_attrs c f t :
  attr_cat [attr_text "COLOR" c; attr_enum "FONT" em_EmphasisFont f; attr_enum "TYPE" em_EmphasisType t] =
  Ok (attribute "COLOR" c ++ attribute "FONT" (option_map font_text f) ++ attribute "TYPE" (option_map type_text t)).
Proof. destruct c, f as [[]|], t as [[]|]; reflexivity. Qed.
Lemma term_attrs x y : attr_cat [attr_text "TEX-RENDER" x; attr_text "TYPE" y] = Ok (attribute "TEX-RENDER" x ++ attribute "TYPE" y).
Proof. destruct x, y; reflexivity. Qed.
Lemma write_inline_markup i m : markup (PInline i) m <-> exists tag a t, write_inline i = Ok (tag, a, t) /\ m = simple tag a t.
Proof.
  split.
  - intros H. inversion H; subst; cbn [write_inline asserted]; rewrite ?emphasis_attrs, ?term_attrs; cbn [bind]; eauto.
  - intros (tag & a & t & W & ->).
    destruct i as [|[s|] c f y|[s|]|[s|]|[s|]|[s|] x y]; cbn [write_inline asserted] in W; rewrite ?emphasis_attrs, ?term_attrs in W; cbn [bind] in W;
      try discriminate W; injection W as <- <- <-; try constructor.
Qed.
Lemma join_cons (s : string) r : join "" (s :: r) = (s ++ join "" r)%string.
Proof. destruct r; cbn [join]; [now rewrite str_app_nil_r|reflexivity]. Qed.
Lemma write_parts_markup ok parts : (forall i, In (PInline i) parts -> ok i = true) -> forall text,
  (exists t ms, write_parts ok parts = Ok (t, ms) /\ text = (t ++ List.fold_right (fun m r => inline m ++ r) "" ms)%string) <->
  (exists l, Forall2 markup parts l /\ text = join "" l).
Proof.
  induction parts as [|p parts IH]; intros O text.
  - split.
    + intros (t & ms & E & ->). injection E as <- <-. exists []. split; auto.
    + intros (l & F & ->). inversion F. exists "", []. auto.
  - assert (O' : forall i, In (PInline i) parts -> ok i = true) by (intros; apply O; now right). specialize (IH O'). destruct p as [s|i].
    + split.
      * intros (t & ms & E & ->). cbn [write_parts] in E. destruct (write_parts ok parts) as [[t' ms']|]; [|discriminate]. cbn [bind] in E. injection E as <- <-.
        destruct (proj1 (IH _) (ex_intro _ t' (ex_intro _ ms' (conj eq_refl eq_refl)))) as (l & F & E). exists (s :: l). split; [constructor; auto; constructor|].
        rewrite join_cons, <- E, str_app_assoc. reflexivity.
      * intros (l & F & ->). inversion F as [|? m ? l' M F']; subst. inversion M; subst. destruct (proj2 (IH _) (ex_intro _ l' (conj F' eq_refl))) as (t & ms & E & J).
        cbn [write_parts]. rewrite E. cbn [bind]. eexists _, _. split; [reflexivity|]. rewrite join_cons, J, str_app_assoc. reflexivity.
    + split.
      * intros (t & ms & E & ->). cbn [write_parts] in E. rewrite (O i) in E by now left. destruct (write_inline i) as [[[tag a] x]|] eqn:W; [|discriminate]. cbn [bind] in E.
        destruct (write_parts ok parts) as [[t' ms']|]; [|discriminate]. cbn [bind] in E. injection E as <- <-.
        destruct (proj1 (IH _) (ex_intro _ t' (ex_intro _ ms' (conj eq_refl eq_refl)))) as (l & F & E). exists (simple tag a x :: l). split.
        -- constructor; auto. apply write_inline_markup. eauto.
        -- rewrite join_cons, <- E. cbn [fold_right append]. rewrite <- simple_inline, str_app_assoc. reflexivity.
      * intros (l & F & ->). inversion F as [|? m ? l' M F']; subst. apply write_inline_markup in M as (tag & a & x & W & ->).
        destruct (proj2 (IH _) (ex_intro _ l' (conj F' eq_refl))) as (t & ms & E & J). cbn [write_parts]. rewrite (O i) by now left. rewrite W. cbn [bind]. rewrite E. cbn [bind].
        eexists _, _. split; [reflexivity|]. rewrite join_cons, J. cbn [fold_right append]. rewrite <- simple_inline, str_app_assoc. reflexivity.
Qed.
Lemma line_text tag a s ms : element_text (Ok [Line tag a s ms]) =
  Ok (start tag a ++ ">" ++ (s ++ List.fold_right (fun m r => inline m ++ r) "" ms) ++ "</" ++ tag ++ ">")%string.
Proof.
  unfold element_text. cbn [bind flat_map]. rewrite app_nil_r, (calls_layout 2 _ _ 0) by reflexivity.
  cbn [bind layout fold_left put x_out xw_open x_line Nat.ltb Nat.leb Nat.mul spaces append]. now rewrite !str_app_assoc.
Qed.
Lemma admits_writes line i : a_line line -> admits line i = true -> writes line i = true.
Proof. intros A. destruct A, i; vm_compute; auto. Qed.

Lemma app_inj_l (a x y : string) : (a ++ x)%string = (a ++ y)%string -> x = y.
Proof. induction a as [|c a IH]; cbn; auto. intros H. injection H as H. auto. Qed.

Lemma lang_text_iff line t s text : (forall i, In (PInline i) (lt_parts t) -> writes line i = true) -> enum_text em_Language (lt_language t) = Ok s ->
  (element_text (write_lang line t) = Ok text <->
   exists l, Forall2 markup (lt_parts t) l /\ text = (start line [("L", s)] ++ ">" ++ join "" l ++ "</" ++ line ++ ">")%string).
Proof.
  intros O L. unfold write_lang. rewrite L. cbn [bind]. pose proof (write_parts_markup (writes line) (lt_parts t) O) as X. split.
  - intros E. destruct (write_parts _ _) as [[x ms]|] eqn:W; [|discriminate]. cbn [bind] in E. rewrite line_text in E. injection E as <-.
    destruct (proj1 (X _) (ex_intro _ x (ex_intro _ ms (conj eq_refl eq_refl)))) as (l & F & J). exists l. now rewrite J.
  - intros (l & F & ->). destruct (proj2 (X _) (ex_intro _ l (conj F eq_refl))) as (x & ms & E & J). rewrite E. cbn [bind]. rewrite line_text. now rewrite J.
Qed.
Lemma names_text_iff tag parts text : (forall i, In (PInline i) parts -> admits_unit i = true) ->
  (element_text (write_unit_names tag parts) = Ok text <->
   exists l, Forall2 markup parts l /\ text = (start tag [] ++ ">" ++ join "" l ++ "</" ++ tag ++ ">")%string).
Proof.
  intros O. unfold write_unit_names. pose proof (write_parts_markup admits_unit parts O) as X. split.
  - intros E. destruct (write_parts _ _) as [[x ms]|] eqn:W; [|discriminate]. cbn [bind] in E. rewrite line_text in E. injection E as <-.
    destruct (proj1 (X _) (ex_intro _ x (ex_intro _ ms (conj eq_refl eq_refl)))) as (l & F & J). exists l. now rewrite J.
  - intros (l & F & ->). destruct (proj2 (X _) (ex_intro _ l (conj F eq_refl))) as (x & ms & E & J). rewrite E. cbn [bind]. rewrite line_text. now rewrite J.
Qed.

(** ** Reading a written line *)
Lemma attribute_of n o : attribute n o = attrs_of [(n, o)].
Proof. destruct o; reflexivity. Qed.
Lemma attrs_of_app a b : attrs_of (a ++ b) = attrs_of a ++ attrs_of b.
Proof. unfold attrs_of. now rewrite flat_map_app. Qed.
Lemma font_safe f : opt_ok safe_attr (option_map font_text f).
Proof. destruct f as [[]|]; cbn [option_map opt_ok font_text]; auto; apply safe_attrb_sound; reflexivity. Qed.
Lemma type_safe t : opt_ok safe_attr (option_map type_text t).
Proof. destruct t as [[]|]; cbn [option_map opt_ok type_text]; auto; apply safe_attrb_sound; reflexivity. Qed.
Lemma clean_written i tag a t : clean_inline i -> write_inline i = Ok (tag, a, t) -> local_name tag /\ attrs_ok a /\ safe_text t.
Proof.
  destruct i as [|[s|] c f y|[s|]|[s|]|[s|]|[s|] x y]; cbn [write_inline asserted clean_inline opt_ok]; rewrite ?emphasis_attrs, ?term_attrs; cbn [bind];
    intros C W; try discriminate W; injection W as <- <- <-; (split; [now apply name_okb_sound|]); try (split; [apply attrs_ok_nil|auto using safe_nil]; fail).
  - split; [|apply C]. rewrite !attribute_of, <- !attrs_of_app. apply attrs_of_ok; [reflexivity|reflexivity|].
    repeat apply Forall_cons; try apply Forall_nil; cbn [snd]; try apply C; auto using font_safe, type_safe.
  - split; [|apply C]. rewrite !attribute_of, <- !attrs_of_app. apply attrs_of_ok; [reflexivity|reflexivity|].
    repeat apply Forall_cons; try apply Forall_nil; cbn [snd]; apply C.
Qed.
Lemma clean_marks ok parts : forall b t ms, clean_from b parts -> write_parts ok parts = Ok (t, ms) -> safe_text (b ++ t) /\ Forall good_mark ms.
Proof.
  induction parts as [|[s|i] parts IH]; intros b t ms C W; cbn [clean_from write_parts] in *.
  - injection W as <- <-. rewrite str_app_nil_r. auto.
  - destruct (write_parts ok parts) as [[t' ms']|]; [|discriminate]. cbn [bind] in W. injection W as <- <-. destruct (IH _ _ _ C eq_refl) as [S G].
    rewrite str_app_assoc in S. auto.
  - destruct (ok i); [|discriminate]. destruct (write_inline i) as [[[tag a] x]|] eqn:E; [|discriminate]. cbn [bind] in W.
    destruct (write_parts ok parts) as [[t' ms']|]; [|discriminate]. cbn [bind] in W. injection W as <- <-. destruct C as (S & CI & C).
    destruct (IH _ _ _ C eq_refl) as [S' G]. destruct (clean_written _ _ _ _ CI E) as (N & A & T). rewrite str_app_nil_r. split; auto.
    constructor; auto. unfold good_mark. auto.
Qed.
Lemma read_line {A} tag a s ms text (rd : xml -> result A) : name_okb tag = true -> attrs_ok a -> safe_text s -> Forall good_mark ms ->
  element_text (Ok [Line tag a s ms]) = Ok text -> read_element rd text = rd (Elem tag a s (map mark_elem ms) (map mk_tail ms)).
Proof.
  intros N AO S G E. pose proof (e_line tag a s ms (fun x => Ok x) _ N AO S G eq_refl) as C.
  destruct (carries_text _ _ _ _ C 2) as (w & t & x & W & T & P & R). injection W as <-. injection R as ->.
  assert (X : element_text (Ok [Line tag a s ms]) = Ok t).
  { unfold element_text. cbn [bind flat_map]. rewrite app_nil_r. exact T. }
  rewrite E in X. injection X as ->. unfold read_element. rewrite P. reflexivity.
Qed.

Definition read_tail (rd : xml -> result (list part)) (o : option string) (c : xml * string) : result (list part) :=
  let* ps := rd (fst c) in
  if String.eqb (snd c) "" then Ok ps else match o with None => Err TypeError | Some s => Ok (ps ++ [PText s]) end.
Lemma read_mixed_eq rd tag a s k l : read_mixed rd (Elem tag a s k l) =
  let* ls := mapM (read_tail rd (match s with "" => None | _ => Some s end)) (with_tails k l) in
  Ok (match s with "" => [] | _ => [PText s] end ++ List.concat ls).
Proof. unfold read_mixed, text_opt. cbn [x_kids x_tails x_text]. destruct s; reflexivity. Qed.

(** Reading succeeds only on a line made of the elements that [rd] reads. *)
Lemma marks_repeat rd (kind : inline_elem -> Prop) s ms :
  Forall (fun m => forall ps, rd (mark_elem m) = Ok ps -> exists i, kind i /\ ps = [PInline i]) ms -> forall ls,
  mapM (read_tail rd (match s with "" => None | _ => Some s end)) (with_tails (map mark_elem ms) (map mk_tail ms)) = Ok ls -> repeats kind s (List.concat ls).
Proof.
  induction 1 as [|m ms K F IH]; intros ls E.
  - injection E as <-. constructor.
  - cbn [map with_tails mapM] in E. unfold read_tail at 1 in E. cbn [fst snd] in E. destruct (rd (mark_elem m)) as [ps|] eqn:R; [|discriminate]. cbn [bind] in E.
    destruct (K _ eq_refl) as (i & KI & ->). destruct (String.eqb (mk_tail m) "").
    + cbn [bind] in E. destruct (mapM _ _) as [ls'|]; [|discriminate]. injection E as <-. cbn [List.concat app]. constructor; auto.
    + destruct s as [|c s]; [discriminate|]. cbn [bind] in E. destruct (mapM _ _) as [ls'|]; [|discriminate]. injection E as <-. cbn [List.concat app].
      apply repeats_again; auto. discriminate.
Qed.
Lemma mixed_made rd (kind : inline_elem -> Prop) tag a s ms ps :
  Forall (fun m => forall ps, rd (mark_elem m) = Ok ps -> exists i, kind i /\ ps = [PInline i]) ms ->
  read_mixed rd (Elem tag a s (map mark_elem ms) (map mk_tail ms)) = Ok ps -> made_of kind ps.
Proof.
  intros K E. rewrite read_mixed_eq in E. pose proof (marks_repeat rd kind s ms K) as X. destruct (mapM _ _) as [ls|]; [|discriminate].
  cbn [bind] in E. injection E as <-. specialize (X _ eq_refl). destruct s as [|c s]; [now apply made_bare|]. apply made_first; [discriminate|auto].
Qed.
Lemma repeats_in (k k' : inline_elem -> Prop) s r : repeats k s r -> (forall i, In (PInline i) r -> k i -> k' i) -> repeats k' s r.
Proof.
  induction 1 as [|i r K R IH|i r K NE R IH]; intros H; constructor; auto; try (apply H; [now left|auto]); apply IH; intros; apply H; auto; cbn; auto.
Qed.
Lemma made_in (k k' : inline_elem -> Prop) r : made_of k r -> (forall i, In (PInline i) r -> k i -> k' i) -> made_of k' r.
Proof.
  intros [r' R|s r' NE R] H; [apply made_bare|apply made_first; auto]; eapply repeats_in; eauto. intros; apply H; auto. now right.
Qed.
Lemma repeats_pieces (ok kind : inline_elem -> Prop) s r : repeats kind s r -> (forall i, In (PInline i) r -> kind i -> ok i) ->
  exists l, r = flat_map (fun p : inline_elem * bool => PInline (fst p) :: (if snd p then [PText s] else [])) l /\
            Forall (fun p : inline_elem * bool => ok (fst p) /\ (snd p = true -> s <> "")) l.
Proof.
  induction 1 as [|i r K R IH|i r K NE R IH]; intros H.
  - exists []. auto.
  - destruct IH as (l & -> & F); [intros; apply H; auto; now right|]. exists ((i, false) :: l). split; [reflexivity|]. constructor; auto. cbn. split; [apply H; auto; now left|discriminate].
  - destruct IH as (l & -> & F); [intros; apply H; auto; right; now right|]. exists ((i, true) :: l). split; [reflexivity|]. constructor; auto. cbn. split; [apply H; auto; now left|auto].
Qed.
Lemma clean_in b parts i : clean_from b parts -> In (PInline i) parts -> clean_inline i.
Proof.
  revert b. induction parts as [|[s|j] parts IH]; intros b C I; cbn [clean_from] in C; [destruct I| |].
  - destruct I as [E|I]; [discriminate|eauto].
  - destruct I as [E|I]; [injection E as ->; apply C|]. eapply IH; [apply C|auto].
Qed.
Lemma made_good (ok kind : inline_elem -> Prop) parts : made_of kind parts -> clean parts -> (forall i, In (PInline i) parts -> kind i -> ok i) -> good_parts ok parts.
Proof.
  intros [r R|s r NE R] C H.
  - destruct (repeats_pieces ok kind "" r R) as (l & -> & F); auto. exists "", l. split; [reflexivity|]. split; auto using safe_nil.
  - destruct (repeats_pieces ok kind s r R) as (l & E & F); [intros; apply H; auto; now right|]. exists s, l. split; [|split; auto].
    + unfold pieces. rewrite <- E. destruct s; [congruence|reflexivity].
    + unfold clean in C. cbn [clean_from append] in C. clear E. destruct R; cbn [clean_from] in C; try apply C; exact C.
Qed.

(** *** Lines *)
Lemma read_written_inline line i tag a t ps : a_line line -> write_inline i = Ok (tag, a, t) -> read_inline line (Elem tag a t [] []) = Ok ps ->
  exists x y z, i = ITechnicalTerm x y z /\ exists t', t' <> Some "" /\ ps = [PInline (ITechnicalTerm t' (assoc "TEX-RENDER" a) (assoc "TYPE" a))].
Proof.
  intros L W R. assert (T : tag = "TT" -> exists x y z, i = ITechnicalTerm x y z).
  { intros ->. destruct i as [|[s|] c f y|[s|]|[s|]|[s|]|[s|] x y]; cbn [write_inline asserted] in W; rewrite ?emphasis_attrs, ?term_attrs in W; cbn [bind] in W; try discriminate W; eauto. }
  unfold read_inline in R. destruct (read_first line (Elem tag a t [] [])) as [p|] eqn:F; [|discriminate]. cbn [bind x_tag] in R.
  destruct (String.eqb_spec tag "TT") as [->|NE].
  - destruct (T eq_refl) as (x & y & z & ->). exists x, y, z. split; auto. exists (match t with "" => None | _ => Some t end). split; [destruct t; discriminate|].
    destruct L; vm_compute in F; injection F as <-; unfold read_term in R; cbn [x_kids x_attrs bind] in R; unfold append_inline, admits in R; cbn in R;
      injection R as <-; unfold text_opt; cbn [x_text]; destruct t; reflexivity.
  - exfalso. destruct i as [|[s|] c f y|[s|]|[s|]|[s|]|[s|] x y]; cbn [write_inline asserted] in W; rewrite ?emphasis_attrs, ?term_attrs in W; cbn [bind] in W;
      try discriminate W; injection W as <- <- <-; destruct L; cbn in R; discriminate R || congruence.
Qed.
Lemma written_marks ok (P : inline_elem -> mark -> Prop) parts : (forall i tag a t tl, In (PInline i) parts -> write_inline i = Ok (tag, a, t) -> P i (mkMark tag a t tl)) ->
  forall x ms, write_parts ok parts = Ok (x, ms) -> Forall (fun m => exists i, In (PInline i) parts /\ P i m) ms.
Proof.
  induction parts as [|[s|i] parts IH]; intros H x ms W; cbn [write_parts] in W.
  - injection W as <- <-. constructor.
  - destruct (write_parts ok parts) as [[t' ms']|]; [|discriminate]. injection W as <- <-.
    eapply Forall_impl; [|eapply IH; [|reflexivity]; intros; apply H; auto; now right]. cbv beta. intros m (i & I & Q). exists i. split; auto. now right.
  - destruct (ok i); [|discriminate]. destruct (write_inline i) as [[[tag a] z]|] eqn:E; [|discriminate]. cbn [bind] in W.
    destruct (write_parts ok parts) as [[t' ms']|]; [|discriminate]. injection W as <- <-. constructor.
    + exists i. split; [now left|]. apply H; auto. now left.
    + eapply Forall_impl; [|eapply IH; [|reflexivity]; intros; apply H; auto; now right]. cbv beta. intros m (j & I & Q). exists j. split; auto. now right.
Qed.
Lemma written_inlines ok parts x ms : write_parts ok parts = Ok (x, ms) -> forall i, In (PInline i) parts ->
  ok i = true /\ exists tag a t tl, write_inline i = Ok (tag, a, t) /\ In (mkMark tag a t tl) ms.
Proof.
  revert x ms. induction parts as [|[s|j] parts IH]; intros x ms W i I; cbn [write_parts] in W; [destruct I| |].
  - destruct I as [E|I]; [discriminate|]. destruct (write_parts ok parts) as [[t' ms']|]; [|discriminate]. injection W as <- <-. eauto.
  - destruct (ok j) eqn:O; [|discriminate]. destruct (write_inline j) as [[[tag a] z]|] eqn:E; [|discriminate]. cbn [bind] in W.
    destruct (write_parts ok parts) as [[t' ms']|]; [|discriminate]. injection W as <- <-. destruct I as [I|I].
    + injection I as ->. split; auto. exists tag, a, z, t'. split; auto. now left.
    + destruct (IH _ _ eq_refl i I) as (O' & tag' & a' & t & tl & W & IN). split; auto. exists tag', a', t, tl. split; auto. now right.
Qed.
Lemma line_name line : a_line line -> name_okb line = true.
Proof. now intros []. Qed.

(** What reading the text of a written line does. *)
Lemma read_written line t text : a_line line -> clean (lt_parts t) -> element_text (write_lang line t) = Ok text ->
  exists x ms, write_parts (writes line) (lt_parts t) = Ok (x, ms) /\ forall a, 
    read_element (read_lang line) text = let* parts := read_mixed (read_inline line) (Elem line a x (map mark_elem ms) (map mk_tail ms)) in Ok (mkLang (lt_language t) parts).
Proof.
  intros L C E. unfold write_lang in E. destruct (ok_Language (lt_language t)) as (l & W & R & _ & _ & A). rewrite W in E. cbn [bind] in E.
  destruct (write_parts (writes line) (lt_parts t)) as [[x ms]|] eqn:WP; [|discriminate]. cbn [bind] in E. destruct (clean_marks _ _ _ _ _ C WP) as [S G].
  exists x, ms. split; auto. intros a. rewrite (read_line line [("L", l)] x ms) by (auto using line_name; now apply attrs_ok_one).
  unfold read_lang. cbn [x_attrs assoc]. rewrite String.eqb_refl, R. reflexivity.
Qed.
Lemma lang_read_iff line t : a_line line -> clean (lt_parts t) ->
  (reloads_as (write_lang line) (read_lang line) t t <-> made_of a_term (lt_parts t)).
Proof.
  intros L C. split.
  - intros (text & E & R). destruct (read_written line t text L C E) as (x & ms & W & X). rewrite (X []) in R.
    destruct (read_mixed _ _) as [ps|] eqn:M; [|discriminate]. cbn [bind] in R. assert (PS : ps = lt_parts t) by (injection R as R; now rewrite <- R). clear R. subst ps.
    assert (K : made_of (fun i => exists s y z, s <> Some "" /\ i = ITechnicalTerm s y z) (lt_parts t)).
    { eapply mixed_made; [|exact M].
      pose proof (written_marks (writes line) (fun i m => forall ps, read_inline line (mark_elem m) = Ok ps -> exists s y z, s <> Some "" /\ ps = [PInline (ITechnicalTerm s y z)]) (lt_parts t)) as Y.
      eapply Forall_impl; [|eapply Y; [|exact W]].
      - cbv beta. intros m (i & _ & H) ps P. destruct (H _ P) as (s & y & z & NE & ->). eexists. split; [|reflexivity]. eauto 6.
      - cbv beta. intros i tag a s tl I WI ps P. destruct (read_written_inline line i tag a s ps L WI P) as (_ & _ & _ & _ & t' & NE & ->). eauto 6. }
    eapply made_in; [exact K|]. cbv beta. intros i I (s & y & z & NE & ->). destruct (written_inlines _ _ _ _ W _ I) as (_ & tag & a & s' & tl & WI & _).
    destruct s as [s|]; [|cbn [write_inline asserted] in WI; rewrite term_attrs in WI; discriminate]. exists s, y, z. split; congruence.
  - intros M. apply (carries_reloads _ _ line). apply c_lang; auto using line_name. unfold good_lang. eapply made_good; eauto.
    intros i I (s & x & y & NE & ->). pose proof (clean_in _ _ _ C I) as (S & X & Y). cbn [good_term]. splits; auto. split; auto.
Qed.
Lemma mapM_fails {A B} (f : A -> result B) l a e : In a l -> f a = Err e -> exists e', mapM f l = Err e'.
Proof.
  induction l as [|b l IH]; intros I E; [destruct I|]. cbn [mapM]. destruct (f b) as [x|] eqn:F; [|cbn; eauto]. cbn [bind]. destruct I as [->|I]; [congruence|].
  destruct (IH I E) as (e' & ->). cbn. eauto.
Qed.
Lemma in_with_tails m ms : In m ms -> In (mark_elem m, mk_tail m) (with_tails (map mark_elem ms) (map mk_tail ms)).
Proof. induction ms as [|n ms IH]; cbn; [auto|]. intros [->|I]; auto. Qed.
Lemma lang_fails line t text i : a_line line -> clean (lt_parts t) -> In (PInline i) (lt_parts t) -> is_term i = false ->
  element_text (write_lang line t) = Ok text -> exists e, read_element (read_lang line) text = Err e.
Proof.
  intros L C I NT E. destruct (read_written line t text L C E) as (x & ms & W & X). rewrite (X []). rewrite read_mixed_eq.
  destruct (written_inlines _ _ _ _ W _ I) as (_ & tag & a & s & tl & WI & IN). apply in_with_tails in IN. cbn [mk_tail] in IN. change (mark_elem (mkMark tag a s tl)) with (Elem tag a s [] []) in IN.
  destruct (read_inline line (Elem tag a s [] [])) as [ps|e] eqn:R.
  - destruct (read_written_inline line i tag a s ps L WI R) as (u & v & w & -> & _). discriminate.
  - edestruct (mapM_fails (read_tail (read_inline line) match x with "" => None | _ => Some x end)) as (e' & M); [exact IN| |].
    + unfold read_tail. cbn [fst snd]. rewrite R. reflexivity.
    + rewrite M. cbn. eauto.
Qed.

(** *** Unit names *)
Fixpoint gathered (l : list (ascii + inline_elem)) : list part :=
  match l with
  | [] => []
  | inl c :: r => match gathered r with PText t :: m => PText (String c t) :: m | m => PText (String c "") :: m end
  | inr i :: r => PInline i :: gathered r
  end.
Lemma merged_gathered l : merged l = gathered (characters l).
Proof.
  induction l as [|[s|i] l IH]; auto.
  - rewrite characters_text. destruct s as [|c s]; [exact IH|]. rewrite merged_text by discriminate. rewrite IH. clear IH. revert c.
    induction s as [|d s IH]; intros c; [cbn [list_ascii_of_string map app gathered]; destruct (gathered (characters l)) as [|[]]; reflexivity|].
    change (list_ascii_of_string (String c (String d s))) with (c :: list_ascii_of_string (String d s)). cbn [map app gathered].
    change (map inl (list_ascii_of_string (String d s)) ++ characters l) with (map inl (list_ascii_of_string (String d s)) ++ characters l) in IH.
    rewrite <- IH. destruct (gathered (characters l)) as [|[]]; reflexivity.
  - cbn [merged]. now rewrite IH.
Qed.
Lemma same_names_merged a b : same_names a b <-> merged a = merged b.
Proof.
  split; [unfold same_names; rewrite !merged_gathered; congruence|]. intros E. unfold same_names. rewrite (same_merged a), (same_merged b). now rewrite E.
Qed.
Lemma repeats_merged (k : inline_elem -> Prop) s r : repeats k s r -> merged r = r.
Proof.
  induction 1 as [|i r K R IH|i r K NE R IH]; auto; cbn [merged]; [now rewrite IH|]. rewrite IH. destruct s; [congruence|]. inversion R; subst; reflexivity.
Qed.
Lemma made_merged (k : inline_elem -> Prop) r : made_of k r -> merged r = r.
Proof.
  intros [r' R|s r' NE R]; [eapply repeats_merged; eauto|]. rewrite merged_text by auto. rewrite (repeats_merged _ _ _ R). inversion R; subst; reflexivity.
Qed.
Lemma clean_merged parts : forall b, clean_from b parts <-> clean_from b (merged parts).
Proof.
  induction parts as [|[s|i] parts IH]; intros b; [reflexivity| |].
  - cbn [clean_from]. rewrite IH. destruct s as [|c s].
    + now rewrite str_app_nil_r.
    + rewrite merged_text by discriminate. destruct (merged parts) as [|[t|i] m]; cbn [clean_from]; try reflexivity. now rewrite str_app_assoc.
  - cbn [merged clean_from]. now rewrite IH.
Qed.
Lemma in_merged parts i : In (PInline i) parts <-> In (PInline i) (merged parts).
Proof.
  induction parts as [|[s|j] parts IH]; [reflexivity| |].
  - cbn [In]. rewrite IH. destruct s as [|c s]; [cbn; intuition discriminate|]. rewrite merged_text by discriminate. destruct (merged parts) as [|[t|j] m]; cbn; intuition discriminate.
  - cbn [merged In]. now rewrite IH.
Qed.
Lemma read_written_script i tag a t ps : write_inline i = Ok (tag, a, t) -> read_unit_inline (Elem tag a t [] []) = Ok ps ->
  exists i', ps = [PInline i'] /\ exists t', t' <> Some "" /\ (i' = ISubscript t' \/ i' = ISuperscript t').
Proof.
  intros _ R. unfold read_unit_inline in R. cbn [x_tag] in R. assert (T : text_opt (Elem tag a t [] []) <> Some "") by (unfold text_opt; cbn; destruct t; discriminate).
  destruct (String.eqb tag "SUB"); [|destruct (String.eqb tag "SUP"); [|discriminate]]; injection R as <-; eauto 6.
Qed.
Lemma names_read tag parts text : name_okb tag = true -> clean parts -> element_text (write_unit_names tag parts) = Ok text ->
  exists x ms, write_parts admits_unit parts = Ok (x, ms) /\ forall a,
    read_element read_unit_names text = read_mixed read_unit_inline (Elem tag a x (map mark_elem ms) (map mk_tail ms)).
Proof.
  intros N C E. unfold write_unit_names in E. destruct (write_parts admits_unit parts) as [[x ms]|] eqn:WP; [|discriminate]. cbn [bind] in E.
  destruct (clean_marks _ _ _ _ _ C WP) as [S G]. exists x, ms. split; auto. intros a. rewrite (read_line tag [] x ms) by (auto using attrs_ok_nil). reflexivity.
Qed.
Lemma names_read_iff tag parts : name_okb tag = true -> clean parts ->
  ((exists l, reloads_as (write_unit_names tag) read_unit_names parts l /\ same_names parts l) <-> made_of a_script (merged parts)).
Proof.
  intros N C. split.
  - intros (ps & (text & E & R) & SN). destruct (names_read tag parts text N C E) as (x & ms & W & X). rewrite (X []) in R.
    assert (K : made_of (fun i => exists s, s <> Some "" /\ (i = ISubscript s \/ i = ISuperscript s)) ps).
    { eapply mixed_made; [|exact R].
      pose proof (written_marks admits_unit (fun i m => forall ps, read_unit_inline (mark_elem m) = Ok ps -> exists i', ps = [PInline i'] /\ exists s, s <> Some "" /\ (i' = ISubscript s \/ i' = ISuperscript s)) parts) as Y.
      eapply Forall_impl; [|eapply Y; [|exact W]].
      - cbv beta. intros m (i & _ & H) qs P. destruct (H _ P) as (i' & -> & Z). eexists. split; [exact Z|reflexivity].
      - cbv beta. intros i tg a s tl I WI qs P. exact (read_written_script i tg a s qs WI P). }
    pose proof (made_merged _ _ K) as MM. apply same_names_merged in SN. rewrite MM in SN. rewrite SN. eapply made_in; [exact K|]. cbv beta. intros i I (s & NE & Z).
    rewrite <- SN in I. apply in_merged in I. destruct (written_inlines _ _ _ _ W _ I) as (_ & tg & a & s' & tl & WI & _).
    destruct s as [s|]; [|destruct Z as [-> | ->]; discriminate WI]. exists s. split; [congruence|auto].
  - intros M. exists (merged parts). split; [|apply same_merged]. apply (carries_reloads _ _ tag). apply c_unit_names; auto. unfold good_names.
    eapply made_good; [exact M| |].
    + unfold clean in *. now apply clean_merged in C.
    + intros i I (s & NE & Z). assert (CI : clean_inline i). { apply in_merged in I. eapply clean_in; eauto. }
      destruct Z as [-> | ->]; cbn in *; split; auto.
Qed.

(** *** Names given as a str *)
Lemma str_chars s : join "" (map (fun c => String c "") (list_ascii_of_string s)) = s.
Proof. induction s as [|c s IH]; auto. cbn [list_ascii_of_string map]. now rewrite join_cons, IH. Qed.
Lemma new_str s : new_unit_names_str s = Ok (map (fun c => PText (String c "")) (list_ascii_of_string s)).
Proof.
  unfold new_unit_names_str. rewrite new_unit_names_eq.
  assert (F : forallb (fun p => match p with PText _ => true | PInline i => admits_unit i end) (map (fun c => PText (String c "")) (list_ascii_of_string s)) = true).
  { apply forallb_forall. intros p I. apply in_map_iff in I as (c & <- & _). reflexivity. }
  now rewrite F.
Qed.
Lemma str_texts l : unit_names_str (map PText l) = Ok (join "" l).
Proof.
  unfold unit_names_str. match goal with |- (let* ps := ?m in _) = _ => assert (E : m = Ok l) end.
  { induction l as [|s l IH]; auto. cbn [map mapM]. rewrite IH. reflexivity. }
  now rewrite E.
Qed.
Lemma merged_chars s : merged (map (fun c => PText (String c "")) (list_ascii_of_string s)) = match s with "" => [] | _ => [PText s] end.
Proof.
  induction s as [|c s IH]; [reflexivity|]. cbn [list_ascii_of_string map]. rewrite merged_text by discriminate. rewrite IH. destruct s; reflexivity.
Qed.
