(** Round trips of parts of an element: what a sequence of writer statements adds, and what the
    reader statements find among the children. *)
From Verif Require Import Base PBase MNames MNum SNum PNum PNum3 MXml SXml PXml PXml2 MNs PNs MEnum PEnum MRefTab MRef SEnum PRef MCodec SCodec PCodec.
Open Scope list_scope.

(** ** Enumeration texts *)
Definition enum_ok {A} (m : enum_map A) : Prop :=
  forall a, exists t, enum_text m a = Ok t /\ xml_to_enum m t 51 = Ok a /\ t <> "" /\ calm t /\ safe_attr t.
Ltac solve_enum := let a := fresh in intros a; destruct a;
  (eexists; split; [reflexivity|]; split; [reflexivity|]; split; [discriminate|]; split; [apply calmb_sound; reflexivity|apply safe_attrb_sound; reflexivity]).
Lemma ok_ArgumentDirection : enum_ok em_ArgumentDirection. Proof. solve_enum. Qed.
Lemma ok_ArrayImplPolicy : enum_ok em_ArrayImplPolicy. Proof. solve_enum. Qed.
Lemma ok_ArraySizeHandling : enum_ok em_ArraySizeHandling. Proof. solve_enum. Qed.
Lemma ok_ArraySizeSemantics : enum_ok em_ArraySizeSemantics. Proof. solve_enum. Qed.
Lemma ok_ByteOrder : enum_ok em_ByteOrder. Proof. solve_enum. Qed.
Lemma ok_CalibrationAxisCategory : enum_ok em_CalibrationAxisCategory. Proof. solve_enum. Qed.
Lemma ok_DataFilterType : enum_ok em_DataFilterType. Proof. solve_enum. Qed.
Lemma ok_DataTransformationErrorHandling : enum_ok em_DataTransformationErrorHandling. Proof. solve_enum. Qed.
Lemma ok_DataTransformationStatusForwarding : enum_ok em_DataTransformationStatusForwarding. Proof. solve_enum. Qed.
Lemma ok_DisplayPresentation : enum_ok em_DisplayPresentation. Proof. solve_enum. Qed.
Lemma ok_EmphasisType : enum_ok em_EmphasisType. Proof. solve_enum. Qed.
Lemma ok_EmphasisFont : enum_ok em_EmphasisFont. Proof. solve_enum. Qed.
Lemma ok_Float : enum_ok em_Float. Proof. solve_enum. Qed.
Lemma ok_HandleInvalid : enum_ok em_HandleInvalid. Proof. solve_enum. Qed.
Lemma ok_HandleOutOfRange : enum_ok em_HandleOutOfRange. Proof. solve_enum. Qed.
Lemma ok_HandleOutOfRangeStatus : enum_ok em_HandleOutOfRangeStatus. Proof. solve_enum. Qed.
Lemma ok_HandleTimeout : enum_ok em_HandleTimeout. Proof. solve_enum. Qed.
Lemma ok_IdentifiableSubTypes : enum_ok em_IdentifiableSubTypes. Proof. solve_enum. Qed.
Lemma ok_IntervalType : enum_ok em_IntervalType. Proof. solve_enum. Qed.
Lemma ok_KeepWithPrevious : enum_ok em_KeepWithPrevious. Proof. solve_enum. Qed.
Lemma ok_Language : enum_ok em_Language. Proof. solve_enum. Qed.
Lemma ok_ModeActivationKind : enum_ok em_ModeActivationKind. Proof. solve_enum. Qed.
Lemma ok_ModeErrorReactionPolicy : enum_ok em_ModeErrorReactionPolicy. Proof. solve_enum. Qed.
Lemma ok_Monotony : enum_ok em_Monotony. Proof. solve_enum. Qed.
Lemma ok_PageBreak : enum_ok em_PageBreak. Proof. solve_enum. Qed.
Lemma ok_PageWide : enum_ok em_PageWide. Proof. solve_enum. Qed.
Lemma ok_ReentrancyLevel : enum_ok em_ReentrancyLevel. Proof. solve_enum. Qed.
Lemma ok_RteApiReturnValueProvision : enum_ok em_RteApiReturnValueProvision. Proof. solve_enum. Qed.
Lemma ok_ScaleConstraintValidity : enum_ok em_ScaleConstraintValidity. Proof. solve_enum. Qed.
Lemma ok_ServerArgImplPolicy : enum_ok em_ServerArgImplPolicy. Proof. solve_enum. Qed.
Lemma ok_SupportBufferLocking : enum_ok em_SupportBufferLocking. Proof. solve_enum. Qed.
Lemma ok_SwCalibrationAccess : enum_ok em_SwCalibrationAccess. Proof. solve_enum. Qed.
Lemma ok_SwImplPolicy : enum_ok em_SwImplPolicy. Proof. solve_enum. Qed.
Lemma ok_TransmissionMode : enum_ok em_TransmissionMode. Proof. solve_enum. Qed.
Lemma ok_VariableAccessScope : enum_ok em_VariableAccessScope. Proof. solve_enum. Qed.
#[export] Hint Resolve ok_ArgumentDirection ok_ArrayImplPolicy ok_ArraySizeHandling ok_ArraySizeSemantics ok_ByteOrder ok_CalibrationAxisCategory ok_DataFilterType ok_DataTransformationErrorHandling ok_DataTransformationStatusForwarding ok_DisplayPresentation ok_EmphasisType ok_EmphasisFont ok_Float ok_HandleInvalid ok_HandleOutOfRange ok_HandleOutOfRangeStatus ok_HandleTimeout ok_IdentifiableSubTypes ok_IntervalType ok_KeepWithPrevious ok_Language ok_ModeActivationKind ok_ModeErrorReactionPolicy ok_Monotony ok_PageBreak ok_PageWide ok_ReentrancyLevel ok_RteApiReturnValueProvision ok_ScaleConstraintValidity ok_ServerArgImplPolicy ok_SupportBufferLocking ok_SwCalibrationAccess ok_SwImplPolicy ok_TransmissionMode ok_VariableAccessScope : enums.

(** ** Lookup by tag *)
Lemma get_findall tag k : get tag k = hd_error (findall tag k).
Proof. unfold findall. induction k as [|x k IH]; cbn; auto. destruct (String.eqb tag (x_tag x)); auto. Qed.
Lemma findall_app tag a b : findall tag (a ++ b) = findall tag a ++ findall tag b.
Proof. apply filter_app. Qed.

(** Two lists of elements look the same to a reader that asks for the tags [T] only. *)
Definition agree (T : list string) (k k' : list xml) : Prop := forall t, In t T -> findall t k = findall t k'.

(** The statements [m] write elements with tags in [T] only; whatever the other children are,
    [P] holds of the children. *)
Definition piece (T : list string) (m : out) (P : list xml -> Prop) : Prop :=
  exists L, m = Ok L /\ Forall (fun w => In (w_tag w) T /\ safe w) L /\
    forall step d kids, agree T kids (map (element step d) L) -> P kids.

Definition disjointb (a b : list string) : bool := forallb (fun x => negb (existsb (String.eqb x) b)) a.
Lemma disjointb_sound a b x : disjointb a b = true -> In x a -> In x b -> False.
Proof.
  unfold disjointb. rewrite forallb_forall. intros H A B. specialize (H x A). apply negb_true_iff in H.
  enough (existsb (String.eqb x) b = true) by congruence. apply existsb_exists. exists x. now rewrite String.eqb_refl.
Qed.

Lemma x_tag_element step d w : x_tag (element step d w) = w_tag w.
Proof. now destruct w. Qed.
Lemma findall_other t T L step d : Forall (fun w => In (w_tag w) T /\ safe w) L -> ~ In t T -> findall t (map (element step d) L) = [].
Proof.
  intros F N. induction F as [|w L [I _] F IH]; cbn; auto. rewrite x_tag_element. destruct (String.eqb_spec t (w_tag w)) as [->|]; [tauto|]. exact IH.
Qed.

Lemma piece_nil (P : list xml -> Prop) : (forall k, P k) -> piece [] (Ok []) P.
Proof. intros H. exists []. split; [reflexivity|]. split; [constructor|]. intros; auto. Qed.

Lemma piece_app T1 T2 m1 m2 (P1 P2 : list xml -> Prop) : piece T1 m1 P1 -> piece T2 m2 P2 -> disjointb T1 T2 = true ->
  piece (T1 ++ T2) (andthen m1 m2) (fun k => P1 k /\ P2 k).
Proof.
  intros (L1 & -> & F1 & A1) (L2 & -> & F2 & A2) D. exists (L1 ++ L2). split; [reflexivity|]. split.
  - apply Forall_app. split; (eapply Forall_impl; [|eassumption]); intros w [I S]; split; auto; apply in_or_app; auto.
  - intros step d kids A. split.
    + apply (A1 step d). intros t I. rewrite (A t) by (apply in_or_app; auto). rewrite map_app, findall_app.
      rewrite (findall_other t T2 L2); [apply app_nil_r|assumption|]. intros I2. exact (disjointb_sound _ _ _ D I I2).
    + apply (A2 step d). intros t I. rewrite (A t) by (apply in_or_app; auto). rewrite map_app, findall_app.
      rewrite (findall_other t T1 L1); [reflexivity|assumption|]. intros I1. exact (disjointb_sound _ _ _ D I1 I).
Qed.
Lemma piece_imp T m (P Q : list xml -> Prop) : piece T m P -> (forall k, P k -> Q k) -> piece T m Q.
Proof. intros (L & E & F & A) H. exists L. splits; eauto. Qed.
Lemma piece_more T T' m P : piece T m P -> incl T T' -> piece T' m P.
Proof.
  intros (L & E & F & A) I. exists L. split; auto. split; [eapply Forall_impl; [|eassumption]; intros w [X Y]; auto|].
  intros step d kids G. apply (A step d). intros t J. apply G, I, J.
Qed.

(** Nothing is written. *)
Lemma piece_none T (P : list xml -> Prop) : (forall k, (forall t, In t T -> findall t k = []) -> P k) -> piece T (Ok []) P.
Proof. intros H. exists []. split; [reflexivity|]. split; [constructor|]. intros step d kids A. apply H. intros t I. now rewrite (A t I). Qed.
(** One element. *)
Lemma piece_one {A} tag m (rd : xml -> result A) a (P : list xml -> Prop) : carries tag m rd a ->
  (forall k x, findall tag k = [x] -> rd x = Ok a -> P k) -> piece [tag] m P.
Proof.
  intros (w & -> & T & S & R) H. exists [w]. split; [reflexivity|]. split.
  - constructor; [|constructor]. split; auto. now left.
  - intros step d kids G. specialize (G tag (or_introl eq_refl)). cbn in G. rewrite x_tag_element, T, String.eqb_refl in G.
    exact (H _ _ G (R step d)).
Qed.

Lemma child_one {A} tag k x (rd : xml -> result A) a : findall tag k = [x] -> rd x = Ok a -> child tag k rd = Ok (Some a).
Proof. intros F R. unfold child. rewrite get_findall, F. cbn. now rewrite R. Qed.
Lemma child_none {A} tag k (rd : xml -> result A) : findall tag k = [] -> child tag k rd = Ok None.
Proof. intros F. unfold child. now rewrite get_findall, F. Qed.
Lemma in_head (t : string) : In t [t]. Proof. now left. Qed.

(** An optional child: [if_set] in the writer, [child] in the reader. *)
Lemma p_child {A B} tag (o : option A) body (rd : xml -> result B) (f : A -> B) :
  (forall a, o = Some a -> carries tag (body a) rd (f a)) ->
  piece [tag] (if_set o body) (fun k => child tag k rd = Ok (option_map f o)).
Proof.
  intros H. destruct o as [a|]; cbn [if_set option_map].
  - eapply piece_one; [exact (H a eq_refl)|]. intros k x F R. now apply (child_one _ _ x).
  - apply piece_none. intros k F. apply child_none, F, in_head.
Qed.
Lemma option_map_id {A} (o : option A) : option_map (fun a => a) o = o. Proof. now destruct o. Qed.
Lemma p_child_id {A} tag (o : option A) body (rd : xml -> result A) :
  (forall a, o = Some a -> carries tag (body a) rd a) ->
  piece [tag] (if_set o body) (fun k => child tag k rd = Ok o).
Proof. intros H. pose proof (p_child tag o body rd (fun a => a) H) as X. rewrite option_map_id in X. exact X. Qed.
(** A child that is always written. *)
Lemma p_always {A} tag m (rd : xml -> result A) a : carries tag m rd a -> piece [tag] m (fun k => child tag k rd = Ok (Some a)).
Proof. intros H. eapply piece_one; [exact H|]. intros k x F R. now apply (child_one _ _ x). Qed.

(** ** Elements with text *)
Lemma e_leaf {A} tag a s (rd : xml -> result A) x : name_okb tag = true -> attrs_ok a -> safe_text s ->
  rd (Elem tag a s [] []) = Ok x -> carries tag (Ok [Leaf tag a s]) rd x.
Proof.
  intros N AO S R. exists (Leaf tag a s). splits; auto. constructor; auto. now apply name_okb_sound.
Qed.
Definition good_mark (m : mark) : Prop := local_name (mk_tag m) /\ attrs_ok (mk_attrs m) /\ safe_text (mk_text m) /\ safe_text (mk_tail m).
Definition mark_elem (m : mark) : xml := Elem (mk_tag m) (mk_attrs m) (mk_text m) [] [].
Lemma e_line {A} tag a s ms (rd : xml -> result A) x : name_okb tag = true -> attrs_ok a -> safe_text s -> Forall good_mark ms ->
  rd (Elem tag a s (map mark_elem ms) (map mk_tail ms)) = Ok x -> carries tag (Ok [Line tag a s ms]) rd x.
Proof.
  intros N AO S M R. exists (Line tag a s ms). splits; auto. constructor; auto. now apply name_okb_sound.
Qed.
Lemma attrs_ok_nil : attrs_ok []. Proof. now apply attrs_okb_sound. Qed.
Lemma attrs_ok_one n v : name_okb n = true -> safe_attr v -> attrs_ok [(n, v)].
Proof. intros N S. split; [repeat constructor; intros []|]. intros n' v' [E|[]]. injection E as <- <-. split; auto. now apply name_okb_sound. Qed.

Lemma text_opt_ne tag a s k l : s <> "" -> text_opt (Elem tag a s k l) = Some s.
Proof. intros H. unfold text_opt. cbn. destruct s; congruence. Qed.

Definition rd_text (x : xml) : result (option string) := Ok (text_opt x).
Lemma p_text tag (o : option string) : name_okb tag = true -> opt_ok good_text o ->
  piece [tag] (if_set o (fun s => content tag (Ok s))) (fun k => child_text tag k = Ok o).
Proof.
  intros N H. destruct o as [s|]; cbn [if_set].
  - destruct H as [NE S]. eapply (piece_one tag _ rd_text (Some s)).
    + apply e_leaf; auto using attrs_ok_nil. unfold rd_text. now rewrite text_opt_ne.
    + intros k x F R. unfold child_text. rewrite get_findall, F. cbn. unfold rd_text in R. congruence.
  - apply piece_none. intros k F. unfold child_text. rewrite get_findall, F by apply in_head. reflexivity.
Qed.

Lemma c_bool tag b : name_okb tag = true -> carries tag (content tag (Ok (format_boolean b))) rd_boolean b.
Proof. intros N. apply e_leaf; auto using attrs_ok_nil. - apply calm_safe, calmb_sound. now destruct b. - now destruct b. Qed.
Lemma c_enum {E} (m : enum_map E) tag a : enum_ok m -> name_okb tag = true -> carries tag (content tag (enum_text m a)) (rd_enum m) a.
Proof.
  intros OK N. destruct (OK a) as (t & W & R & NE & C & _). unfold content. rewrite W. apply e_leaf; auto using attrs_ok_nil, calm_safe.
Qed.
Lemma c_number tag n : name_okb tag = true -> good_number n -> carries tag (content tag (format_number n)) rd_number (reread n).
Proof.
  intros N G. destruct (number_text n G) as (t & W & NE & C & R). unfold content. rewrite W.
  apply e_leaf; auto using attrs_ok_nil, calm_safe. unfold rd_number. now rewrite text_opt_ne.
Qed.
Lemma c_float tag n : name_okb tag = true -> good_float n -> carries tag (content tag (format_float n)) rd_float n.
Proof.
  intros N G. destruct (float_text n G) as (t & f & W & -> & NE & C & F & R). unfold content. rewrite W.
  apply e_leaf; auto using attrs_ok_nil, calm_safe. unfold rd_float. rewrite text_opt_ne, F; auto.
Qed.
Lemma c_float_number tag n : name_okb tag = true -> good_float n -> carries tag (content tag (format_float n)) rd_number (reread n).
Proof.
  intros N G. destruct (float_text n G) as (t & f & W & -> & NE & C & F & R). unfold content. rewrite W.
  apply e_leaf; auto using attrs_ok_nil, calm_safe. unfold rd_number. rewrite text_opt_ne, R; auto.
Qed.
Lemma c_number_float tag n : name_okb tag = true -> good_float n -> carries tag (content tag (format_number n)) rd_float n.
Proof.
  intros N G. destruct (float_text n G) as (t & f & W & -> & NE & C & F & R). unfold content. cbn [format_number]. rewrite W.
  apply e_leaf; auto using attrs_ok_nil, calm_safe. unfold rd_float. rewrite text_opt_ne, F; auto.
Qed.
Lemma c_int tag z : name_okb tag = true -> carries tag (content tag (Ok (zstr z))) rd_int z.
Proof.
  intros N. apply e_leaf; auto using attrs_ok_nil, calm_safe, zstr_calm. unfold rd_int. rewrite text_opt_ne by apply zstr_ne. now rewrite int10_zstr.
Qed.
Lemma c_integer tag z : name_okb tag = true -> carries tag (content tag (Ok (zstr z))) rd_integer z.
Proof.
  intros N. apply e_leaf; auto using attrs_ok_nil, calm_safe, zstr_calm. unfold rd_integer. rewrite text_opt_ne by apply zstr_ne.
  unfold read_integer. now rewrite int0_zstr.
Qed.
Lemma c_positive tag z : name_okb tag = true -> (0 <= z)%Z -> carries tag (content tag (Ok (zstr z))) rd_positive z.
Proof.
  intros N P. apply e_leaf; auto using attrs_ok_nil, calm_safe, zstr_calm. unfold rd_positive. rewrite text_opt_ne by apply zstr_ne.
  unfold pos_validate. rewrite int0_zstr. destruct (Z.ltb_spec z 0); [lia|]. cbn. now rewrite Z2N.id.
Qed.
Lemma c_str tag s : name_okb tag = true -> good_text s -> carries tag (content tag (Ok s)) rd_str s.
Proof. intros N [NE S]. apply e_leaf; auto using attrs_ok_nil. unfold rd_str. now rewrite text_opt_ne. Qed.

(** References *)
Lemma c_ref c v tag r : In c all_ref_classes -> rc_reader c <> NoReader -> name_okb tag = true -> good_ref c r ->
  carries tag (write_ref tag r) (read_ref c v) r.
Proof.
  intros I NR N [V S]. destruct (ok_IdentifiableSubTypes (rf_dest r)) as (t & W & _ & _ & _ & A).
  destruct (ref_round_trip c I NR v tag r 0 0 V) as (w & E & R).
  unfold write_ref in *. unfold enum_text in W. rewrite W in *. cbn [bind] in *. assert (w = Leaf tag [("DEST", t)] (rf_value r)) by congruence. subst w. clear E.
  apply e_leaf; auto. now apply attrs_ok_one.
Qed.

(** ** Lists of children *)
Lemma each {A B} (l : list A) body (rd : xml -> result B) (f : A -> B) (Q : wt -> Prop) :
  (forall a, In a l -> exists w, body a = Ok [w] /\ Q w /\ safe w /\ forall step d, rd (element step d w) = Ok (f a)) ->
  exists L, for_each l body = Ok L /\ Forall (fun w => Q w /\ safe w) L /\ List.length L = List.length l /\
    forall step d, mapM rd (map (element step d) L) = Ok (map f l).
Proof.
  induction l as [|a l IH]; intros H.
  - exists []. splits; auto; constructor.
  - destruct (H a (or_introl eq_refl)) as (w & W & T & S & R). destruct IH as (L & E & F & N & M); [intros; apply H; now right|].
    exists (w :: L). unfold for_each in *. cbn [map cat]. rewrite W, E. cbn. splits; auto. intros step d. cbn. rewrite R. cbn. now rewrite M.
Qed.
Lemma findall_all tag L step d : Forall (fun w => w_tag w = tag /\ safe w) L -> findall tag (map (element step d) L) = map (element step d) L.
Proof.
  intros F. induction F as [|w L [T _] F IH]; cbn; auto. rewrite x_tag_element, T, String.eqb_refl. f_equal. exact IH.
Qed.
Lemma Forall_safe (Q : wt -> Prop) L : Forall (fun w => Q w /\ safe w) L -> Forall safe L.
Proof. apply Forall_impl. intros w []. auto. Qed.

Lemma c_node {A} tag a m (rd : xml -> result A) x L : name_okb tag = true -> attrs_ok a -> m = Ok L -> Forall safe L ->
  (forall step d, rd (element step d (Node tag a L)) = Ok x) -> carries tag (node tag a m) rd x.
Proof.
  intros N AO -> F R. exists (Node tag a L). splits; auto. constructor; auto. now apply name_okb_sound.
Qed.
Lemma c_list {A B} container tag (l : list A) body (rd : xml -> result B) f : name_okb container = true ->
  (forall a, In a l -> carries tag (body a) rd (f a)) ->
  carries container (node container [] (for_each l body)) (fun x => mapM rd (findall tag (x_kids x))) (map f l).
Proof.
  intros N H. destruct (each l body rd f (fun w => w_tag w = tag)) as (L & E & F & _ & M); [exact H|].
  apply (c_node _ _ _ _ _ L); auto using attrs_ok_nil; [eapply Forall_safe; exact F|]. intros step d. cbn [element x_kids]. rewrite findall_all; auto.
Qed.
Lemma c_any {A B} container (l : list A) body (rd : xml -> result B) f : name_okb container = true ->
  (forall a, In a l -> exists tag, carries tag (body a) rd (f a)) ->
  carries container (node container [] (for_each l body)) (fun x => mapM rd (x_kids x)) (map f l).
Proof.
  intros N H. destruct (each l body rd f (fun w => True)) as (L & E & F & _ & M).
  { intros a I. destruct (H a I) as (tag & w & W & _ & S & R). eauto 6. }
  apply (c_node _ _ _ _ _ L); auto using attrs_ok_nil; [eapply Forall_safe; exact F|]. intros step d. apply M.
Qed.
Lemma p_children {A B} container tag (l : list A) body (rd : xml -> result B) f : name_okb container = true ->
  (forall a, In a l -> carries tag (body a) rd (f a)) ->
  piece [container] (if_some l (node container [] (for_each l body))) (fun k => children container tag k rd = Ok (map f l)).
Proof.
  intros N H. unfold children. destruct l as [|a l]; cbn [if_some map].
  - apply piece_none. intros k F. rewrite get_findall, F by apply in_head. reflexivity.
  - eapply piece_one; [exact (c_list container tag (a :: l) body rd f N H)|]. intros k x F R. cbv beta in R. rewrite get_findall, F. exact R.
Qed.
Lemma p_children_any {A B} container (l : list A) body (rd : xml -> result B) f : name_okb container = true ->
  (forall a, In a l -> exists tag, carries tag (body a) rd (f a)) ->
  piece [container] (if_some l (node container [] (for_each l body))) (fun k => children_any container k rd = Ok (map f l)).
Proof.
  intros N H. unfold children_any. destruct l as [|a l]; cbn [if_some map].
  - apply piece_none. intros k F. rewrite get_findall, F by apply in_head. reflexivity.
  - eapply piece_one; [exact (c_any container (a :: l) body rd f N H)|]. intros k x F R. cbv beta in R. rewrite get_findall, F. exact R.
Qed.
Lemma p_children_id {A} container tag (l : list A) body (rd : xml -> result A) : name_okb container = true ->
  (forall a, In a l -> carries tag (body a) rd a) ->
  piece [container] (if_some l (node container [] (for_each l body))) (fun k => children container tag k rd = Ok l).
Proof. intros N H. pose proof (p_children container tag l body rd (fun a => a) N H) as X. rewrite map_id in X. exact X. Qed.
Lemma p_children_any_id {A} container (l : list A) body (rd : xml -> result A) : name_okb container = true ->
  (forall a, In a l -> exists tag, carries tag (body a) rd a) ->
  piece [container] (if_some l (node container [] (for_each l body))) (fun k => children_any container k rd = Ok l).
Proof. intros N H. pose proof (p_children_any container l body rd (fun a => a) N H) as X. rewrite map_id in X. exact X. Qed.

(** ** Whole elements *)
Lemma e_node {A} tag a m (rd : xml -> result A) x T (P : list xml -> Prop) : piece T m P -> name_okb tag = true -> attrs_ok a ->
  (forall t k l, P k -> rd (Elem tag a t k l) = Ok x) -> carries tag (node tag a m) rd x.
Proof.
  intros (L & -> & F & G) N AO R. eapply c_node; eauto.
  - eapply Forall_impl; [|exact F]. intros w []. auto.
  - intros step d. cbn [element]. apply R. apply (G step (S d)). intros t _. reflexivity.
Qed.
Lemma e_empty {A} tag (rd : xml -> result A) x : name_okb tag = true -> rd (Elem tag [] "" [] []) = Ok x -> carries tag (empty tag) rd x.
Proof. intros N R. apply e_leaf; auto using attrs_ok_nil. apply calm_safe. exact I. Qed.
(** A whole element inside its parent, at text level: rendered and parsed. *)
Lemma carries_text {A} tag m (rd : xml -> result A) a : carries tag m rd a -> forall step,
  exists w t x, m = Ok [w] /\ render step w = Ok t /\ parse_names t = Ok x /\ rd x = Ok a.
Proof.
  intros (w & E & _ & S & R) step. destruct (parse_render step w (safe_well w S)) as (t & T & P). exists w, t, (element step 0 w). splits; auto. now apply safe_named.
Qed.
Lemma piece_cat1 T m P : piece T m P -> piece T (cat [m]) P.
Proof. intros (L & -> & F & G). exists L. cbn. rewrite app_nil_r. auto. Qed.
Lemma cat_cons m n r : cat (m :: n :: r) = andthen m (cat (n :: r)).
Proof. reflexivity. Qed.
Lemma piece_cons T1 T2 m n r (P1 P2 : list xml -> Prop) : piece T1 m P1 -> piece T2 (cat (n :: r)) P2 -> disjointb T1 T2 = true ->
  piece (T1 ++ T2) (cat (m :: n :: r)) (fun k => P1 k /\ P2 k).
Proof. rewrite cat_cons. apply piece_app. Qed.
