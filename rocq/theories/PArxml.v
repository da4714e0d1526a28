(** Documents: round trips, schema version, tolerant reading. *)
From Verif Require Import Base PBase MNames PNames MNum SNum PNum PNum3 MXml SXml PXml PXml2 MNs SNs PNs MEnum PEnum MRefTab MRef SEnum PRef MCodec SCodec PCodec PPiece PIdent MElem0 PElem0 PElemRef MElem1 MElemA MElemB MElemC MElem2 MElemD MElem3 MElem4 MElemE MElem5 MElemF SElem1 SElemA SElemB SElemC SElem2 SElemD SElem3 SElem4 SElemE SElem5 SElemF PElem1 PElemA PElemB PElemC PElem2 PElemD PElem3 PElem4 PElemE PElem5 PElemF MArxml SArxml.
Open Scope list_scope.

Lemma rs_ARElement v e : good_ARElement v e ->
  exists tag rd, read_collectable v tag = Some rd /\ carries tag (write_collectable v e) rd (norm_ARElement e).
Proof.
  destruct e as [e|e|e|e|e|e|e|e|e|e|e|e|e|e|e|e|e|e|e|e|e]; cbn [good_ARElement write_collectable norm_ARElement]; intros G.
  - exists "COMPU-METHOD". eexists. split; [reflexivity|]. eapply carries_as; [exact (rt_CompuMethod v e G)|]. intros x T R. now rewrite R.
  - exists "APPLICATION-ARRAY-DATA-TYPE". eexists. split; [reflexivity|]. eapply carries_as; [exact (rt_ApplicationArrayDataType v e G)|]. intros x T R. now rewrite R.
  - exists "APPLICATION-RECORD-DATA-TYPE". eexists. split; [reflexivity|]. eapply carries_as; [exact (rt_ApplicationRecordDataType v e G)|]. intros x T R. now rewrite R.
  - exists "APPLICATION-PRIMITIVE-DATA-TYPE". eexists. split; [reflexivity|]. eapply carries_as; [exact (rt_ApplicationPrimitiveDataType v e G)|]. intros x T R. now rewrite R.
  - exists "SW-BASE-TYPE". eexists. split; [reflexivity|]. eapply carries_as; [exact (rt_SwBaseType v e G)|]. intros x T R. now rewrite R.
  - exists "SW-ADDR-METHOD". eexists. split; [reflexivity|]. eapply carries_as; [exact (rt_SwAddrMethod v e G)|]. intros x T R. now rewrite R.
  - exists "IMPLEMENTATION-DATA-TYPE". eexists. split; [reflexivity|]. eapply carries_as; [exact (rt_ImplementationDataType v e G)|]. intros x T R. now rewrite R.
  - exists "DATA-TYPE-MAPPING-SET". eexists. split; [reflexivity|]. eapply carries_as; [exact (rt_DataTypeMappingSet v e G)|]. intros x T R. now rewrite R.
  - exists "DATA-CONSTR". eexists. split; [reflexivity|]. eapply carries_as; [exact (rt_DataConstraint v e G)|]. intros x T R. now rewrite R.
  - exists "UNIT". eexists. split; [reflexivity|]. eapply carries_as; [exact (rt_Unit v e G)|]. intros x T R. now rewrite R.
  - exists "CONSTANT-SPECIFICATION". eexists. split; [reflexivity|]. eapply carries_as; [exact (rt_ConstantSpecification v e G)|]. intros x T R. now rewrite R.
  - exists "NV-DATA-INTERFACE". eexists. split; [reflexivity|]. eapply carries_as; [exact (rt_NvDataInterface v e G)|]. intros x T R. now rewrite R.
  - exists "PARAMETER-INTERFACE". eexists. split; [reflexivity|]. eapply carries_as; [exact (rt_ParameterInterface v e G)|]. intros x T R. now rewrite R.
  - exists "SENDER-RECEIVER-INTERFACE". eexists. split; [reflexivity|]. eapply carries_as; [exact (rt_SenderReceiverInterface v e G)|]. intros x T R. now rewrite R.
  - exists "CLIENT-SERVER-INTERFACE". eexists. split; [reflexivity|]. eapply carries_as; [exact (rt_ClientServerInterface v e G)|]. intros x T R. now rewrite R.
  - exists "MODE-SWITCH-INTERFACE". eexists. split; [reflexivity|]. eapply carries_as; [exact (rt_ModeSwitchInterface v e G)|]. intros x T R. now rewrite R.
  - exists "MODE-DECLARATION-GROUP". eexists. split; [reflexivity|]. eapply carries_as; [exact (rt_ModeDeclarationGroup v e G)|]. intros x T R. now rewrite R.
  - exists "E-2-E-PROFILE-COMPATIBILITY-PROPS". eexists. split; [reflexivity|]. eapply carries_as; [exact (rt_E2EProfileCompatibilityProps v e G)|]. intros x T R. now rewrite R.
  - exists "APPLICATION-SW-COMPONENT-TYPE". eexists. split; [reflexivity|]. eapply carries_as; [exact (rt_ApplicationSoftwareComponentType v e G)|]. intros x T R. now rewrite R.
  - exists "COMPOSITION-SW-COMPONENT-TYPE". eexists. split; [reflexivity|]. eapply carries_as; [exact (rt_CompositionSwComponentType v e G)|]. intros x T R. now rewrite R.
  - exists "SWC-IMPLEMENTATION". eexists. split; [reflexivity|]. eapply carries_as; [exact (rt_SwcImplementation v e G)|]. intros x T R. now rewrite R.
Qed.

(** ** Packages *)
Lemma norm_element_name e : element_name (norm_ARElement e) = element_name e.
Proof. destruct e; reflexivity. Qed.
Lemma norm_package_name p : package_name (norm_package p) = package_name p.
Proof. now destruct p. Qed.
Lemma norm_element_names l : map element_name (map norm_ARElement l) = map element_name l.
Proof. rewrite map_map. apply map_ext, norm_element_name. Qed.
Lemma norm_package_names l : map package_name (map norm_package l) = map package_name l.
Proof. rewrite map_map. apply map_ext, norm_package_name. Qed.
Fixpoint package_size (p : package) : nat :=
  match p with mkPackage _ _ ps => S (fold_right (fun q n => (package_size q + n)%nat) O ps) end.
Lemma package_size_in i es ps q : In q ps -> (package_size q < package_size (mkPackage i es ps))%nat.
Proof. cbn [package_size]. intros I. apply Nat.lt_succ_r. induction ps as [|x ps IH]; [destruct I|]. cbn. destruct I as [->|I]; [lia|]. specialize (IH I). lia. Qed.

Lemma among_false n l : among n l = false <-> ~ In n l.
Proof.
  unfold among. split.
  - intros E I. enough (existsb (String.eqb n) l = true) by congruence. apply existsb_exists. exists n. now rewrite String.eqb_refl.
  - intros N. destruct (existsb (String.eqb n) l) eqn:E; auto. apply existsb_exists in E as (x & I & E). apply String.eqb_eq in E. now subst.
Qed.
Lemma among_true n l : among n l = true <-> In n l.
Proof. destruct (among n l) eqn:E; [|rewrite among_false in E; intuition discriminate]. split; auto. intros _. unfold among in E. apply existsb_exists in E as (x & I & E). apply String.eqb_eq in E. now subst. Qed.

(** If the selected children read well and bring new names, they all become elements. *)
Lemma read_elements_select v stop i kids es0 es ps : select (read_collectable v) kids = Ok es ->
  NoDup (map element_name (es0 ++ es)) -> ps = [] ->
  read_package_elements v stop (mkPackage i es0 ps) kids = Ok (mkPackage i (es0 ++ es) ps).
Proof.
  intros E N ->. revert es0 es E N. induction kids as [|x kids IH]; cbn [select read_package_elements]; intros es0 es E N.
  - injection E as <-. now rewrite app_nil_r.
  - destruct (read_collectable v (x_tag x)) as [rd|]; [|now apply IH].
    destruct (rd x) as [e|]; cbn [bind] in *; [|discriminate]. destruct (select _ kids) as [es'|]; cbn [bind] in *; [|discriminate]. injection E as <-.
    unfold append_element. cbn [names_in map]. rewrite app_nil_r.
    assert (F : among (element_name e) (map element_name es0) = false).
    { apply among_false. rewrite map_app in N. cbn [map] in N. apply NoDup_remove_2 in N. intros I. apply N, in_or_app. now left. }
    rewrite F. rewrite (IH (es0 ++ [e]) es' eq_refl); rewrite <- app_assoc; auto.
Qed.
Lemma read_subs_all self i es l ps0 ps : mapM self l = Ok ps -> NoDup (map element_name es ++ map package_name (ps0 ++ ps)) ->
  read_sub_packages self (mkPackage i es ps0) l = Ok (mkPackage i es (ps0 ++ ps)).
Proof.
  revert ps0 ps. induction l as [|x l IH]; cbn [mapM read_sub_packages]; intros ps0 ps E N.
  - injection E as <-. now rewrite app_nil_r.
  - destruct (self x) as [q|]; cbn [bind] in *; [|discriminate]. destruct (mapM self l) as [qs|]; cbn [bind] in *; [|discriminate]. injection E as <-.
    unfold append_package. cbn [names_in].
    assert (F : among (package_name q) (map element_name es ++ map package_name ps0) = false).
    { apply among_false. rewrite map_app, app_assoc in N. cbn [map] in N. now apply NoDup_remove_2 in N as M; intros I; apply M, in_or_app; left. }
    rewrite F. cbn [bind]. rewrite (IH (ps0 ++ [q]) qs eq_refl); rewrite <- app_assoc; auto.
Qed.
Lemma read_subs_ext f g p l : (forall y, In y l -> f y = g y) -> read_sub_packages f p l = read_sub_packages g p l.
Proof.
  revert p. induction l as [|x l IH]; intros p H; auto. cbn. rewrite (H x) by now left. destruct (g x) as [q|]; cbn [bind]; auto.
  destruct (append_package p q) as [p'|]; cbn [bind]; auto. apply IH. intros y I. apply H. now right.
Qed.
Lemma read_package_local v stop : local (read_package_ v stop).
Proof.
  intros f g x H. unfold read_package_. destruct (read_ident (x_attrs x) (x_kids x)); cbn [bind]; auto. destruct (new_identifiable _); cbn [bind]; auto.
  match goal with |- bind ?m _ = bind ?m _ => destruct m; cbn [bind]; auto end.
  destruct (get "AR-PACKAGES" (x_kids x)) as [y|] eqn:E; auto. apply read_subs_ext. intros z I. apply H.
  apply findall_in, height_kid in I. apply get_in, height_kid in E. lia.
Qed.
Lemma read_package_eq v stop x : read_package v stop x = read_package_ v stop (read_package v stop) x.
Proof. exact (recursive_eq _ (read_package_local v stop) x). Qed.

Lemma NoDup_front {A} (a b : list A) : NoDup (a ++ b) -> NoDup a.
Proof. induction a as [|x a IH]; intros H; constructor; inversion H; subst; auto. intros I. apply H2, in_or_app. now left. Qed.
Lemma rt_package v stop p : good_package v p -> carries "AR-PACKAGE" (write_package v p) (read_package v stop) (norm_package p).
Proof.
  remember (package_size p) as n eqn:En. assert (L : (package_size p <= n)%nat) by lia. clear En. revert p L.
  induction n as [|n IH]; intros [i es ps] L; [cbn in L; lia|]. cbn [good_package write_package norm_package]. intros (Gi & N & Ge & Gp).
  eapply e_node; [|reflexivity|exact (uuid_attrs _ (proj2 (proj2 (proj2 (proj2 (proj2 (proj2 (proj2 Gi)))))) ))|].
  { eapply p_ident; [exact Gi| |].
    { eapply piece_cons; [exact (p_children_sel "ELEMENTS" es _ (read_collectable v) norm_ARElement eq_refl (fun a I => rs_ARElement v a (all_in _ _ a Ge I)))| |].
      eapply piece_cat1. refine (p_children "AR-PACKAGES" "AR-PACKAGE" ps _ (read_package v stop) norm_package eq_refl (fun a I => IH a _ (all_in _ _ a Gp I))).
      { pose proof (package_size_in i es ps a I). lia. }
      reflexivity. }
    reflexivity. }
  intros t k ktl H. cbv beta in H. unand H. rewrite read_package_eq. unfold read_package_. cbn [x_attrs x_kids].
  match goal with H : ident_read _ k |- _ => rewrite (H _ (uuid_assoc _)); clear H end. cbn [bind]. rewrite new_ident by assumption. cbn [bind].
  match goal with H : children_sel _ _ _ = _, H' : children _ _ _ _ = _ |- _ => rename H into Hs; rename H' into Hp end.
  assert (N' : NoDup (map element_name (map norm_ARElement es))) by (rewrite norm_element_names; exact (NoDup_front _ _ N)).
  assert (Es : match get "ELEMENTS" k with Some y => read_package_elements v stop (mkPackage i [] []) (x_kids y) | None => Ok (mkPackage i [] []) end
    = Ok (mkPackage i (map norm_ARElement es) [])).
  { unfold children_sel in Hs. destruct (get "ELEMENTS" k) as [y|].
    - apply (read_elements_select v stop i (x_kids y) [] _ [] Hs); auto.
    - injection Hs as E. now rewrite <- E. }
  rewrite Es. cbn [bind]. unfold children in Hp. destruct (get "AR-PACKAGES" k) as [y|].
  - apply (read_subs_all _ i _ _ [] _ Hp). cbn [app]. now rewrite norm_element_names, norm_package_names.
  - injection Hp as E. now rewrite <- E.
Qed.

(** ** The schema version *)
Lemma drop_app s r : str_drop (String.length s) (s ++ r)%string = r.
Proof. induction s as [|c s IH]; cbn; auto. Qed.
Lemma append_assoc a b c : (a ++ b ++ c = (a ++ b) ++ c)%string.
Proof. induction a as [|x a IH]; cbn; congruence. Qed.
Lemma safe_attr_app a b : safe_attr a -> safe_attr b -> safe_attr (a ++ b).
Proof. unfold safe_attr. induction a as [|x a IH]; cbn; auto. intros [H K] L. auto. Qed.
Lemma safe_attr_digits s : alld s = true -> safe_attr s.
Proof.
  unfold safe_attr. induction s as [|c s IH]; cbn [alld all_chars]; auto. destruct (digit_val c) as [d|] eqn:E; [|discriminate]. intros H. split; [|auto].
  unfold digit_val in E. cbv zeta in E. destruct ((48 <=? N_of_ascii c)%N && (N_of_ascii c <=? 57)%N) eqn:F; [|discriminate]. apply andb_true_iff in F as [F1 F2].
  apply N.leb_le in F1. apply N.leb_le in F2. unfold nat_of_ascii. splits; try (intros ->; vm_compute in F1, F2; congruence); lia.
Qed.
Lemma take_app s r : str_take (String.length s) (s ++ r)%string = s.
Proof. induction s as [|c s IH]; cbn; [now destruct r|now rewrite IH]. Qed.
Lemma digit_run_app s r : alld s = true -> digit_run (s ++ r)%string = (String.length s + digit_run r)%nat.
Proof. induction s as [|c s IH]; cbn; auto. destruct (digit_val c); [intros; now rewrite IH|discriminate]. Qed.
Lemma match_version s : alld s = true -> s <> "" -> match_digits (digit_run (s ++ ".xsd")) (s ++ ".xsd")%string = Some (digits_prefix s 0).
Proof.
  intros D NE. rewrite digit_run_app by assumption. change (digit_run ".xsd") with O. rewrite Nat.add_0_r.
  destruct (String.length s) as [|n] eqn:E; [destruct s; [congruence|discriminate]|].
  cbn [match_digits]. rewrite <- E, drop_app, take_app. reflexivity.
Qed.
Definition version_digits (v : N) : string := (zeros (5 - String.length (dec v)) ++ dec v)%string.
Lemma version_digits_spec v : alld (version_digits v) = true /\ version_digits v <> "" /\ digits_prefix (version_digits v) 0 = v.
Proof.
  unfold version_digits. splits.
  - rewrite alld_app, alld_zeros, alld_dec. reflexivity.
  - intros E. destruct (dec_head v) as (c & r & d & H & _). rewrite H in E. destruct (zeros _); discriminate.
  - rewrite digits_prefix_app by apply alld_zeros. rewrite digits_prefix_zeros. apply digits_prefix_dec.
Qed.
Lemma search_schema_file v : search_version ("http://autosar.org/schema/r4.0 " ++ schema_file v)%string = Some v.
Proof.
  destruct (version_digits_spec v) as (D & NE & V). unfold schema_file.
  rewrite (append_assoc (zeros _) (dec v)). fold (version_digits v).
  pose proof (match_version _ D NE) as M. set (s := version_digits v) in *. clearbody s.
  cbn [append search_version strip_prefix Ascii.eqb Bool.eqb]. 
  rewrite M. now rewrite V.
Qed.
Lemma root_version rv v : read_schema_version rv (root_attributes v) = v.
Proof. unfold read_schema_version, root_attributes. cbn [fold_left fst snd]. rewrite search_schema_file. reflexivity. Qed.
Lemma root_attributes_ok v : attrs_well (root_attributes v).
Proof.
  split; [apply nodupb_sound; reflexivity|]. intros n s I. unfold root_attributes in I. cbn [In] in I.
  destruct I as [E|[E|[E|[]]]]; injection E as <- <-; split; try (split; [reflexivity|repeat split]; fail); try (apply safe_attrb_sound; reflexivity).
  destruct (version_digits_spec v) as (D & _). unfold schema_file. rewrite (append_assoc (zeros _) (dec v)). fold (version_digits v).
  change (safe_attr ("http://autosar.org/schema/r4.0 " ++ "AUTOSAR_" ++ version_digits v ++ ".xsd")).
  apply safe_attr_app; [apply safe_attrb_sound; reflexivity|]. apply safe_attr_app; [apply safe_attrb_sound; reflexivity|].
  apply safe_attr_app; [now apply safe_attr_digits|apply safe_attrb_sound; reflexivity].
Qed.

(** ** Documents *)
Lemma read_packages_all v stop kids l0 ps : Forall (fun x => x_tag x = "AR-PACKAGE") kids -> mapM (read_package v stop) kids = Ok ps ->
  NoDup (map package_name (l0 ++ ps)) -> read_packages v stop l0 kids = Ok (l0 ++ ps).
Proof.
  intros F. revert l0 ps. induction F as [|x kids T F IH]; cbn [mapM read_packages]; intros l0 ps E N.
  - injection E as <-. now rewrite app_nil_r.
  - rewrite T, String.eqb_refl. destruct (read_package v stop x) as [p|]; cbn [bind] in *; [|discriminate]. destruct (mapM _ kids) as [qs|]; cbn [bind] in *; [|discriminate].
    injection E as <-. unfold collection_append.
    assert (A : among (package_name p) (map package_name l0) = false).
    { apply among_false. rewrite map_app in N. cbn [map] in N. apply NoDup_remove_2 in N. intros I. apply N, in_or_app. now left. }
    rewrite A. cbn [bind]. rewrite (IH (l0 ++ [p]) qs eq_refl); rewrite <- app_assoc; auto.
Qed.
Lemma p_packages v stop ps : NoDup (map package_name ps) -> all_ok (good_package v) ps ->
  piece ["AR-PACKAGES"] (if_some ps (node "AR-PACKAGES" [] (for_each ps (fun p => write_package v p))))
    (fun k => read_packages v stop [] (List.concat (map x_kids (findall "AR-PACKAGES" k))) = Ok (map norm_package ps)).
Proof.
  intros N G. destruct ps as [|p ps]; cbn [if_some].
  - apply piece_none. intros k F. rewrite F by apply in_head. reflexivity.
  - set (l := p :: ps) in *. clearbody l. clear p ps.
    destruct (each l (fun p => write_package v p) (read_package v stop) norm_package (fun w => w_tag w = "AR-PACKAGE")) as (L & E & F & _ & M).
    { intros a I. destruct (rt_package v stop a (all_in _ _ a G I)) as (w & W & T & S & R). exists w. auto. }
    rewrite E. eapply (piece_one "AR-PACKAGES" _ (fun x => read_packages v stop [] (x_kids x)) (map norm_package l)).
    + apply (c_node _ _ _ _ _ L); auto using attrs_ok_nil; [eapply Forall_safe; exact F|]. intros step d. cbn [element x_kids].
      apply (read_packages_all v stop _ [] (map norm_package l)); auto.
      * apply Forall_map. eapply Forall_impl; [|exact F]. intros w [T _]. now rewrite x_tag_element.
      * cbn [app]. now rewrite norm_package_names.
    + intros k x Fk R. rewrite Fk. cbn [map List.concat]. rewrite app_nil_r. exact R.
Qed.
(** The root element with its names resolved *)
Definition root_resolved (v : N) : attrs :=
  [("{http://www.w3.org/2001/XMLSchema-instance}schemaLocation", ("http://autosar.org/schema/r4.0 " ++ schema_file v)%string)].
Lemma resolved_version rv v : read_schema_version rv (root_resolved v) = v.
Proof. unfold read_schema_version, root_resolved. cbn [fold_left fst snd]. rewrite search_schema_file. reflexivity. Qed.
Lemma kids_load u kids : u = ""%string \/ u = arxml_uri -> (forall k, In k kids -> local_tree k) -> map clean_namespace (map (within u) kids) = kids.
Proof. intros U K. rewrite map_map. rewrite <- (map_id kids) at 2. apply map_ext_in. intros k I. apply clean_within; auto. Qed.
Lemma resolve_kids env kids : (forall k, In k kids -> local_tree k) -> all_some (map (resolve env) kids) = Some (map (within (default_of env)) kids).
Proof. intros K. apply all_some_map. intros k I. apply resolve_local. auto. Qed.
Lemma load_root skip v t kids tails : (forall k, In k kids -> local_tree k) ->
  exists y, resolve [] (Elem "AUTOSAR" (if skip : bool then [] else root_attributes v) t kids tails) = Some y /\
    clean_namespace y = Elem "AUTOSAR" (if skip then [] else root_resolved v) t kids tails.
Proof.
  intros K. destruct skip.
  - cbn [resolve sort_attrs]. rewrite (resolve_kids _ kids K). eexists. split; [reflexivity|]. cbn [clean_namespace]. f_equal. apply kids_load; auto.
  - assert (S : sort_attrs (root_attributes v) = Some ([("", arxml_uri); ("xsi", "http://www.w3.org/2001/XMLSchema-instance")]%string, [("xsi", "schemaLocation", ("http://autosar.org/schema/r4.0 " ++ schema_file v)%string)]%string)).
    { unfold root_attributes. generalize ("http://autosar.org/schema/r4.0 " ++ schema_file v)%string. intros z. reflexivity. }
    cbn [resolve]. rewrite S, (resolve_kids _ kids K). eexists. split; [reflexivity|]. cbn [clean_namespace]. f_equal. apply kids_load; auto.
Qed.
Lemma rt_root skip d : good_document d -> exists L,
  write_document skip d = Ok [Node "AUTOSAR" (if skip then [] else root_attributes (doc_schema_version d)) L] /\ Forall safe L /\
  forall rv stop b step dep t tails, read_schema_version rv b = doc_schema_version d ->
    read_root rv stop (Elem "AUTOSAR" b t (map (element step dep) L) tails) = (doc_schema_version d, Ok (norm_document d)).
Proof.
  intros [N G]. unfold write_document. destruct (p_packages _ true _ N G) as (L & W & F & _). exists L. rewrite W. cbn [node bind]. splits; [reflexivity| |].
  - eapply Forall_impl; [|exact F]. intros w []. auto.
  - intros rv stop b step dep t tails V. destruct (p_packages _ stop _ N G) as (L' & W' & _ & R). rewrite W in W'. injection W' as <-.
    specialize (R step dep (map (element step dep) L)). assert (H := R (fun t0 _ => eq_refl)). cbv beta in H. unfold read_root. cbn [x_attrs x_kids]. rewrite V, H. reflexivity.
Qed.
(** The tree of a document. *)
Lemma document_well skip d : good_document d -> exists w, write_document skip d = Ok [w] /\ well w.
Proof.
  intros G. destruct (rt_root skip d G) as (L & W & S & _). exists (Node "AUTOSAR" (if skip then [] else root_attributes (doc_schema_version d)) L). split; [exact W|].
  constructor.
  - split; [reflexivity|repeat split].
  - destruct skip; [apply attrs_ok_well, attrs_ok_nil|apply root_attributes_ok].
  - eapply Forall_impl; [|exact S]. apply safe_well.
Qed.
Lemma document_text skip d : good_document d ->
  exists t x, write_str d skip = Ok t /\ load t = Ok x /\ x_attrs x = (if skip then [] else root_resolved (doc_schema_version d)) /\
    forall rv stop, (skip = true -> rv = doc_schema_version d) -> read_root rv stop x = (doc_schema_version d, Ok (norm_document d)).
Proof.
  intros G. destruct (rt_root skip d G) as (L & W & S & R). destruct (document_well skip d G) as (w & W' & Q). rewrite W in W'. injection W' as <-.
  destruct (parse_render_doc 2 _ Q) as (t & T & P). cbn [element] in P.
  destruct (load_root skip (doc_schema_version d) (newline ++ spaces ((match L with [] => 0%nat | _ => 1%nat end) * 2))%string (map (element 2 1) L) (indents 2 0 (List.length L))) as (y & RY & C).
  { intros k I. apply in_map_iff in I as (u & <- & I). apply safe_local. rewrite Forall_forall in S. auto. }
  exists t. eexists. unfold write_str. rewrite W. cbn [bind]. split; [exact T|]. unfold load, parse_names. rewrite P, RY. split; [reflexivity|]. rewrite C. split; [reflexivity|].
  intros rv stop V. apply R. destruct skip; [now apply V|apply resolved_version].
Qed.

(** ** Tolerant reading *)
Lemma among_iff n l l' : (In n l <-> In n l') -> among n l = among n l'.
Proof. intros H. destruct (among n l') eqn:E; [apply among_true; apply among_true in E; tauto|apply among_false; apply among_false in E; tauto]. Qed.
Lemma tolerant_spec v p kids seen : (forall n, In n seen <-> In n (names_in p)) ->
  read_package_elements v false p kids =
  match first_crash (map (outcome_of v) kids) with
  | Some e => Err e
  | None => match p with mkPackage i es ps => Ok (mkPackage i (es ++ first_of_each_name seen (goods (map (outcome_of v) kids))) ps) end
  end.
Proof.
  revert p seen. induction kids as [|x kids IH]; intros p seen H.
  - destruct p. cbn. now rewrite app_nil_r.
  - cbn [read_package_elements map]. unfold outcome_of at 1 3. destruct (read_collectable v (x_tag x)) as [rd|]; cbn [first_crash goods]; [|now apply IH].
    destruct (rd x) as [e|e]; cbn [bind].
    + cbn [first_crash goods first_of_each_name]. unfold append_element. destruct p as [i es ps]. destruct (in_dec string_dec (element_name e) seen) as [I|I].
      * apply H in I. apply among_true in I. rewrite I. exact (IH (mkPackage i es ps) seen H).
      * rewrite H in I. apply among_false in I. rewrite I. rewrite (IH _ (element_name e :: seen)).
        -- destruct (first_crash _); auto. now rewrite <- app_assoc.
        -- intros n. cbn [In names_in]. rewrite H. cbn [names_in]. rewrite map_app, !in_app_iff. cbn. tauto.
    + destruct e; cbn [first_crash goods]; auto; now apply IH.
Qed.
Lemma strict_spec v p kids q : read_package_elements v true p kids = Ok q <->
  (forall x, In x kids -> outcome_of v x = Unknown \/ exists e, outcome_of v x = Good e) /\
  NoDup (map element_name (goods (map (outcome_of v) kids))) /\
  (forall e, In e (goods (map (outcome_of v) kids)) -> ~ In (element_name e) (names_in p)) /\
  q = match p with mkPackage i es ps => mkPackage i (es ++ goods (map (outcome_of v) kids)) ps end.
Proof.
  revert p. induction kids as [|x kids IH]; intros p.
  - cbn. destruct p. rewrite app_nil_r. split; [injection 1 as <-; splits; try constructor; tauto|]. now intros (_ & _ & _ & ->).
  - cbn [read_package_elements map In]. destruct (outcome_of v x) as [|e| |e] eqn:O; cbn [goods].
    + assert (E : read_collectable v (x_tag x) = None).
      { unfold outcome_of in O. destruct (read_collectable v (x_tag x)) as [rd|]; auto. destruct (rd x) as [|[]]; discriminate. }
      rewrite E, IH. split.
      * intros (A & B). split; auto. intros y [<-|I]; auto.
      * intros (A & B). split; auto.
    + assert (E : exists rd, read_collectable v (x_tag x) = Some rd /\ rd x = Ok e).
      { unfold outcome_of in O. destruct (read_collectable v (x_tag x)) as [rd|]; [|discriminate]. exists rd. split; auto. destruct (rd x) as [|[]]; congruence. }
      destruct E as (rd & -> & R). rewrite R. cbn [bind]. unfold append_element. destruct (among (element_name e) (names_in p)) eqn:A.
      * split; [discriminate|]. intros (_ & _ & B & _). apply among_true in A. now destruct (B e (or_introl eq_refl)).
      * apply among_false in A. destruct p as [i es ps]. rewrite IH. cbn [names_in map]. split.
        -- intros (B & C & D & ->). splits.
           ++ intros y [<-|I]; eauto.
           ++ constructor; auto. intros I. apply in_map_iff in I as (f & E & I). apply (D f I). rewrite E, map_app, !in_app_iff. cbn. tauto.
           ++ intros f [<-|I]; auto. specialize (D f I). rewrite map_app, !in_app_iff in D. rewrite in_app_iff. tauto.
           ++ now rewrite <- app_assoc.
        -- intros (B & C & D & ->). inversion C as [|? ? C1 C2]; subst. splits; auto.
           ++ intros f I. specialize (D f (or_intror I)). rewrite map_app, !in_app_iff. rewrite in_app_iff in D. cbn. intros [[X|[X|[]]]|X]; try tauto.
              apply C1. rewrite X. now apply in_map.
           ++ now rewrite <- app_assoc.
    + split.
      * intros H. exfalso. unfold outcome_of in O. destruct (read_collectable v (x_tag x)) as [rd|]; [|discriminate]. destruct (rd x) as [|[]]; cbn [bind] in H; discriminate.
      * intros (A & _). exfalso. destruct (A x (or_introl eq_refl)) as [B|[f B]]; congruence.
    + split.
      * intros H. exfalso. unfold outcome_of in O. destruct (read_collectable v (x_tag x)) as [rd|]; [|discriminate]. destruct (rd x) as [|[]]; cbn [bind] in H; discriminate.
      * intros (A & _). exfalso. destruct (A x (or_introl eq_refl)) as [B|[f B]]; congruence.
Qed.
Lemma goods_app a b : goods (a ++ b) = goods a ++ goods b.
Proof. induction a as [|[]]; cbn; congruence. Qed.
Lemma first_crash_app a b : first_crash (a ++ b) = match first_crash a with Some e => Some e | None => first_crash b end.
Proof. induction a as [|[]]; cbn; auto. Qed.
Lemma first_of_each_skip seen a e b : In (element_name e) (map element_name a) ->
  first_of_each_name seen (a ++ e :: b) = first_of_each_name seen (a ++ b).
Proof.
  enough (H : forall seen, In (element_name e) seen \/ In (element_name e) (map element_name a) ->
    first_of_each_name seen (a ++ e :: b) = first_of_each_name seen (a ++ b)) by (intros; apply H; auto).
  clear seen. induction a as [|f a IH]; cbn [app map first_of_each_name In]; intros seen I.
  - destruct I as [I|[]]. now destruct (in_dec string_dec (element_name e) seen).
  - destruct (in_dec string_dec (element_name f) seen) as [J|J].
    + apply IH. destruct I as [I|[I|I]]; auto. left. now rewrite <- I.
    + f_equal. apply IH. cbn. tauto.
Qed.
Lemma skip_one v p before x after : skipped v before x ->
  read_package_elements v false p (before ++ x :: after) = read_package_elements v false p (before ++ after).
Proof.
  intros K. rewrite !(tolerant_spec v p _ (names_in p)) by reflexivity. rewrite !map_app. cbn [map]. rewrite !first_crash_app, !goods_app.
  destruct (first_crash (map (outcome_of v) before)); auto. unfold skipped in K. destruct (outcome_of v x) as [|e| |e]; cbn [first_crash goods]; auto; [|destruct K].
  rewrite first_of_each_skip; auto. destruct K as (y & f & I & O & E). rewrite <- E. apply in_map. clear - I O.
  induction before as [|z l IH]; [destruct I|]. destruct I as [->|I]; cbn [map]; [rewrite O; now left|]. destruct (outcome_of v z); cbn [goods]; auto. now right; auto.
Qed.
Lemma get_other t k1 e e' k2 : x_tag e = x_tag e' -> t <> x_tag e -> get t (k1 ++ e :: k2) = get t (k1 ++ e' :: k2).
Proof.
  intros E N. induction k1 as [|x k IH]; cbn [app get].
  - rewrite <- E. destruct (String.eqb_spec t (x_tag e)); [congruence|reflexivity].
  - destruct (String.eqb t (x_tag x)); auto.
Qed.
Lemma get_here k1 e k2 t : x_tag e = t -> get t k1 = None -> get t (k1 ++ e :: k2) = Some e.
Proof.
  intros E. induction k1 as [|x k IH]; cbn [app get]; [rewrite E, String.eqb_refl; auto|]. destruct (String.eqb t (x_tag x)); [discriminate|auto].
Qed.
Lemma child_get {A} t k k' (f : xml -> result A) : get t k = get t k' -> child t k f = child t k' f.
Proof. intros E. unfold child. now rewrite E. Qed.
Lemma read_ident_other a k1 e e' k2 : x_tag e = x_tag e' -> disjointb ident_tags [x_tag e] = true ->
  read_ident a (k1 ++ e :: k2) = read_ident a (k1 ++ e' :: k2).
Proof.
  intros E D. assert (H : forall t, In t ident_tags -> get t (k1 ++ e :: k2) = get t (k1 ++ e' :: k2)).
  { intros t I. apply get_other; auto. intros ->. apply (disjointb_sound _ _ _ D I). now left. }
  unfold read_ident, read_referrable, read_multilanguage_referrable, read_identifiable, child_text, child.
  rewrite !H by (cbn; tauto). reflexivity.
Qed.
Lemma findall_one_less x x' before after : x_tag x = "AR-PACKAGE" -> x_tag x' = "AR-PACKAGE" ->
  exists l r, findall "AR-PACKAGE" (before ++ x :: after) = l ++ x :: r /\ findall "AR-PACKAGE" (before ++ x' :: after) = l ++ x' :: r.
Proof.
  intros T T'. exists (findall "AR-PACKAGE" before), (findall "AR-PACKAGE" after). rewrite !findall_app. unfold findall. cbn [filter]. now rewrite T, T', String.eqb_refl.
Qed.
Lemma read_subs_one_less self p l r x x' : self x = self x' -> read_sub_packages self p (l ++ x :: r) = read_sub_packages self p (l ++ x' :: r).
Proof.
  intros E. revert p. induction l as [|y l IH]; intros p; cbn [app read_sub_packages]; [now rewrite E|]. destruct (self y) as [q|]; cbn [bind]; auto.
  destruct (append_package p q); cbn [bind]; auto.
Qed.
Lemma one_less_same v x x' : one_less v x x' -> read_package v false x = read_package v false x'.
Proof.
  induction 1 as [tag a t k1 k2 te ae before x after l0 l0' m m' G K|tag a t k1 k2 te ae before x x' after l0 l0' m m' G T T' O IH]; rewrite !read_package_eq; unfold read_package_; cbn [x_attrs x_kids].
  - set (e := Elem "ELEMENTS" ae te (before ++ x :: after) m). set (e' := Elem "ELEMENTS" ae te (before ++ after) m').
    rewrite (read_ident_other a k1 e e' k2 eq_refl eq_refl). destruct (read_ident a _); cbn [bind]; auto. destruct (new_identifiable _); cbn [bind]; auto.
    rewrite (get_here k1 e k2 "ELEMENTS" eq_refl G), (get_here k1 e' k2 "ELEMENTS" eq_refl G). unfold e, e' at 1. cbn [x_kids].
    rewrite skip_one by assumption. destruct (read_package_elements _ _ _ _); cbn [bind]; auto.
    now rewrite (get_other "AR-PACKAGES" k1 (Elem "ELEMENTS" ae te (before ++ x :: after) m) e' k2 eq_refl ltac:(discriminate)).
  - set (e := Elem "AR-PACKAGES" ae te (before ++ x :: after) m). set (e' := Elem "AR-PACKAGES" ae te (before ++ x' :: after) m').
    rewrite (read_ident_other a k1 e e' k2 eq_refl eq_refl). destruct (read_ident a _); cbn [bind]; auto. destruct (new_identifiable _); cbn [bind]; auto.
    rewrite (get_other "ELEMENTS" k1 e e' k2 eq_refl ltac:(discriminate)).
    match goal with |- bind ?m _ = bind ?m _ => destruct m; cbn [bind]; auto end.
    rewrite (get_here k1 e k2 "AR-PACKAGES" eq_refl G), (get_here k1 e' k2 "AR-PACKAGES" eq_refl G). unfold e, e'. cbn [x_kids].
    destruct (findall_one_less x x' before after T T') as (l & r & -> & ->). now apply read_subs_one_less.
Qed.
Lemma read_packages_one_less v stop l k1 x x' k2 : x_tag x = "AR-PACKAGE" -> x_tag x' = "AR-PACKAGE" ->
  read_package v stop x = read_package v stop x' -> read_packages v stop l (k1 ++ x :: k2) = read_packages v stop l (k1 ++ x' :: k2).
Proof.
  intros T T' E. revert l. induction k1 as [|y k IH]; intros l; cbn [app read_packages].
  - now rewrite T, T', E.
  - destruct (String.eqb (x_tag y) "AR-PACKAGE"); auto. destruct (read_package v stop y); cbn [bind]; auto. destruct (collection_append l _); cbn [bind]; auto.
Qed.

(** ** Shape, exactness, and where the version comes from *)
Lemma norm_outline p : outline_of (norm_package p) = outline_of p.
Proof.
  remember (package_size p) as n eqn:En. assert (L : (package_size p <= n)%nat) by lia. clear En. revert p L.
  induction n as [|n IH]; intros [i es ps] L; [cbn in L; lia|]. cbn [norm_package outline_of]. rewrite !map_map. f_equal.
  - apply map_ext. intros e. rewrite norm_element_name. f_equal. now destruct e.
  - apply map_ext_in. intros q I. apply IH. pose proof (package_size_in i es ps q I). lia.
Qed.
Lemma map_unchanged {A} (f : A -> A) l : all_ok (fun a => f a = a) l -> map f l = l.
Proof. induction l as [|a l IH]; cbn; auto. intros [H K]. rewrite H, IH; auto. Qed.
Lemma norm_unchanged p : unchanged p -> norm_package p = p.
Proof.
  remember (package_size p) as n eqn:En. assert (L : (package_size p <= n)%nat) by lia. clear En. revert p L.
  induction n as [|n IH]; intros [i es ps] L; [cbn in L; lia|]. cbn [norm_package unchanged]. intros [Ue Up]. rewrite (map_unchanged _ _ Ue). f_equal.
  rewrite <- (map_id ps) at 2. apply map_ext_in. intros q I. apply IH; [pose proof (package_size_in i es ps q I); lia|]. exact (all_in _ _ q Up I).
Qed.
Lemma bare_text d : good_document d -> exists t x, write_str d true = Ok t /\ load t = Ok x /\ x_attrs x = [] /\
  (forall stop, read_root (doc_schema_version d) stop x = (doc_schema_version d, Ok (norm_document d))).
Proof.
  intros G. destruct (document_text true d G) as (t & x & W & P & A & R). exists t, x. splits; auto.
Qed.
Lemma ends_with_spec p n : ends_with p n = true <-> exists b, n = (b ++ p)%string.
Proof.
  split.
  - induction n as [|c n IH]; cbn [ends_with]; intros E; apply orb_true_iff in E as [E|E].
    + apply String.eqb_eq in E. subst. now exists "".
    + discriminate.
    + apply String.eqb_eq in E. exists "". now rewrite <- E.
    + destruct (IH E) as (b & ->). now exists (String c b).
  - intros (b & ->). induction b as [|c b IH]; cbn [append].
    + destruct p; cbn [ends_with]; [reflexivity|]. now rewrite String.eqb_refl.
    + cbn [ends_with]. rewrite IH. apply orb_true_r.
Qed.
Lemma alld_chars s : alld s = true <-> all_chars (fun d => digit_val d <> None) s.
Proof. induction s as [|c s IH]; cbn; [tauto|]. rewrite <- IH. destruct (digit_val c); split; try tauto; try discriminate; intuition congruence. Qed.
Lemma match_digits_more s c r n : (String.length s <= n)%nat -> s <> "" -> xsd_after (String c r) = true ->
  (n <= digit_run (s ++ String c r))%nat -> exists m, match_digits n (s ++ String c r)%string = Some m.
Proof.
  intros L NE X. induction n as [|n IH]; intros D; [destruct s; [congruence|cbn in L; lia]|].
  cbn [match_digits]. destruct (xsd_after (str_drop (S n) (s ++ String c r))) eqn:E; [eauto|].
  destruct (Nat.eq_dec (String.length s) (S n)) as [Q|Q]; [|apply IH; lia]. rewrite <- Q, drop_app in E. congruence.
Qed.
Lemma strip_prefix_here p s : strip_prefix p (p ++ s)%string = Some s.
Proof. induction p as [|c p IH]; cbn; auto. now rewrite Ascii.eqb_refl. Qed.
Lemma search_named s : names_version s -> exists v, search_version s = Some v.
Proof.
  intros (b & ds & c & a & -> & NE & D & C). apply alld_chars in D. induction b as [|x b IH].
  - change ("" ++ ?s)%string with s. destruct ("AUTOSAR_" ++ ds ++ String c ("xsd" ++ a))%string as [|y t] eqn:E; [discriminate|].
    cbn [search_version]. rewrite <- E, strip_prefix_here.
    destruct (match_digits_more ds c ("xsd" ++ a) (digit_run (ds ++ String c ("xsd" ++ a)))) as (m & ->); eauto.
    + rewrite digit_run_app by assumption. lia.
    + cbn [xsd_after]. apply Ascii.eqb_neq in C. rewrite C. reflexivity.
  - change (String x b ++ ?s)%string with (String x (b ++ s)). cbn [search_version].
    destruct (match strip_prefix _ _ with Some r => _ | None => _ end); eauto.
Qed.
Lemma version_named a rv rv' : has_version a -> read_schema_version rv a = read_schema_version rv' a.
Proof.
  intros (n & s & I & B & V). apply (ends_with_spec "schemaLocation") in B. apply search_named in V as (v & V). unfold read_schema_version.
  revert rv rv'. induction a as [|p a IH]; [destruct I|]. intros rv rv'. cbn [fold_left]. destruct I as [->|I]; [|now apply IH].
  cbn [fst snd]. now rewrite B, V.
Qed.
