(** Property theorems about configuration files (C49).
    Vocabulary: SConfig.v, SWork.v.  The model of the code: MConfig.v, MWork.v. *)
From Verif Require Import Base PBase MHeap SHeap PHeap MWork SWork PWork MConfig SConfig PConfig.

(** ** Which files are accepted *)

(** Exactly those whose sections are tables of proper entries.  (The settings object must not
    have been damaged, and the file must not damage it: see C38.) *)
Theorem C49_accepted_iff :
  forall s cfg, once (TTable cfg) -> intact (cf_settings s) ->
    (forall l n, In ("behavior", TTable l) cfg -> In n (map fst l) -> ~ In n method_names) ->
    (exists s', load_config s cfg = (s', Ok tt)) <->
    exists ns docs maps sets,
      entries cfg "namespace" ns /\ entries cfg "document" docs /\
      entries cfg "document_mapping" maps /\ entries cfg "behavior" sets /\
      (forall n v, In (n, v) ns -> proper_namespace v) /\
      (forall n v, In (n, v) docs -> exists path refs, configures_document n v path refs) /\
      (forall n v, In (n, v) maps -> exists m, configures_mapping v m) /\
      (forall n v, In (n, v) sets -> In n setting_names /\ exists x, v = TText x).
Proof.
  intros s cfg O K M. assert (N := once_keys _ O).
  assert (AN : forall ns, entries cfg "namespace" ns -> forall s, (exists s', each namespace_from s ns = (s', Ok tt)) <->
             (forall n v, In (n, v) ns -> proper_namespace v)).
  { intros ns E. apply (each_accept namespace_from (fun _ v => proper_namespace v)). intros s0 n v I. apply namespace_accept.
    destruct (entries_once _ _ _ O E) as (_ & F). rewrite Forall_forall in F. apply (F (n, v) I). }
  assert (AD : forall ns, entries cfg "document" ns -> forall s, (exists s', each document_from s ns = (s', Ok tt)) <->
             (forall n v, In (n, v) ns -> exists path refs, configures_document n v path refs)).
  { intros ns E. apply (each_accept document_from (fun n v => exists path refs, configures_document n v path refs)).
    intros s0 n v I. destruct (entries_once _ _ _ O E) as (_ & F). rewrite Forall_forall in F.
    split.
    - intros (s' & X). apply document_from_iff in X as (p & r & X & _); [eauto|apply (F (n, v) I)].
    - intros (p & r & X). eexists. apply document_from_iff; [apply (F (n, v) I)|]. exists p, r. split; [exact X|reflexivity]. }
  assert (AM : forall ns, entries cfg "document_mapping" ns -> forall s,
             (exists s', each (fun s _ v => mapping_from s v) s ns = (s', Ok tt)) <->
             (forall n v, In (n, v) ns -> exists m, configures_mapping v m)).
  { intros ns E. apply (each_accept (fun s _ v => mapping_from s v) (fun _ v => exists m, configures_mapping v m)).
    intros s0 n v I. destruct (entries_once _ _ _ O E) as (_ & F). rewrite Forall_forall in F.
    split.
    - intros (s' & X). apply mapping_from_iff in X as (m & X & _); [eauto|apply (F (n, v) I)].
    - intros (m & X). eexists. apply mapping_from_iff; [apply (F (n, v) I)|]. exists m. split; [exact X|reflexivity]. }
  split.
  - intros (s' & E). apply (load_steps _ _ _ O) in E as (ns & docs & maps & s1 & s2 & s3 & A & B & C & A' & B' & C' & E).
    assert (S3 : cf_settings s3 = cf_settings s).
    { destruct (namespaces_ok _ _ _ (proj2 (entries_once _ _ _ O A)) A') as (_ & _ & _ & X).
      destruct (documents_ok _ _ _ (proj2 (entries_once _ _ _ O B)) B') as (_ & _ & Y & _).
      destruct (mappings_ok _ _ _ (proj2 (entries_once _ _ _ O C)) C') as (_ & _ & Z & _). congruence. }
    assert (T : exists sets, entries cfg "behavior" sets /\ (forall n v, In (n, v) sets -> In n setting_names /\ exists x, v = TText x)).
    { destruct (assoc "behavior" cfg) as [v|] eqn:H.
      - unfold settings_from in E. rewrite S3, (K "update") in E by (right; now left).
        destruct v as [x|x|l|]; try discriminate. destruct (update_any (cf_settings s) l) as [st r] eqn:U.
        injection E as <- ->. assert (I := assoc_in _ _ _ H). exists l. split; [now left|].
        apply (update_any_ok l (cf_settings s) K); [intros n; now apply M|eauto].
      - exists []. split; [right; split; [now apply assoc_no|reflexivity]|]. intros n v []. }
    destruct T as (sets & T1 & T2). exists ns, docs, maps, sets. repeat (split; [assumption|]).
    split; [apply (AN ns A s); eauto|]. split; [apply (AD docs B s1); eauto|].
    split; [apply (AM maps C s2); eauto|exact T2].
  - intros (ns & docs & maps & sets & A & B & C & D & A' & B' & C' & D').
    apply (AN ns A s) in A' as (s1 & A'). apply (AD docs B s1) in B' as (s2 & B'). apply (AM maps C s2) in C' as (s3 & C').
    assert (S3 : cf_settings s3 = cf_settings s).
    { destruct (namespaces_ok _ _ _ (proj2 (entries_once _ _ _ O A)) A') as (_ & _ & _ & X).
      destruct (documents_ok _ _ _ (proj2 (entries_once _ _ _ O B)) B') as (_ & _ & Y & _).
      destruct (mappings_ok _ _ _ (proj2 (entries_once _ _ _ O C)) C') as (_ & _ & Z & _). congruence. }
    assert (T : exists s', match assoc "behavior" cfg with None => s' = s3 | Some v => settings_from s3 v = (s', Ok tt) end).
    { apply (entries_assoc _ _ _ N) in D as [D|[D ->]]; rewrite D; [|eauto].
      unfold settings_from. rewrite S3, (K "update") by (right; now left).
      destruct (proj2 (update_any_ok sets (cf_settings s) K (fun n => M sets n (assoc_in _ _ _ D))) D') as (st & ->). eauto. }
    destruct T as (s' & T). exists s'. apply (load_steps _ _ _ O).
    exists ns, docs, maps, s1, s2, s3. repeat (split; [assumption|]). exact T.
Qed.

(** ** What loading does *)

(** References of roles: as if the namespace had been created with the texts of its table (C13). *)
Theorem C49_role_reference :
  forall s cfg s' ns name t pre k rel post ro b bs q,
    once (TTable cfg) -> load_config s cfg = (s', Ok tt) ->
    entries cfg "namespace" ns -> In (name, TTable t) ns ->
    t = pre ++ (k, TText rel) :: post -> denotes k ro ->
    (forall k', In k' (map fst post) -> ~ denotes k' ro) ->
    base_text name t b -> b = abs bs -> (forall n, In n bs -> plain n) ->
    starts_slash rel = false -> follow bs (split_at slash rel) q ->
    role_ref (cf_namespaces s') name ro = Ok (abs q).
Proof.
  intros s cfg s' ns name t pre k rel post ro b bs q O E Ens I T D L B Bs P S F.
  apply (load_steps _ _ _ O) in E as (ns' & docs & maps & s1 & s2 & s3 & X & Y & Z & X' & Y' & Z' & E).
  assert (ns' = ns) by (eapply entries_same; eauto; now apply once_keys). subst ns'.
  destruct (entries_once _ _ _ O X) as (XN & XO).
  assert (NSS : cf_namespaces s' = cf_namespaces s1).
  { destruct (documents_ok _ _ _ (proj2 (entries_once _ _ _ O Y)) Y') as (U & _).
    destruct (mappings_ok _ _ _ (proj2 (entries_once _ _ _ O Z)) Z') as (V & _).
    destruct (assoc "behavior" cfg) as [v|]; [|subst; congruence].
    unfold settings_from in E. destruct (assoc "update" (cf_settings s3)); [discriminate|].
    destruct v as [x|x|l|]; try discriminate. destruct (update_any (cf_settings s3) l). injection E as <- _. cbn. congruence. }
  rewrite NSS. destruct (namespaces_entry _ _ _ _ _ XO XN X' I) as (nss & nss' & C & R). rewrite R. clear R.
  assert (NT : NoDup (map fst t)).
  { rewrite Forall_forall in XO. specialize (XO _ I). now apply once_keys in XO. }
  assert (Kb : k <> "base_ref") by (intros ->; now apply not_a_role in D).
  assert (RT : roles_of t = roles_of pre ++ (k, TText rel) :: roles_of post).
  { rewrite T. unfold roles_of. rewrite filter_app. cbn [filter fst].
    replace (String.eqb k "base_ref") with false by (symmetry; now apply String.eqb_neq). reflexivity. }
  apply create_any_ok in C as [(C & _)|(tm & base & C & Bt & C')]; [rewrite RT in C; destruct (roles_of pre); discriminate|].
  rewrite RT in C. symmetry in C. apply map_eq_app in C as (tp & tq & -> & Tp & Tq).
  destruct tq as [|[k0 rel0] tq]; [discriminate|]. cbn [map as_text fst snd] in Tq. injection Tq as -> -> Tq.
  eapply role_ref_abs; eauto.
  - intros k' I'. apply L. apply in_map_iff in I' as (kv & <- & I').
    apply (in_map as_text) in I'. rewrite Tq in I'. destruct kv as [k1 v1]. cbn in I'.
    apply roles_of_in in I' as (I' & _). now apply (in_map fst) in I'.
  - rewrite <- Bs. destruct B as [B|[B ->]].
    + apply (assoc_once _ _ _ NT) in B. rewrite B in Bt. destruct base; [now injection Bt|discriminate].
    + apply assoc_no in B. rewrite B in Bt. destruct base; [discriminate|reflexivity].
Qed.

(** Roles that the table of a namespace does not mention have no reference; namespaces that the
    file does not mention are as before. *)
Theorem C49_other_roles :
  forall s cfg s' ns, once (TTable cfg) -> load_config s cfg = (s', Ok tt) -> entries cfg "namespace" ns ->
    (forall name t ro, In (name, TTable t) ns -> (forall k, In k (map fst t) -> ~ denotes k ro) ->
       role_ref (cf_namespaces s') name ro = Err ValueError) /\
    (forall name ro, ~ In name (map fst ns) ->
       role_ref (cf_namespaces s') name ro = role_ref (cf_namespaces s) name ro).
Proof.
  intros s cfg s' ns O E Ens.
  apply (load_steps _ _ _ O) in E as (ns' & docs & maps & s1 & s2 & s3 & X & Y & Z & X' & Y' & Z' & E).
  assert (ns' = ns) by (eapply entries_same; eauto; now apply once_keys). subst ns'.
  destruct (entries_once _ _ _ O X) as (XN & XO).
  assert (NSS : cf_namespaces s' = cf_namespaces s1).
  { destruct (documents_ok _ _ _ (proj2 (entries_once _ _ _ O Y)) Y') as (U & _).
    destruct (mappings_ok _ _ _ (proj2 (entries_once _ _ _ O Z)) Z') as (V & _).
    destruct (assoc "behavior" cfg) as [v|]; [|subst; congruence].
    unfold settings_from in E. destruct (assoc "update" (cf_settings s3)); [discriminate|].
    destruct v as [x|x|l|]; try discriminate. destruct (update_any (cf_settings s3) l). injection E as <- _. cbn. congruence. }
  rewrite NSS. split.
  - intros name t ro I L. destruct (namespaces_entry _ _ _ _ _ XO XN X' I) as (nss & nss' & C & R). rewrite R.
    apply create_any_ok in C as [(_ & b & ->)|(tm & base & C & _ & C')].
    + unfold role_ref. now rewrite assoc_set_same.
    + eapply role_ref_missing; eauto. intros k I'. apply L. apply in_map_iff in I' as (kv & <- & I').
      apply (in_map as_text) in I'. rewrite <- C in I'. destruct kv as [k1 v1]. cbn in I'.
      apply roles_of_in in I' as (I' & _). now apply (in_map fst) in I'.
  - intros name ro I. eapply namespaces_other; eauto.
Qed.

(** One document for every entry of the section, in their order and after the documents that were
    there, named after the entry and with exactly its packages; the document objects are new,
    different and empty, and nothing else changes in the heap. *)
Theorem C49_documents :
  forall s cfg s' docs, once (TTable cfg) -> load_config s cfg = (s', Ok tt) -> entries cfg "document" docs ->
    exists ds new, cf_documents s' = cf_documents s ++ ds /\ cf_heap s' = cf_heap s ++ new /\
      Forall2 (fun kv d => configures_document (fst kv) (snd kv) (dc_path d) (dc_refs d)) docs ds /\
      NoDup (map dc_doc ds) /\
      (forall d, In d ds -> nth_error (cf_heap s) (dc_doc d) = None /\
         nth_error (cf_heap s') (dc_doc d) = Some (new_obj KColl "")) /\
      NoDup (map dc_path ds).
Proof.
  intros s cfg s' ns O E Ens.
  apply (load_steps _ _ _ O) in E as (nsp & docs & maps & s1 & s2 & s3 & X & Y & Z & X' & Y' & Z' & E).
  assert (docs = ns) by (eapply entries_same; eauto; now apply once_keys). subst docs.
  destruct (namespaces_ok _ _ _ (proj2 (entries_once _ _ _ O X)) X') as (U1 & U2 & U3 & U4).
  destruct (documents_ok _ _ _ (proj2 (entries_once _ _ _ O Y)) Y') as (V1 & V2 & V3 & V4 & ds & V5 & V6 & V7).
  destruct (mappings_ok _ _ _ (proj2 (entries_once _ _ _ O Z)) Z') as (W1 & W2 & W3 & W4 & _).
  assert (S : cf_documents s' = cf_documents s3 /\ cf_heap s' = cf_heap s3).
  { destruct (assoc "behavior" cfg) as [v|]; [|subst; auto].
    unfold settings_from in E. destruct (assoc "update" (cf_settings s3)); [discriminate|].
    destruct v as [x|x|l|]; try discriminate. destruct (update_any (cf_settings s3) l). injection E as <- _. auto. }
  destruct S as (S1 & S2). exists ds, (repeat (new_obj KColl "") (List.length ns)).
  assert (H : cf_heap s' = cf_heap s ++ repeat (new_obj KColl "") (List.length ns)) by congruence.
  split; [congruence|]. split; [exact H|]. split; [exact V7|]. rewrite U1 in V6.
  split; [rewrite V6; apply seq_NoDup|]. split.
  - intros d I. apply (in_map dc_doc) in I. rewrite V6 in I. apply in_seq in I.
    split; [apply nth_error_None; lia|]. rewrite H, nth_error_app2 by lia.
    remember (dc_doc d - List.length (cf_heap s)) as i.
    assert (L : i < List.length ns) by lia. clear - L. revert i L. induction (List.length ns) as [|m IH]; intros i L; [lia|].
    destruct i; [reflexivity|]. cbn. apply IH. lia.
  - destruct (entries_once _ _ _ O Y) as (N & _). clear - V7 N.
    induction V7 as [|[n v] d ns ds (P & _) F IH]; cbn; [constructor|]. cbn in N. inversion N as [|? ? N1 N2]; subst.
    constructor; [|auto]. intros I. apply N1. clear - F I P. cbn in P. rewrite P in I.
    induction F as [|[n' v'] d' ns ds (P' & _) F IH]; cbn in *; [exact I|].
    destruct I as [I|I]; [left|auto]. cbn in P'. rewrite P' in I. now apply app_arxml in I.
Qed.

(** One mapping for every entry, in their order and after those that were there. *)
Theorem C49_mappings :
  forall s cfg s' maps, once (TTable cfg) -> load_config s cfg = (s', Ok tt) -> entries cfg "document_mapping" maps ->
    exists ms, cf_mappings s' = cf_mappings s ++ ms /\ Forall2 (fun kv m => configures_mapping (snd kv) m) maps ms.
Proof.
  intros s cfg s' ns O E Ens.
  apply (load_steps _ _ _ O) in E as (nsp & docs & maps & s1 & s2 & s3 & X & Y & Z & X' & Y' & Z' & E).
  assert (maps = ns) by (eapply entries_same; eauto; now apply once_keys). subst maps.
  destruct (namespaces_ok _ _ _ (proj2 (entries_once _ _ _ O X)) X') as (U1 & U2 & U3 & U4).
  destruct (documents_ok _ _ _ (proj2 (entries_once _ _ _ O Y)) Y') as (V1 & V2 & V3 & V4 & _).
  destruct (mappings_ok _ _ _ (proj2 (entries_once _ _ _ O Z)) Z') as (W1 & W2 & W3 & W4 & ms & W5 & W6).
  assert (S : cf_mappings s' = cf_mappings s3).
  { destruct (assoc "behavior" cfg) as [v|]; [|subst; auto].
    unfold settings_from in E. destruct (assoc "update" (cf_settings s3)); [discriminate|].
    destruct v as [x|x|l|]; try discriminate. destruct (update_any (cf_settings s3) l). injection E as <- _. auto. }
  exists ms. split; [congruence|exact W6].
Qed.

(** The settings in the file get their values, the others keep theirs. *)
Theorem C49_settings :
  forall s cfg s' sets, once (TTable cfg) -> load_config s cfg = (s', Ok tt) -> entries cfg "behavior" sets ->
    (forall n x, In (n, TText x) sets -> get_value (cf_settings s') n = Ok x) /\
    (forall n, ~ In n (map fst sets) -> get_value (cf_settings s') n = get_value (cf_settings s) n).
Proof.
  intros s cfg s' sets O E Ens. assert (N := once_keys _ O).
  apply (load_steps _ _ _ O) in E as (nsp & docs & maps & s1 & s2 & s3 & X & Y & Z & X' & Y' & Z' & E).
  assert (S3 : cf_settings s3 = cf_settings s).
  { destruct (namespaces_ok _ _ _ (proj2 (entries_once _ _ _ O X)) X') as (_ & _ & _ & A).
    destruct (documents_ok _ _ _ (proj2 (entries_once _ _ _ O Y)) Y') as (_ & _ & B & _).
    destruct (mappings_ok _ _ _ (proj2 (entries_once _ _ _ O Z)) Z') as (_ & _ & C & _). congruence. }
  destruct (entries_once _ _ _ O Ens) as (NS & _).
  apply (entries_assoc _ _ _ N) in Ens as [Ens|[Ens ->]]; rewrite Ens in E.
  - unfold settings_from in E. destruct (assoc "update" (cf_settings s3)); [discriminate|].
    destruct (update_any (cf_settings s3) sets) as [st r] eqn:U. injection E as <- ->. cbn [cf_settings].
    destruct (update_any_result _ _ _ NS U) as (A & B). rewrite S3 in B. split.
    + intros n x I. unfold get_value. now rewrite (A n x I).
    + intros n I. unfold get_value. now rewrite (B n I).
  - subst s'. rewrite S3. split; [intros n x []|reflexivity].
Qed.

(** ** What users could expect and do not get *)

(** A load that fails is not without effect: what came before the wrong entry stays. *)
Theorem C49_failed_load_changes_workspace_refuted :
  exists cfg s', load_config (mkConfig [] [] [] [] []) cfg = (s', Err KeyError) /\
    role_ref (cf_namespaces s') "N" (REnum UNIT) = Ok "/N/Units" /\ List.length (cf_documents s') = 1.
Proof.
  exists [("namespace", TTable [("N", TTable [("Unit", TText "Units")])]);
          ("document", TTable [("D", TTable [("packages", TText "/N")])]);
          ("document_mapping", TTable [("M", TTable [])])].
  eexists. repeat split; vm_compute; reflexivity.
Qed.

(** The packages of a document can be left out according to the signature of create_document, but
    that always raises TypeError, and so does every file with such a document. *)
Theorem C49_document_without_packages_refuted :
  (forall s path, create_document s path None = (s, Err TypeError)) /\
  (forall s name t, ~ In "packages" (map fst t) -> document_from s name (TTable t) = (s, Err TypeError)).
Proof.
  split; [reflexivity|]. intros s name t I. apply assoc_no in I. cbn. now rewrite I.
Qed.

(** Documents written directly as a list of packages, as the annotation of the method says, are
    not accepted. *)
Theorem C49_document_as_list_refuted :
  forall s name l, document_from s name (TArray l) = (s, Err AttributeError).
Proof. reflexivity. Qed.

(** A single suffix can be given in a file, but not to create_document_mapping, although its
    signature allows it. *)
Theorem C49_single_suffix_refuted :
  (forall s ref types x, create_document_mapping s ref types (TText x) = (s, Err AttributeError)) /\
  (forall s ref ty x, In ty element_classes ->
     exists s' m, mapping_from s (TTable [("package_ref", TText ref); ("element_types", TText ty); ("suffix_filters", TText x)]) = (s', Ok tt) /\
       cf_mappings s' = cf_mappings s ++ [m] /\ m = mkMapConf (TText ref) [ty] [x]).
Proof.
  split; [reflexivity|]. intros s ref ty x I. do 2 eexists. split.
  - apply mapping_from_iff.
    + constructor; [repeat constructor; cbn; intuition discriminate|repeat constructor].
    + exists (mkMapConf (TText ref) [ty] [x]). split; [|reflexivity]. do 2 eexists. split; [reflexivity|]. cbn [mc_ref mc_types mc_suffixes].
      split; [now left|]. split; [right; now left|]. split; [left; eauto|]. split; [discriminate|]. split.
      * intros n [<-|[]]. auto.
      * left. exists (TText x). split; [do 2 right; now left|left; eauto].
  - split; reflexivity.
Qed.

(** Lists of suffixes give the same mapping in both ways. *)
Theorem C49_mapping_like_api :
  forall s ref types suffixes s', types <> [] -> (forall n, In n types -> In n element_classes) ->
    create_document_mapping s ref types (TArray (map TText suffixes)) = (s', Ok tt) <->
    mapping_from s (TTable [("package_ref", TText ref); ("element_types", TArray (map TText types));
                            ("suffix_filters", TArray (map TText suffixes))]) = (s', Ok tt).
Proof.
  intros s ref types suffixes s' NE A. unfold create_document_mapping.
  assert (T : forall l, all_text (map TText l) = Ok l).
  { clear. induction l as [|x l IH]; cbn; [reflexivity|]. now rewrite IH. }
  rewrite T. cbn [mapping_from assoc String.eqb Ascii.eqb Bool.eqb text_or_texts]. rewrite !T. cbn [bind].
  assert (F : forallb element_attr types = true).
  { apply forallb_forall. intros n I. apply element_attr_iff. auto. }
  rewrite F. cbn [negb]. destruct types; [congruence|]. cbn [bind]. reflexivity.
Qed.

(** Not only names of element classes are accepted as element types, but all names that happen to
    be defined in the module, such as that of an imported module. *)
Theorem C49_element_types_refuted :
  exists n, ~ In n element_classes /\ ~ In n imported_classes /\
    forall s ref, exists s', mapping_from s (TTable [("package_ref", ref); ("element_types", TText n)]) = (s', Ok tt).
Proof.
  exists "re". split; [|split].
  - intros I. assert (X : existsb (String.eqb "re") element_classes = true); [|vm_compute in X; discriminate].
    apply existsb_exists. exists "re". auto.
  - intros I. assert (X : existsb (String.eqb "re") imported_classes = true); [|vm_compute in X; discriminate].
    apply existsb_exists. exists "re". auto.
  - intros s ref. eexists. vm_compute. reflexivity.
Qed.

(** A file with the setting "update" is accepted, and no file with settings after it. *)
Theorem C49_setting_named_update_refuted :
  forall s x, intact (cf_settings s) ->
    exists s', load_config s [("behavior", TTable [("update", TText x)])] = (s', Ok tt) /\
      forall l, load_config s' [("behavior", TTable l)] = (s', Err TypeError).
Proof.
  intros s x K. eexists. split.
  - unfold load_config. cbn [section assoc String.eqb Ascii.eqb Bool.eqb then_do]. unfold settings_from.
    rewrite (K "update") by (right; now left). cbn [update_any]. rewrite (K "set_value") by now left.
    cbn [known_attr]. reflexivity.
  - intros l. unfold load_config. cbn [section assoc String.eqb Ascii.eqb Bool.eqb then_do]. unfold settings_from.
    cbn [cf_settings]. now rewrite assoc_set_same.
Qed.

(** ** A case: parts of the example in the repository (examples/template/config.toml) *)
Definition example_config : list (string * toml) :=
  [("namespace", TTable
     [("Default", TTable [("BaseType", TText "/DataTypes/BaseTypes"); ("ImplementationDataType", TText "DataTypes/ImplementationDataTypes");
                          ("base_ref", TText "/")]);
      ("AUTOSAR_Platform", TTable [("BaseType", TText "BaseTypes")])]);
   ("document", TTable
     [("AUTOSAR_Platform", TTable [("packages", TText "/AUTOSAR_Platform")]);
      ("PortInterfaces", TTable [("packages", TArray [TText "/ModeDclrGroups"; TText "/PortInterfaces"])])]);
   ("document_mapping", TTable
     [("ComponentType", TTable [("package_ref", TText "/ComponentTypes"); ("element_types", TText "SwComponentType");
                                ("suffix_filters", TArray [TText "_Implementation"])])]);
   ("behavior", TTable [("background_event_prefix", TText "BT"); ("timing_event_prefix", TText "TMT")])].

Example C49_example :
  once (TTable example_config) /\
  exists s', load_config (mkConfig [] [] [] [] []) example_config = (s', Ok tt) /\
    role_ref (cf_namespaces s') "Default" (REnum BASE_TYPE) = Ok "/DataTypes/BaseTypes" /\
    role_ref (cf_namespaces s') "Default" (REnum IMPLEMENTATION_DATA_TYPE) = Ok "/DataTypes/ImplementationDataTypes" /\
    role_ref (cf_namespaces s') "AUTOSAR_Platform" (REnum BASE_TYPE) = Ok "/AUTOSAR_Platform/BaseTypes" /\
    cf_documents s' = [mkDoc 0 "AUTOSAR_Platform.arxml" ["/AUTOSAR_Platform"];
                       mkDoc 1 "PortInterfaces.arxml" ["/ModeDclrGroups"; "/PortInterfaces"]] /\
    cf_mappings s' = [mkMapConf (TText "/ComponentTypes") ["SwComponentType"] ["_Implementation"]] /\
    get_value (cf_settings s') "timing_event_prefix" = Ok "TMT".
Proof.
  split.
  - unfold example_config. repeat constructor; cbn; intuition discriminate.
  - eexists. split; [vm_compute; reflexivity|]. do 5 (split; [vm_compute; reflexivity|]). vm_compute; reflexivity.
Qed.

Print Assumptions C49_accepted_iff.
Print Assumptions C49_role_reference.
Print Assumptions C49_other_roles.
Print Assumptions C49_documents.
Print Assumptions C49_mappings.
Print Assumptions C49_settings.
Print Assumptions C49_failed_load_changes_workspace_refuted.
Print Assumptions C49_document_without_packages_refuted.
Print Assumptions C49_document_as_list_refuted.
Print Assumptions C49_single_suffix_refuted.
Print Assumptions C49_mapping_like_api.
Print Assumptions C49_element_types_refuted.
Print Assumptions C49_setting_named_update_refuted.
