(** Proofs about configuration files. *)
From Verif Require Import Base PBase MHeap SHeap PHeap MWork SWork PWork MConfig SConfig.

Lemma assoc_once {A} k (v : A) t : NoDup (map fst t) -> (In (k, v) t <-> assoc k t = Some v).
Proof.
  intros N. split; [|apply assoc_in]. induction t as [|[k' v'] t IH]; intros I; [destruct I|].
  inversion N as [|? ? N1 N2]; subst. cbn [assoc]. destruct I as [I|I].
  - injection I as -> ->. now rewrite String.eqb_refl.
  - destruct (String.eqb_spec k k') as [->|]; [|auto]. exfalso. apply N1. now apply (in_map fst) in I.
Qed.
Lemma assoc_no {A} k (t : list (string * A)) : assoc k t = None <-> ~ In k (map fst t).
Proof.
  induction t as [|[k' v'] t IH]; cbn; [intuition|]. destruct (String.eqb_spec k k') as [->|N].
  - split; [discriminate|tauto].
  - rewrite IH. intuition congruence.
Qed.

Lemma once_keys t : once (TTable t) -> NoDup (map fst t).
Proof. now inversion 1. Qed.
Lemma once_in t k v : once (TTable t) -> In (k, v) t -> once v.
Proof. inversion 1 as [| | |? N F]; subst. intros I. rewrite Forall_forall in F. apply (F (k, v) I). Qed.

Lemma texts_iff v l : text_or_texts v = Ok l <-> texts v l.
Proof.
  assert (A : forall l x, all_text x = Ok l <-> x = map TText l).
  { clear. intros l x. revert l. induction x as [|[s|y|y|] x IH]; cbn [all_text]; intros l.
    - destruct l; cbn; split; congruence.
    - destruct (all_text x) as [z|e]; cbn [bind].
      + split; [intros [= <-]|].
        * cbn. f_equal. now apply IH.
        * destruct l as [|s' l]; [discriminate|]. intros [= -> E]. apply IH in E. congruence.
      + split; [discriminate|]. destruct l as [|s' l]; [discriminate|]. intros [= -> E]. apply IH in E. discriminate.
    - destruct l; cbn; split; discriminate.
    - destruct l; cbn; split; discriminate.
    - destruct l; cbn; split; discriminate. }
  unfold texts. destruct v as [s|x|t|]; cbn [text_or_texts].
  - split; [intros [= <-]; left; eauto|intros [(s' & [= ->] & ->)|E]; [reflexivity|discriminate]].
  - rewrite A. split; [intros ->; auto|intros [(s' & E & _)|[= ->]]; [discriminate|reflexivity]].
  - split; [discriminate|intros [(s' & E & _)|E]; discriminate].
  - split; [discriminate|intros [(s' & E & _)|E]; discriminate].
Qed.
Lemma doc_refs_iff v l : doc_refs (Some v) = Ok l <-> package_list v l.
Proof.
  unfold package_list. rewrite <- texts_iff. destruct v as [s|x|t|]; cbn.
  - split; [auto|intros [H|(t & E & _)]; [exact H|discriminate]].
  - split; [auto|intros [H|(t & E & _)]; [exact H|discriminate]].
  - split; [intros [= <-]; eauto|intros [H|(t' & [= ->] & ->)]; [discriminate|reflexivity]].
  - split; [discriminate|intros [H|(t' & E & _)]; discriminate].
Qed.

(** ** Namespaces *)

(** The entries that are not the base. *)
Definition roles_of (t : list (string * toml)) : list (string * toml) :=
  filter (fun kv => negb (String.eqb (fst kv) "base_ref")) t.

Lemma assoc_set_new {A} k (v : A) l : ~ In k (map fst l) -> assoc_set k v l = l ++ [(k, v)].
Proof.
  induction l as [|[k' v'] l IH]; cbn; intros N; [reflexivity|].
  destruct (String.eqb_spec k k') as [->|]; [tauto|]. rewrite IH; tauto.
Qed.

Lemma ns_entries_once t base pm :
  NoDup (map fst (pm ++ t)) ->
  ns_entries base pm t = (match assoc "base_ref" t with Some b => Some b | None => base end, pm ++ roles_of t).
Proof.
  revert base pm. induction t as [|[k v] t IH]; intros base pm N; cbn [ns_entries assoc roles_of filter fst].
  - now rewrite app_nil_r.
  - destruct (String.eqb_spec k "base_ref") as [->|D]; cbn [negb].
    + rewrite IH.
      * rewrite String.eqb_refl. f_equal. destruct (assoc "base_ref" t) eqn:E; [|reflexivity].
        exfalso. apply assoc_in in E. rewrite map_app in N. cbn in N. apply NoDup_remove_2 in N. apply N, in_or_app.
        right. now apply (in_map fst) in E.
      * rewrite map_app in *. cbn in N. now apply NoDup_remove_1 in N.
    + replace (String.eqb "base_ref" k) with false by (symmetry; apply String.eqb_neq; congruence).
      rewrite assoc_set_new.
      * rewrite IH; [|now rewrite <- app_assoc]. f_equal. now rewrite <- app_assoc.
      * rewrite map_app in N. cbn in N. apply NoDup_remove_2 in N. intros I. apply N, in_or_app. auto.
Qed.

Definition as_text (kv : string * string) : string * toml := (fst kv, TText (snd kv)).

Lemma fill_any_text b pm m : fill_any (TText b) m (map as_text pm) = fill_map b m pm.
Proof.
  revert m. induction pm as [|[k rel] pm IH]; intros m; cbn [map as_text fst snd fill_any fill_map]; [reflexivity|].
  destruct (role_of_name k); cbn [bind]; [apply IH|reflexivity].
Qed.

Lemma fill_any_shape base pm m m' :
  fill_any base m pm = Ok m' ->
  pm = [] \/ exists b tm, base = TText b /\ pm = map as_text tm.
Proof.
  revert m. induction pm as [|[k v] pm IH]; intros m E; [auto|right]. cbn [fill_any] in E.
  destruct (role_of_name k); cbn [bind] in E; [|discriminate].
  destruct base as [b| | |]; try discriminate. destruct v as [rel| | |]; try discriminate.
  destruct (IH _ E) as [->|(b' & tm & [= <-] & ->)].
  - exists b, [(k, rel)]. auto.
  - exists b, ((k, rel) :: tm). auto.
Qed.

(** The namespace made from texts is the one that create_namespace makes. *)
Lemma create_any_text nss name pm base :
  create_namespace_any nss name (map as_text pm) (option_map TText base) = create_namespace nss name pm base.
Proof.
  unfold create_namespace_any, create_namespace, mk_namespace. destruct base as [b|]; cbn [option_map];
    rewrite fill_any_text; destruct (fill_map _ _ pm); reflexivity.
Qed.

Lemma create_any_ok nss name pm base nss' :
  create_namespace_any nss name pm base = Ok nss' ->
  (pm = [] /\ exists b, nss' = assoc_set name (mkNs b []) nss) \/
  exists tm b, pm = map as_text tm /\ base = option_map TText b /\ create_namespace nss name tm b = Ok nss'.
Proof.
  intros E. assert (E' := E). unfold create_namespace_any in E.
  destruct (fill_any _ [] pm) as [m|] eqn:F; [|discriminate]. cbn [bind] in E. injection E as <-.
  destruct (fill_any_shape _ _ _ _ F) as [->|(b & tm & B & ->)].
  - left. split; [reflexivity|]. cbn in F. injection F as <-. eauto.
  - right. destruct base as [x|].
    + subst x. exists tm, (Some b). rewrite <- create_any_text. auto.
    + exists tm, None. rewrite <- create_any_text. auto.
Qed.

Lemma not_a_role ro : ~ denotes "base_ref" ro.
Proof. inversion 1 as [r E|r E|s E]; try (destruct r; discriminate); discriminate. Qed.

Definition ns_part (s s' : config) : Prop :=
  cf_heap s' = cf_heap s /\ cf_documents s' = cf_documents s /\ cf_mappings s' = cf_mappings s /\
  cf_settings s' = cf_settings s.

Lemma namespace_from_ok s name v s' :
  once v -> namespace_from s name v = (s', Ok tt) ->
  ns_part s s' /\ exists t, v = TTable t /\
    create_namespace_any (cf_namespaces s) name (roles_of t) (assoc "base_ref" t) = Ok (cf_namespaces s').
Proof.
  intros O. destruct v as [x|x|t|]; cbn [namespace_from]; try discriminate.
  rewrite ns_entries_once by (cbn; now apply once_keys).
  replace (match assoc "base_ref" t with Some b => Some b | None => None end) with (assoc "base_ref" t)
    by (destruct (assoc "base_ref" t); reflexivity). cbn [app].
  destruct (create_namespace_any _ _ _ _) as [nss|] eqn:E; [|discriminate]. intros [= <-].
  split; [now repeat split|]. eauto.
Qed.

Lemma namespaces_ok l : forall s s', Forall (fun kv => once (snd kv)) l ->
  each namespace_from s l = (s', Ok tt) -> ns_part s s'.
Proof.
  induction l as [|[n v] l IH]; intros s s' O E; cbn [each] in E.
  - injection E as <-. now repeat split.
  - inversion O as [|? ? O1 O2]; subst. destruct (namespace_from s n v) as [s1 [[]|]] eqn:F; [|discriminate].
    apply namespace_from_ok in F as ((A & B & C & D) & _); [|exact O1].
    destruct (IH _ _ O2 E) as (A' & B' & C' & D'). repeat split; congruence.
Qed.

Lemma create_any_other nss name pm base nss' other ro :
  create_namespace_any nss name pm base = Ok nss' -> other <> name -> role_ref nss' other ro = role_ref nss other ro.
Proof.
  unfold create_namespace_any. destruct (fill_any _ _ _); cbn [bind]; [|discriminate]. intros [= <-] D.
  unfold role_ref. now rewrite assoc_set_other.
Qed.

Lemma namespaces_other l : forall s s' other ro, Forall (fun kv => once (snd kv)) l ->
  each namespace_from s l = (s', Ok tt) -> ~ In other (map fst l) ->
  role_ref (cf_namespaces s') other ro = role_ref (cf_namespaces s) other ro.
Proof.
  induction l as [|[n v] l IH]; intros s s' other ro O E N; cbn [each] in E.
  - now injection E as <-.
  - inversion O as [|? ? O1 O2]; subst. destruct (namespace_from s n v) as [s1 [[]|]] eqn:F; [|discriminate].
    apply namespace_from_ok in F as (_ & t & _ & F); [|exact O1]. cbn in N.
    rewrite (IH _ _ _ _ O2 E) by tauto. eapply create_any_other; eauto.
Qed.

(** The namespace of an entry is the one made from that entry. *)
Lemma namespaces_entry l : forall s s' name t, Forall (fun kv => once (snd kv)) l -> NoDup (map fst l) ->
  each namespace_from s l = (s', Ok tt) -> In (name, TTable t) l ->
  exists nss nss', create_namespace_any nss name (roles_of t) (assoc "base_ref" t) = Ok nss' /\
    forall ro, role_ref (cf_namespaces s') name ro = role_ref nss' name ro.
Proof.
  induction l as [|[n v] l IH]; intros s s' name t O N E I; cbn [each] in E; [destruct I|].
  inversion O as [|? ? O1 O2]; subst. inversion N as [|? ? N1 N2]; subst.
  destruct (namespace_from s n v) as [s1 [[]|]] eqn:F; [|discriminate].
  destruct I as [I|I].
  - injection I as -> ->. apply namespace_from_ok in F as (_ & t' & [= <-] & F); [|exact O1].
    exists (cf_namespaces s), (cf_namespaces s1). split; [exact F|]. intros ro.
    eapply namespaces_other; eauto.
  - eapply IH; eauto.
Qed.

(** When an entry is accepted. *)
Lemma roles_of_in t k v : In (k, v) (roles_of t) <-> In (k, v) t /\ k <> "base_ref".
Proof. unfold roles_of. rewrite filter_In, negb_true_iff, String.eqb_neq. reflexivity. Qed.

Lemma fill_any_iff base pm m :
  (exists m', fill_any base m pm = Ok m') <->
  (pm = [] \/ exists b, base = TText b) /\
  (forall k v, In (k, v) pm -> (exists ro, denotes k ro) /\ exists s, v = TText s).
Proof.
  split.
  - intros (m' & E). destruct (fill_any_shape _ _ _ _ E) as [->|(b & tm & -> & ->)].
    + split; [auto|]. intros k v [].
    + split; [eauto|]. rewrite fill_any_text in E. intros k v I. apply in_map_iff in I as ([k' x] & [= <- <-] & I).
      split; [|eauto]. apply (fill_map_ok _ _ _ _ E (k', x) I).
  - intros (B & A). destruct B as [->|(b & ->)]; [cbn; eauto|].
    assert (T : exists tm, pm = map as_text tm).
    { clear - A. induction pm as [|[k v] pm IH]; [now exists []|]. destruct (A k v) as (_ & s & ->); [now left|].
      destruct IH as (tm & ->); [intros; apply A; now right|]. now exists ((k, s) :: tm). }
    destruct T as (tm & ->). rewrite fill_any_text. apply fill_map_total. intros [k x] I.
    apply (A k (TText x)). change (k, TText x) with (as_text (k, x)). now apply in_map.
Qed.

Lemma namespace_accept s name v : once v ->
  (exists s', namespace_from s name v = (s', Ok tt)) <-> proper_namespace v.
Proof.
  intros O. unfold proper_namespace. destruct v as [x|x|t|]; cbn [namespace_from];
    try (split; [intros (? & ?); discriminate|intros (? & ? & _); discriminate]).
  assert (N := once_keys _ O).
  rewrite ns_entries_once by exact N.
  replace (match assoc "base_ref" t with Some b => Some b | None => None end) with (assoc "base_ref" t)
    by (destruct (assoc "base_ref" t); reflexivity). cbn [app].
  unfold create_namespace_any.
  assert (X := fill_any_iff (match assoc "base_ref" t with Some b => b | None => TText ("/" ++ name) end) (roles_of t) []).
  split.
  - intros (s' & E). destruct (fill_any _ [] (roles_of t)) as [m|]; [|discriminate].
    destruct (proj1 X (ex_intro _ m eq_refl)) as (B & A). exists t. split; [reflexivity|]. split.
    + intros k y I D. apply A. now apply roles_of_in.
    + destruct B as [B|(b & B)].
      * left. intros k I. destruct (string_dec k "base_ref") as [|D]; [assumption|].
        apply in_map_iff in I as ([k' y] & <- & I). exfalso.
        assert (Z : In (k', y) (roles_of t)) by now apply roles_of_in. now rewrite B in Z.
      * right. intros y I. apply (assoc_once _ _ _ N) in I. rewrite I in B. eauto.
  - intros (t' & [= <-] & A & B). destruct (proj2 X) as (m & ->); [|cbn; eauto]. split.
    + destruct B as [B|B].
      * left. destruct (roles_of t) as [|[k y] r] eqn:E; [reflexivity|]. exfalso.
        assert (Z : In (k, y) (roles_of t)) by (rewrite E; now left). apply roles_of_in in Z as (Z & D).
        apply D, B. now apply (in_map fst) in Z.
      * right. destruct (assoc "base_ref" t) as [y|] eqn:E; [|eauto]. apply B. now apply assoc_in.
    + intros k y I. apply roles_of_in in I as (I & D). now apply A.
Qed.

(** ** Documents *)

Lemma document_from_iff s name v s' : once v ->
  document_from s name v = (s', Ok tt) <->
  exists path refs, configures_document name v path refs /\
    s' = mkConfig (cf_heap s ++ [new_obj KColl ""]) (cf_namespaces s)
           (cf_documents s ++ [mkDoc (List.length (cf_heap s)) path refs]) (cf_mappings s) (cf_settings s).
Proof.
  intros O. unfold configures_document. destruct v as [x|x|t|]; cbn [document_from];
    try (split; [discriminate|intros (? & ? & (_ & ? & ? & ? & _) & _); discriminate]).
  assert (N := once_keys _ O). unfold create_document, alloc. split.
  - destruct (assoc "packages" t) as [p|] eqn:P; [|discriminate].
    destruct (doc_refs (Some p)) as [l|] eqn:D; [|discriminate]. intros [= <-].
    apply doc_refs_iff in D. do 2 eexists. split; [|reflexivity]. split; [reflexivity|]. exists t, p.
    split; [reflexivity|]. split; [|exact D]. now apply assoc_in.
  - intros (path & refs & (-> & t' & p & [= <-] & I & L) & ->).
    apply (assoc_once _ _ _ N) in I. apply doc_refs_iff in L. rewrite I, L. reflexivity.
Qed.

Lemma documents_ok l : forall s s', Forall (fun kv => once (snd kv)) l ->
  each document_from s l = (s', Ok tt) ->
  cf_namespaces s' = cf_namespaces s /\ cf_mappings s' = cf_mappings s /\ cf_settings s' = cf_settings s /\
  cf_heap s' = cf_heap s ++ repeat (new_obj KColl "") (List.length l) /\
  exists ds, cf_documents s' = cf_documents s ++ ds /\
    map dc_doc ds = seq (List.length (cf_heap s)) (List.length l) /\
    Forall2 (fun kv d => configures_document (fst kv) (snd kv) (dc_path d) (dc_refs d)) l ds.
Proof.
  induction l as [|[n v] l IH]; intros s s' O E; cbn [each] in E.
  - injection E as <-. repeat split; [now rewrite app_nil_r|]. exists []. rewrite app_nil_r. repeat split. constructor.
  - inversion O as [|? ? O1 O2]; subst. destruct (document_from s n v) as [s1 [[]|]] eqn:F; [|discriminate].
    apply document_from_iff in F as (path & refs & C & ->); [|exact O1].
    destruct (IH _ _ O2 E) as (A & B & D & H & ds & L & M & Z). cbn in A, B, D, H, L, M.
    repeat split; try congruence.
    + rewrite H, <- app_assoc. reflexivity.
    + eexists. rewrite L, <- app_assoc. split; [reflexivity|]. split; [|constructor; [exact C|exact Z]].
      cbn. f_equal. rewrite M, app_length. cbn. now rewrite Nat.add_1_r.
Qed.

Lemma app_arxml a b : (a ++ ".arxml" = b ++ ".arxml")%string -> a = b.
Proof.
  intros E. assert (L : String.length a = String.length b).
  { apply (f_equal String.length) in E. rewrite !str_length_app in E. lia. }
  now apply str_app_inv_len in E.
Qed.

(** ** Mappings *)

Lemma element_attr_iff n : element_attr n = true <-> In n element_classes \/ In n imported_classes \/ In n other_attributes.
Proof.
  unfold element_attr. rewrite !orb_true_iff.
  assert (E : forall l, existsb (String.eqb n) l = true <-> In n l).
  { intros l. rewrite existsb_exists. split; [intros (x & I & X); apply String.eqb_eq in X; now subst|].
    intros I. exists n. split; [exact I|apply String.eqb_refl]. }
  rewrite !E. tauto.
Qed.

Lemma mapping_from_iff s v s' : once v ->
  mapping_from s v = (s', Ok tt) <->
  exists m, configures_mapping v m /\
    s' = mkConfig (cf_heap s) (cf_namespaces s) (cf_documents s) (cf_mappings s ++ [m]) (cf_settings s).
Proof.
  intros O. unfold configures_mapping. destruct v as [x|x|t|]; cbn [mapping_from];
    try (split; [discriminate|intros (? & (? & ? & ? & _) & _); discriminate]).
  assert (N := once_keys _ O). split.
  - destruct (assoc "package_ref" t) as [r|] eqn:R; [|discriminate].
    destruct (assoc "element_types" t) as [et|] eqn:T; [|discriminate].
    destruct (text_or_texts et) as [names|] eqn:X; cbn [bind]; [|discriminate].
    destruct (forallb element_attr names) eqn:A; cbn [negb]; [|discriminate].
    destruct names as [|n0 names]; [discriminate|].
    destruct (match assoc "suffix_filters" t with Some sf => text_or_texts sf | None => Ok [] end) as [sf|] eqn:S;
      cbn [bind]; [|discriminate]. intros [= <-].
    eexists. split; [|reflexivity]. exists t, et. cbn [mc_ref mc_types mc_suffixes].
    split; [reflexivity|]. split; [now apply assoc_in|]. split; [now apply assoc_in|].
    split; [now apply texts_iff|]. split; [discriminate|]. split.
    + rewrite forallb_forall in A. intros n I. now apply element_attr_iff, A.
    + destruct (assoc "suffix_filters" t) as [y|] eqn:Y.
      * left. exists y. split; [now apply assoc_in|now apply texts_iff].
      * right. injection S as <-. split; [now apply assoc_no|reflexivity].
  - intros (m & (t' & et & [= <-] & R & T & X & NE & A & S) & ->).
    apply (assoc_once _ _ _ N) in R, T. rewrite R, T. apply texts_iff in X. rewrite X. cbn [bind].
    assert (F : forallb element_attr (mc_types m) = true).
    { apply forallb_forall. intros n I. now apply element_attr_iff, A. }
    rewrite F. cbn [negb]. destruct m as [mr mt ms]. cbn [mc_ref mc_types mc_suffixes] in *.
    destruct mt as [|n0 mt]; [congruence|].
    destruct S as [(y & I & Y)|(I & ->)].
    + apply (assoc_once _ _ _ N) in I. rewrite I. apply texts_iff in Y. now rewrite Y.
    + apply assoc_no in I. now rewrite I.
Qed.

Lemma mappings_ok l : forall s s', Forall (fun kv => once (snd kv)) l ->
  each (fun s _ v => mapping_from s v) s l = (s', Ok tt) ->
  cf_namespaces s' = cf_namespaces s /\ cf_documents s' = cf_documents s /\ cf_settings s' = cf_settings s /\
  cf_heap s' = cf_heap s /\
  exists ms, cf_mappings s' = cf_mappings s ++ ms /\ Forall2 (fun kv m => configures_mapping (snd kv) m) l ms.
Proof.
  induction l as [|[n v] l IH]; intros s s' O E; cbn [each] in E.
  - injection E as <-. repeat split. exists []. rewrite app_nil_r. repeat split. constructor.
  - inversion O as [|? ? O1 O2]; subst. destruct (mapping_from s v) as [s1 [[]|]] eqn:F; [|discriminate].
    apply mapping_from_iff in F as (m & C & ->); [|exact O1].
    destruct (IH _ _ O2 E) as (A & B & D & H & ms & L & Z). cbn in A, B, D, H, L.
    repeat split; try congruence. eexists. rewrite L, <- app_assoc. split; [reflexivity|]. constructor; [exact C|exact Z].
Qed.

(** Acceptance of a section, given acceptance of its entries whatever the state. *)
Lemma each_accept (f : config -> string -> toml -> config * result unit) (P : string -> toml -> Prop) l :
  (forall s n v, In (n, v) l -> (exists s', f s n v = (s', Ok tt)) <-> P n v) ->
  forall s, (exists s', each f s l = (s', Ok tt)) <-> (forall n v, In (n, v) l -> P n v).
Proof.
  intros H. induction l as [|[n v] l IH]; intros s; cbn [each].
  - split; [intros _ n v []|eauto].
  - assert (H1 := H s n v (or_introl eq_refl)). destruct (f s n v) as [s1 [[]|e]] eqn:F.
    + rewrite IH by (intros; apply H; now right). split.
      * intros A n' v' [I|I]; [injection I as -> ->; apply H1; eauto|auto].
      * intros A n' v' I. apply A. now right.
    + split; [intros (? & ?); discriminate|]. intros A. destruct (proj2 H1) as (? & X); [|discriminate].
      apply A. now left.
Qed.

(** ** Settings *)

Lemma method_not_setting n : In n method_names -> In n setting_names -> False.
Proof.
  intros A B. assert (X : forallb (fun m => negb (existsb (String.eqb m) setting_names)) method_names = true) by reflexivity.
  rewrite forallb_forall in X. specialize (X n A). apply negb_true_iff in X.
  assert (Y : existsb (String.eqb n) setting_names = true); [|congruence].
  apply existsb_exists. exists n. split; [exact B|apply String.eqb_refl].
Qed.
Lemma known_iff n : known_attr n = true <-> In n setting_names \/ In n method_names.
Proof.
  unfold known_attr. rewrite orb_true_iff.
  assert (E : forall l, existsb (String.eqb n) l = true <-> In n l).
  { intros l. rewrite existsb_exists. split; [intros (x & I & X); apply String.eqb_eq in X; now subst|].
    intros I. exists n. split; [exact I|apply String.eqb_refl]. }
  now rewrite !E.
Qed.

Lemma update_any_ok l : forall s, intact s -> (forall n, In n (map fst l) -> ~ In n method_names) ->
  (exists s', update_any s l = (s', Ok tt)) <-> (forall n v, In (n, v) l -> In n setting_names /\ exists x, v = TText x).
Proof.
  induction l as [|[n v] l IH]; intros s K M; cbn [update_any].
  - split; [intros _ n v []|eauto].
  - rewrite (K "set_value") by now left. destruct (known_attr n) eqn:A.
    + apply known_iff in A. assert (In n setting_names) by (destruct A as [|A]; [assumption|]; now apply M in A; [|left]).
      destruct v as [x|x|x|]; try (split; [intros (? & ?); discriminate|];
        intros X; destruct (X n _ (or_introl eq_refl)) as (_ & ? & ?); discriminate).
      rewrite IH.
      * split; [intros X n' v' [I|I]; [injection I as <- <-; eauto|auto]|intros X n' v' I; apply X; now right].
      * intros m I. rewrite assoc_set_other; [now apply K|]. intros <-. now apply (method_not_setting m).
      * intros m I. apply M. now right.
    + split; [intros (? & ?); discriminate|]. intros X. destruct (X n v (or_introl eq_refl)) as (Y & _).
      assert (known_attr n = true) by (apply known_iff; auto). congruence.
Qed.

Lemma update_any_result l : forall s s', NoDup (map fst l) -> update_any s l = (s', Ok tt) ->
  (forall n x, In (n, TText x) l -> assoc n s' = Some x) /\
  (forall n, ~ In n (map fst l) -> assoc n s' = assoc n s).
Proof.
  induction l as [|[n v] l IH]; intros s s' N E; cbn [update_any] in E.
  - injection E as <-. split; [intros n x []|auto].
  - destruct (assoc "set_value" s); [discriminate|]. destruct (known_attr n); [|discriminate].
    destruct v as [x| | |]; try discriminate. inversion N as [|? ? N1 N2]; subst.
    destruct (IH _ _ N2 E) as (A & B). split.
    + intros n' x' [I|I]; [|auto]. injection I as <- <-. rewrite B by exact N1. apply assoc_set_same.
    + intros n' I. cbn in I. rewrite B by tauto. apply assoc_set_other. intros ->. tauto.
Qed.

(** ** The whole file *)

Lemma entries_assoc cfg key l : NoDup (map fst cfg) ->
  entries cfg key l <-> (assoc key cfg = Some (TTable l) \/ (assoc key cfg = None /\ l = [])).
Proof. intros N. unfold entries. now rewrite (assoc_once _ _ _ N), assoc_no. Qed.

Lemma section_ok f cfg key s s' :
  section f cfg key s = (s', Ok tt) <->
  exists l, (assoc key cfg = Some (TTable l) \/ (assoc key cfg = None /\ l = [])) /\ each f s l = (s', Ok tt).
Proof.
  unfold section. destruct (assoc key cfg) as [v|].
  - destruct v as [x|x|l|]; try (split; [discriminate|intros (l & [E|[E _]] & _); discriminate]).
    split; [intros E; exists l; auto|]. intros (l' & [[= ->]|[E _]] & X); [exact X|discriminate].
  - split; [intros E; exists []; auto|]. intros (l' & [E|[_ ->]] & X); [discriminate|exact X].
Qed.

Lemma then_ok r k s' : then_do r k = (s', Ok tt) <-> exists s, r = (s, Ok tt) /\ k s = (s', Ok tt).
Proof.
  destruct r as [s [[]|e]]; cbn [then_do].
  - split; [eauto|]. intros (s0 & [= <-] & E). exact E.
  - split; [discriminate|]. intros (s0 & E & _). discriminate.
Qed.

(** All steps of a successful load. *)
Lemma load_steps s cfg s' : once (TTable cfg) ->
  load_config s cfg = (s', Ok tt) <->
  exists ns docs maps s1 s2 s3,
    entries cfg "namespace" ns /\ entries cfg "document" docs /\ entries cfg "document_mapping" maps /\
    each namespace_from s ns = (s1, Ok tt) /\ each document_from s1 docs = (s2, Ok tt) /\
    each (fun s _ v => mapping_from s v) s2 maps = (s3, Ok tt) /\
    match assoc "behavior" cfg with None => s' = s3 | Some v => settings_from s3 v = (s', Ok tt) end.
Proof.
  intros O. assert (N := once_keys _ O). unfold load_config. rewrite then_ok. split.
  - intros (s1 & A & E). apply then_ok in E as (s2 & B & E). apply then_ok in E as (s3 & C & E).
    apply section_ok in A as (ns & A & A'). apply section_ok in B as (docs & B & B').
    apply section_ok in C as (maps & C & C'). exists ns, docs, maps, s1, s2, s3.
    rewrite !(entries_assoc _ _ _ N). repeat split; auto.
    destruct (assoc "behavior" cfg); [exact E|now injection E].
  - intros (ns & docs & maps & s1 & s2 & s3 & A & B & C & A' & B' & C' & E).
    rewrite !(entries_assoc _ _ _ N) in *. exists s1. split; [apply section_ok; eauto|].
    apply then_ok. exists s2. split; [apply section_ok; eauto|]. apply then_ok. exists s3.
    split; [apply section_ok; eauto|]. destruct (assoc "behavior" cfg); [exact E|now subst].
Qed.

Lemma entries_once cfg key l : once (TTable cfg) -> entries cfg key l ->
  NoDup (map fst l) /\ Forall (fun kv => once (snd kv)) l.
Proof.
  intros O [I|[_ ->]]; [|now repeat constructor]. apply (once_in _ _ _ O) in I. now inversion I.
Qed.
Lemma entries_same cfg key l l' : NoDup (map fst cfg) -> entries cfg key l -> entries cfg key l' -> l = l'.
Proof.
  intros N A B. apply (entries_assoc _ _ _ N) in A. apply (entries_assoc _ _ _ N) in B. destruct A as [A|[A ->]], B as [B|[B ->]]; congruence.
Qed.
