(** Proofs about creating connectors. *)
From Verif Require Import Base PBase MHeap SHeap MNames MNum MRefTab MRef MEnum MCodec MElem1 MElemB MElemC MElem2 MElem4 MElemE MElemF MArxml MFind MConn SFind PFind.
Open Scope list_scope.

Lemma split_at_valid n : mem_char slash n = false -> split_at slash n = [n].
Proof. induction n as [|c n IH]; cbn; [reflexivity|]. intros H. apply orb_false_iff in H as [-> H]. now rewrite (IH H). Qed.
Lemma split_at_two a b : mem_char slash a = false -> mem_char slash b = false -> split_at slash (a ++ "/" ++ b)%string = [a; b].
Proof.
  induction a as [|c a IH]; cbn; intros H Hb; [now rewrite split_at_valid|]. apply orb_false_iff in H as [-> H]. cbn in IH. now rewrite (IH H Hb).
Qed.
Lemma split_ref_valid n : valid_name n -> split_ref n = Ok [n].
Proof. intros [A B]. unfold split_ref. destruct n as [|c n]; [congruence|]. pose proof B as B'. cbn in B. apply orb_false_iff in B as [-> _]. now rewrite split_at_valid. Qed.
Lemma split_ref_two a b : valid_name a -> valid_name b -> split_ref (a ++ "/" ++ b)%string = Ok [a; b].
Proof.
  intros [A A'] [B B']. unfold split_ref. destruct a as [|c a]; [congruence|]. change ((String c a ++ "/" ++ b)%string) with (String c (a ++ "/" ++ b)).
  pose proof A' as X. cbn in X. apply orb_false_iff in X as [-> _]. change (String c (a ++ "/" ++ b)) with (String c a ++ "/" ++ b)%string. now rewrite split_at_two.
Qed.
Lemma split_at_mem s : Forall (fun x => mem_char slash x = false) (split_at slash s).
Proof.
  induction s as [|c s IH]; cbn; [repeat constructor|]. destruct (Ascii.eqb c slash) eqn:E; [constructor; auto|].
  destruct (split_at slash s) as [|x l]; [repeat constructor; cbn; now rewrite E|]. inversion IH. subst. constructor; auto. cbn. now rewrite E.
Qed.
Lemma split_ref_mem s l : split_ref s = Ok l -> Forall (fun x => mem_char slash x = false) l.
Proof. unfold split_ref. destruct s as [|c s]; [discriminate|]. assert (X : forall a b : list string, Ok a = Ok b -> a = b) by congruence.
  destruct (Ascii.eqb c slash); intros E; apply X in E; subst l; apply split_at_mem. Qed.

Lemma inside_element p ns f : package_ok p -> inside p ns f -> forall e, f = FElement e -> element_ok e /\ valid_name (element_name e).
Proof.
  intros P H. induction H as [i es ps e I|i es ps e f I J|i es ps q I|i es ps q ns f I H IH]; intros e0 E; inversion P as [? ? ? [S1 S2] S3 S4]; subst.
  - inversion E. subst. rewrite Forall_app, !Forall_forall in S1. rewrite Forall_forall in S3. split; [auto|]. apply (proj1 S1), in_map, I.
  - subst. destruct e; cbn in J; try tauto; repeat (apply in_app_or in J; destruct J as [J|J]); apply in_map_iff in J as (? & ? & ?); discriminate.
  - discriminate.
  - rewrite Forall_forall in S4. eauto.
Qed.
Lemma at_element ws ns e : tree_ok ws -> at_path ws ns (FElement e) -> element_ok e.
Proof.
  intros [_ T] H. inversion H as [|q ns' f I J]; subst. rewrite Forall_forall in T. now apply (inside_element q ns' (FElement e) (T q I) J e).
Qed.
Lemma at_member ws ns e f : at_path ws ns (FElement e) -> In f (members e) -> at_path ws (ns ++ [found_name f]) f.
Proof.
  assert (X : forall p ns g, inside p ns g -> forall e, g = FElement e -> In f (members e) -> inside p (ns ++ [found_name f]) f).
  { intros p ns0 g H. induction H as [i es ps e0 I|i es ps e0 g I J|i es ps q I|i es ps q ns0 g I H IH]; intros e1 E M.
    - inversion E. subst. now apply in_member.
    - subst. destruct e0; cbn in J; try tauto; repeat (apply in_app_or in J; destruct J as [J|J]); apply in_map_iff in J as (? & ? & ?); discriminate.
    - discriminate.
    - cbn [app]. eapply in_deeper; eauto. }
  intros H M. inversion H as [|q ns' g I J]; subst. cbn [app]. eapply at_inside; eauto.
Qed.
Lemma path_below ns n : ns <> [] -> below (path_string ns) n = path_string (ns ++ [n]).
Proof. intros H. destruct (below_path ns n); [assumption|congruence]. Qed.
Lemma at_nonempty ws ns f : at_path ws ns f -> ns <> [].
Proof. intros H. inversion H; discriminate. Qed.

(** Names of a composition and its find method. *)
Lemma composition_find_none c n : mem_char slash n = false -> (composition_find c n = None <-> ~ In n (composition_names c)).
Proof.
  intros V. unfold composition_find, ports_find, composition_names. rewrite (partition_valid n V). cbn [fst]. rewrite !in_app_iff.
  pose proof (first_named_none component_name n (CompositionSwComponentType_components c)) as A.
  pose proof (first_named_none connector_name n (CompositionSwComponentType_connectors c)) as B.
  pose proof (first_named_none port_name n (CompositionSwComponentType_ports c)) as D.
  destruct (first_named component_name n _); [split; [discriminate|]; intros X; exfalso; assert (Some s = None) by (apply A; tauto); discriminate|].
  destruct (first_named connector_name n _); [split; [discriminate|]; intros X; exfalso; assert (Some s = None) by (apply B; tauto); discriminate|].
  destruct (first_named port_name n _); cbn [option_map]; [split; [discriminate|]; intros X; exfalso; assert (Some p = None) by (apply D; tauto); discriminate|].
  tauto.
Qed.
Lemma composition_find_port c p : scope_ok (composition_names c) -> In p (CompositionSwComponentType_ports c) -> composition_find c (port_name p) = Some (FPort p).
Proof.
  intros [V N] I. unfold composition_names in *. rewrite Forall_forall in V.
  assert (Vp : valid_name (port_name p)) by (apply V; rewrite !in_app_iff; right; right; now apply in_map).
  unfold composition_find, ports_find. rewrite partition_valid by apply Vp. cbn [fst].
  assert (A : first_named component_name (port_name p) (CompositionSwComponentType_components c) = None).
  { apply first_named_none. intros X. refine (NoDup_app_apart _ _ _ N X _). apply in_or_app. right. now apply in_map. }
  assert (B : first_named connector_name (port_name p) (CompositionSwComponentType_connectors c) = None).
  { apply first_named_none. intros X. refine (NoDup_app_apart _ _ _ (NoDup_app_r _ _ N) X _). now apply in_map. }
  rewrite A, B, first_named_found; auto. exact (NoDup_app_r _ _ (NoDup_app_r _ _ N)).
Qed.
Lemma component_first c k : scope_ok (composition_names c) -> In k (CompositionSwComponentType_components c) ->
  first_named component_name (component_name k) (CompositionSwComponentType_components c) = Some k.
Proof. intros [V N] I. apply first_named_found; auto. exact (NoDup_app_l _ _ N). Qed.
Lemma as_component_find e p : is_component_type e -> element_ok e -> In (FPort p) (members e) ->
  exists find_in, as_component (FElement e) = Some find_in /\ find_in (port_name p) = Some (FPort p).
Proof.
  intros T K I. pose proof (element_find_member e (FPort p) K I) as F. destruct e; try destruct T; cbn in *; eexists; (split; [reflexivity|]); congruence.
Qed.
Lemma names_outer c p : scope_ok (composition_names c) -> In p (CompositionSwComponentType_ports c) -> valid_name (port_name p).
Proof. intros [V _] I. rewrite Forall_forall in V. apply V. unfold composition_names. rewrite !in_app_iff. right; right. now apply in_map. Qed.
Lemma names_component c k : scope_ok (composition_names c) -> In k (CompositionSwComponentType_components c) -> valid_name (component_name k).
Proof. intros [V _] I. rewrite Forall_forall in V. apply V. unfold composition_names. rewrite !in_app_iff. left. now apply in_map. Qed.
Lemma names_member e p : element_ok e -> In (FPort p) (members e) -> valid_name (port_name p).
Proof. intros [V _] I. rewrite Forall_forall in V. apply V. change (port_name p) with (found_name (FPort p)). now apply in_map. Qed.

Definition owner_of (self : list string) (o : option (SwComponentPrototype * list string)) : option string :=
  Some (path_string (match o with None => self | Some (_, ns) => ns end)).
Lemma analyze_means ws self c t p o : tree_ok ws -> scope_ok (composition_names c) -> means ws c t p o ->
  analyze_port_ref ws (Some (path_string self)) c t = Ok (Some (owner_of self o, p), option_map fst o).
Proof.
  intros T K H. unfold analyze_port_ref. destruct H as [p I|k p ns e I (r & R & V & A) C M].
  - rewrite split_ref_valid by (eapply names_outer; eauto). cbn [bind]. rewrite composition_find_port by assumption. reflexivity.
  - pose proof (at_element ws ns e T A) as Ke. rewrite split_ref_two by (eauto using names_component, names_member). cbn [bind].
    rewrite component_first by assumption. unfold type_ref_text. rewrite R, V, (tree_find_at ws ns _ T A). cbn [bind].
    destruct (as_component_find e p C Ke M) as (g & -> & ->). reflexivity.
Qed.
Lemma means_names ws c t p o : tree_ok ws -> scope_ok (composition_names c) -> means ws c t p o ->
  valid_name (port_name p) /\ match o with Some (k, ns) => valid_name (component_name k) /\ ns <> [] | None => True end.
Proof.
  intros T K H. destruct H as [p I|k p ns e I (r & R & V & A) C M].
  - split; eauto using names_outer.
  - pose proof (at_element ws ns e T A) as Ke. split; [eauto using names_member|]. split; eauto using names_component, at_nonempty.
Qed.
Lemma mem_char_app x a b : mem_char x (a ++ b)%string = mem_char x a || mem_char x b.
Proof. induction a as [|c a IH]; cbn; [reflexivity|]. rewrite IH. now rewrite orb_assoc. Qed.

Lemma port_ref_path ns p : ns <> [] -> port_ref (Some (path_string ns)) p = Some (ref_to_port ns p).
Proof. intros H. unfold port_ref, ref_to_port. cbn [option_map]. now rewrite path_below. Qed.
Lemma instance_ref_path self k ns p : self <> [] -> ns <> [] -> instance_ref (Some (path_string self)) k (Some (path_string ns), p) = ref_to_instance self k ns p.
Proof.
  intros H H'. unfold instance_ref, ref_to_instance, component_ref. cbn [option_map fst snd]. now rewrite port_ref_path, path_below.
Qed.
(** A connector that [joins] two ports is made from the two texts in the given order ... *)
Lemma create_joins ws self c t1 p1 o1 t2 p2 o2 k : tree_ok ws -> scope_ok (composition_names c) -> self <> [] ->
  means ws c t1 p1 o1 -> means ws c t2 p2 o2 -> joins self p1 o1 p2 o2 k ->
  create_connector ws (Some (path_string self)) c t1 t2 = add_if_new c k /\
  (o1 <> None -> create_connector ws (Some (path_string self)) c t2 t1 = add_if_new c k).
Proof.
  intros T K S M1 M2 J. unfold create_connector.
  rewrite (analyze_means ws self c t1 p1 o1 T K M1), (analyze_means ws self c t2 p2 o2 T K M2).
  pose proof (means_names _ _ _ _ _ T K M1) as N1. pose proof (means_names _ _ _ _ _ T K M2) as N2.
  destruct J as [p1 k1 t1' p2 k2 t2'|p1 k1 t1' p2|p1 k1 t1' p2 NP|p1 p2]; unfold owner_of; cbn [option_map fst snd is_require is_provide andb].
  - destruct N1 as [_ [_ N1]], N2 as [_ [_ N2]]. unfold create_assembly_connector. rewrite !instance_ref_path by assumption. split; reflexivity.
  - destruct N1 as [_ [_ N1]]. unfold create_delegation_connector. cbn [fst snd is_provide]. rewrite !instance_ref_path, port_ref_path by assumption. split; reflexivity.
  - destruct N1 as [_ [_ N1]]. unfold create_delegation_connector. cbn [fst snd]. rewrite !instance_ref_path, port_ref_path by assumption.
    destruct p2 as [q|q|q]; [exfalso; exact (NP q eq_refl)| |]; split; reflexivity.
  - unfold create_pass_through_connector. cbn [fst snd]. rewrite !port_ref_path by assumption. split; [reflexivity|congruence].
Qed.
Lemma valid_under a b : valid_name a -> valid_name b -> valid_name (a ++ "_" ++ b)%string.
Proof. intros [A A'] [B B']. split; [destruct a; [congruence|discriminate]|]. rewrite !mem_char_app, A', B'. reflexivity. Qed.
Lemma joins_name ws self c t1 p1 o1 t2 p2 o2 k : tree_ok ws -> scope_ok (composition_names c) ->
  means ws c t1 p1 o1 -> means ws c t2 p2 o2 -> joins self p1 o1 p2 o2 k -> valid_name (connector_name k).
Proof.
  intros T K M1 M2 J. pose proof (means_names _ _ _ _ _ T K M1) as N1. pose proof (means_names _ _ _ _ _ T K M2) as N2.
  destruct J as [p1 k1 t1' p2 k2 t2'|p1 k1 t1' p2|p1 k1 t1' p2 NP|p1 p2]; unfold connector_name; 
    cbn [AssemblySwConnector_ident DelegationSwConnector_ident PassThroughSwConnector_ident named id_name];
    destruct N1 as [A1 N1], N2 as [A2 N2]; repeat apply valid_under; try tauto; assumption.
Qed.

(** ** What a successful call did *)
Lemma analyze_sound ws self c t op ko : analyze_port_ref ws (Some (path_string self)) c t = Ok (op, ko) ->
  (op = None /\ ko = None) \/ exists p o, op = Some (owner_of self o, p) /\ ko = option_map fst o /\ port_of ws c p o.
Proof.
  unfold analyze_port_ref. destruct (split_ref t) as [l|] eqn:E; [|discriminate]. cbn [bind]. destruct l as [|n [|pn [|]]]; try discriminate.
  - destruct (composition_find c n) as [[]|] eqn:F; try discriminate. intros X. inversion X. right. exists p, None. split; [reflexivity|]. split; [reflexivity|].
    constructor. unfold composition_find, ports_find in F. destruct (first_named component_name _ _); [discriminate|]. destruct (first_named connector_name _ _); [discriminate|].
    destruct (first_named port_name _ _) eqn:G; [|discriminate]. inversion F. subst. now apply first_named_in in G.
  - destruct (first_named component_name n _) as [k|] eqn:F; [|intros X; inversion X; now left]. apply first_named_in in F as [I _].
    destruct (tree_find ws (type_ref_text k)) as [[[path f]|]|] eqn:G; cbn [bind]; try discriminate. destruct (as_component f) as [g|] eqn:A; [|discriminate].
    destruct (g pn) as [[]|] eqn:P; try discriminate. intros X. inversion X. subst. right.
    pose proof G as G'. apply tree_find_sound in G as (ns & H & ->). exists p, (Some (k, ns)). split; [reflexivity|]. split; [reflexivity|].
    unfold type_ref_text in G'. destruct f as [| e | | | | | |]; try discriminate. destruct (SwComponentPrototype_type_ref k) as [r|] eqn:R.
    + eapply port_inner; eauto; destruct e; try discriminate; cbn; auto; cbn in A; inversion A; subst; clear A.
      * pose proof (element_find_sound (AR_ApplicationSoftwareComponentType e) pn (FPort p)) as Y. cbn in Y. rewrite P in Y. now apply Y.
      * pose proof (element_find_sound (AR_CompositionSwComponentType e) pn (FPort p)) as Y. cbn in Y. rewrite P in Y. now apply Y.
    + exfalso. unfold tree_find in G'. cbn in G'. destruct (first_named package_name "None" ws); discriminate.
Qed.
Lemma add_if_new_ok c k0 c' k : add_if_new c k0 = (c', Ok k) -> k = k0 /\ c' = add_connector c k /\ composition_find c (connector_name k) = None.
Proof. unfold add_if_new. destruct (composition_find c (connector_name k0)) eqn:E; intros X; inversion X. subst. auto. Qed.
Lemma add_if_new_err c k0 c' e : add_if_new c k0 = (c', Err e) -> c' = c.
Proof. unfold add_if_new. destruct (composition_find c (connector_name k0)) eqn:E; intros X; inversion X. reflexivity. Qed.

(** The connector of a successful call: one that [joins] the two ports in some order, or a
    pass-through connector whose provided port is the first one. *)
Lemma create_sound ws self c t1 t2 c' k : self <> [] -> create_connector ws (Some (path_string self)) c t1 t2 = (c', Ok k) ->
  exists p1 o1 p2 o2, port_of ws c p1 o1 /\ port_of ws c p2 o2 /\
    (joins self p1 o1 p2 o2 k \/ joins self p2 o2 p1 o1 k \/
     (o1 = None /\ o2 = None /\ k = SwConnectorElement_PassThrough (mkPassThroughSwConnector (named (port_name p1 ++ "_" ++ port_name p2)%string)
       (Some (ref_to_port self p1)) (Some (ref_to_port self p2))))).
Proof.
  intros S. unfold create_connector. destruct (analyze_port_ref _ _ _ t1) as [[op1 ko1]|] eqn:E1; [|discriminate].
  destruct (analyze_port_ref _ _ _ t2) as [[op2 ko2]|] eqn:E2; [|discriminate].
  apply analyze_sound in E1. apply analyze_sound in E2.
  destruct E1 as [[-> ->]|(p1 & o1 & -> & -> & P1)]; [destruct E2 as [[-> ->]|(p2 & [[k2 n2]|] & -> & -> & P2)]; discriminate|].
  destruct E2 as [[-> ->]|(p2 & o2 & -> & -> & P2)]; [destruct o1 as [[]|]; discriminate|].
  intros H. exists p1, o1, p2, o2. split; [assumption|]. split; [assumption|].
  assert (NE : forall p k n, port_of ws c p (Some (k, n)) -> n <> []) by (intros p k' n X; inversion X; subst; eapply at_nonempty; eauto).
  destruct o1 as [[k1 n1]|], o2 as [[k2 n2]|]; unfold owner_of in H; cbn [option_map fst snd] in H.
  - apply NE in P1. apply NE in P2. destruct p1, p2; cbn [is_require is_provide andb] in H; try discriminate; unfold create_assembly_connector in H;
    apply add_if_new_ok in H as (-> & _); rewrite !instance_ref_path by assumption; [left|right; left]; constructor.
  - apply NE in P1. unfold create_delegation_connector in H. cbn [fst snd] in H. apply add_if_new_ok in H as (-> & _). rewrite instance_ref_path, port_ref_path by assumption.
    left. destruct p2; constructor; congruence.
  - apply NE in P2. unfold create_delegation_connector in H. cbn [fst snd] in H. apply add_if_new_ok in H as (-> & _). rewrite instance_ref_path, port_ref_path by assumption.
    right; left. destruct p1; constructor; congruence.
  - unfold create_pass_through_connector in H. cbn [fst snd] in H. apply add_if_new_ok in H as (-> & _). rewrite !port_ref_path by assumption. auto.
Qed.
Lemma create_effect ws self c t1 t2 c' r : create_connector ws self c t1 t2 = (c', r) ->
  match r with Err _ => c' = c | Ok k => c' = add_connector c k /\ composition_find c (connector_name k) = None end.
Proof.
  unfold create_connector. destruct (analyze_port_ref _ _ _ t1) as [[op1 ko1]|]; [|intros X; inversion X; auto].
  destruct (analyze_port_ref _ _ _ t2) as [[op2 ko2]|]; [|intros X; inversion X; auto].
  assert (Q : forall k0, add_if_new c k0 = (c', r) -> match r with Err _ => c' = c | Ok k => c' = add_connector c k /\ composition_find c (connector_name k) = None end).
  { intros k0 X. destruct r; [apply add_if_new_ok in X as (-> & ? & ?); auto|eapply add_if_new_err; eauto]. }
  unfold create_delegation_connector, create_pass_through_connector, create_assembly_connector.
  destruct ko1, ko2, op1, op2; try (intros X; inversion X; now auto); try apply Q.
  destruct (is_require _ && is_provide _); [apply Q|]. destruct (is_provide _ && is_require _); [apply Q|]. intros X. inversion X. reflexivity.
Qed.

Lemma port_at ws self c p o : at_path ws self (FElement (AR_CompositionSwComponentType c)) -> port_of ws c p o ->
  at_path ws (match o with None => self | Some (_, ns) => ns end ++ [port_name p]) (FPort p).
Proof.
  intros A H. destruct H as [p I|k r p ns e I R F At C M].
  - change (port_name p) with (found_name (FPort p)). eapply at_member; eauto. cbn. rewrite !in_app_iff. right; right. now apply in_map.
  - change (port_name p) with (found_name (FPort p)). eapply at_member; eauto.
Qed.
Lemma component_at ws self c k p ns : at_path ws self (FElement (AR_CompositionSwComponentType c)) -> port_of ws c p (Some (k, ns)) ->
  at_path ws (self ++ [component_name k]) (FComponent k).
Proof.
  intros A H. inversion H; subst. change (component_name k) with (found_name (FComponent k)). eapply at_member; eauto. cbn. rewrite !in_app_iff. left. now apply in_map.
Qed.
Lemma resolves_at ws ns f d : tree_ok ws -> at_path ws ns f -> found_dest f = Some d -> resolves ws (Some (mkRef (path_string ns) d)).
Proof. intros T A D. exists (mkRef (path_string ns) d), f. split; [reflexivity|]. split; [now apply tree_find_at|exact D]. Qed.
Lemma joins_resolve ws self c p1 o1 p2 o2 k : tree_ok ws -> at_path ws self (FElement (AR_CompositionSwComponentType c)) ->
  port_of ws c p1 o1 -> port_of ws c p2 o2 -> joins self p1 o1 p2 o2 k -> Forall (resolves ws) (connector_refs k).
Proof.
  intros T A H1 H2 J. pose proof (port_at _ _ _ _ _ A H1) as A1. pose proof (port_at _ _ _ _ _ A H2) as A2.
  assert (C1 : forall k ns, o1 = Some (k, ns) -> at_path ws (self ++ [component_name k]) (FComponent k)) by (intros; subst; eapply component_at; eauto).
  assert (C2 : forall k ns, o2 = Some (k, ns) -> at_path ws (self ++ [component_name k]) (FComponent k)) by (intros; subst; eapply component_at; eauto).
  destruct J; cbn [connector_refs instance_refs app AssemblySwConnector_provide_port AssemblySwConnector_require_port DelegationSwConnector_inner_port
     DelegationSwConnector_outer_port PassThroughSwConnector_provide_port PassThroughSwConnector_require_port ref_to_instance
     PortInCompositionTypeInstanceRef_component_ref PortInCompositionTypeInstanceRef_port_ref]; unfold ref_to_port;
    repeat constructor; eapply resolves_at; eauto; reflexivity.
Qed.
Lemma port_of_names ws c p o : tree_ok ws -> scope_ok (composition_names c) -> port_of ws c p o ->
  valid_name (port_name p) /\ match o with Some (k, _) => valid_name (component_name k) | None => True end.
Proof.
  intros T K H. destruct H as [p I|k r p ns e I R F At C M].
  - split; eauto using names_outer.
  - split; [eapply names_member; eauto using at_element|eauto using names_component].
Qed.
Lemma joins_valid self p1 o1 p2 o2 k : valid_name (port_name p1) -> match o1 with Some (k, _) => valid_name (component_name k) | None => True end ->
  valid_name (port_name p2) -> match o2 with Some (k, _) => valid_name (component_name k) | None => True end ->
  joins self p1 o1 p2 o2 k -> valid_name (connector_name k).
Proof.
  intros A1 N1 A2 N2 J. destruct J as [p1 k1 t1' p2 k2 t2'|p1 k1 t1' p2|p1 k1 t1' p2 NP|p1 p2]; unfold connector_name; 
    cbn [AssemblySwConnector_ident DelegationSwConnector_ident PassThroughSwConnector_ident named id_name]; repeat apply valid_under; assumption.
Qed.
Lemma NoDup_insert {A} (a b c : list A) x : NoDup (a ++ b ++ c) -> ~ In x (a ++ b ++ c) -> NoDup (a ++ (b ++ [x]) ++ c).
Proof.
  intros N I. rewrite <- (app_assoc b), (app_assoc a b ([x] ++ c)). rewrite (app_assoc a b c) in N, I. revert N I. generalize (a ++ b). intros l N I.
  induction l as [|y l IH]; cbn in *; [constructor; auto|]. inversion N as [|? ? N1 N2]. subst. constructor.
  - rewrite in_app_iff in *. cbn. intuition.
  - apply IH; intuition.
Qed.
Lemma add_connector_scope c k : scope_ok (composition_names c) -> valid_name (connector_name k) -> composition_find c (connector_name k) = None ->
  scope_ok (composition_names (add_connector c k)).
Proof.
  intros [V N] W F. apply composition_find_none in F; [|apply W]. unfold composition_names in *. cbn [add_connector CompositionSwComponentType_components
    CompositionSwComponentType_connectors CompositionSwComponentType_ports]. rewrite map_app. cbn [map]. split.
  - rewrite !Forall_app in *. intuition.
  - now apply NoDup_insert.
Qed.
