(** Property theorems about the package tree: C01 - C07.
    Vocabulary: SHeap.v.  The model of the code: MHeap.v. *)
From Verif Require Import Base PBase MHeap SHeap PHeap.

(** A history used by the examples: a workspace 0 with packages A (1) and A/B (2), an
    element E (3) in A/B, a component C (4) in A with a port p (5), a detached element (6). *)
Definition demo_ops : list op :=
  [ONew KColl ""; OMake 0 "/A/B"; ONew KElem "E"; OPkgAppend 2 3;
   ONew KComp "C"; OPkgAppend 1 4; ONew KMem "p"; OMember 4 5; ONew KElem "X";
   OPkgAppend 2 3 (* rejected: duplicate *)].
Definition demo : heap := run demo_ops.
Lemma demo_reachable : reachable demo.
Proof. exists demo_ops. reflexivity. Qed.

(** C01: the made package is found under the same string, is a package, and is reached by
    walking down exactly the names spelled by the string (up to one leading and one
    trailing slash). *)
Theorem C01_made_package_is_found :
  forall h c ref h' q,
    reachable h -> has_kind KColl h c -> coll_make h c ref = (h', Ok q) ->
    coll_find h' c ref = Ok (Some q) /\ has_kind KPkg h' q /\
    exists ns lead trail,
      path h' c ns q /\ ref = (lead ++ join "/" ns ++ trail)%string
      /\ (lead = "" \/ lead = "/") /\ (trail = "" \/ trail = "/").
Proof. exact made_found. Qed.

Example C01_case : exists h' q, coll_make demo 0 "/A/B/New" = (h', Ok q) /\ h' <> demo.
Proof. eexists. eexists. split; [vm_compute; reflexivity|vm_compute; discriminate]. Qed.

(** C01, several arguments: every returned package is found in the final state. *)
Theorem C01_many_packages_are_found :
  forall h c refs h' qs,
    reachable h -> has_kind KColl h c -> coll_make_all h c refs = (h', Ok qs) ->
    Forall2 (fun r q => coll_find h' c r = Ok (Some q)) refs qs /\ grown h h'.
Proof. exact make_all_found. Qed.

Example C01_many_case : exists h' qs, coll_make_all demo 0 ["A/M/N"; "/Z"; "A"] = (h', Ok qs) /\ List.length qs = 3.
Proof. eexists. eexists. split; vm_compute; reflexivity. Qed.

(** C01, when it succeeds: for a path of proper short-names make_packages succeeds unless
    the path runs into an element that is not a package; then it raises KeyError. *)
Theorem C01_make_succeeds_unless_blocked :
  forall h c ns s,
    reachable h -> has_kind KColl h c -> ns <> [] -> (forall n, In n ns -> valid_name n) ->
    s = join "/" ns \/ s = ("/" ++ join "/" ns)%string ->
    (leads_into_element h c ns -> exists h', coll_make h c s = (h', Err KeyError)) /\
    (~ leads_into_element h c ns -> exists h' q, coll_make h c s = (h', Ok q)).
Proof.
  intros h c ns s R (co & Ec & KC) NE V Hs. rewrite leads_blocked.
  apply (coll_make_total h c co); auto. now apply inv_reachable.
Qed.

Example C01_blocked_case : exists h', coll_make demo 0 "/A/B/E/F" = (h', Err KeyError).
Proof. eexists. vm_compute. reflexivity. Qed.

(** C02: a second call returns the same package and leaves the state as it is. *)
Theorem C02_make_twice_is_make_once :
  forall h c ref h' q,
    reachable h -> has_kind KColl h c -> coll_make h c ref = (h', Ok q) ->
    coll_make h' c ref = (h', Ok q).
Proof.
  intros h c ref h' q R (co & Ec & KC) E. eapply coll_make_find; eauto. now apply inv_reachable.
Qed.

(** C02: whatever the outcome of make_packages, everything that could be looked up before,
    in any document, gives the same object afterwards, and no object changed otherwise. *)
Theorem C02_make_keeps_lookups :
  forall h c ref h' r,
    reachable h -> has_kind KColl h c -> coll_make h c ref = (h', r) ->
    grown h h' /\
    forall c2 ref2 i, coll_find h c2 ref2 = Ok (Some i) -> coll_find h' c2 ref2 = Ok (Some i).
Proof.
  intros h c ref h' r R K E. split; [|intros; eapply make_keeps_lookups; eauto].
  destruct K as (co & Ec & KC). apply inv_reachable in R.
  edestruct coll_make_inv as (_ & G & _); [exact R| |exact E|]; eauto.
Qed.

Example C02_case : exists h' q, coll_make demo 0 "A/B/New" = (h', Ok q) /\
  coll_find demo 0 "/A/B/E" = Ok (Some 3) /\ coll_find h' 0 "/A/B/E" = Ok (Some 3).
Proof. eexists. eexists. repeat split; vm_compute; reflexivity. Qed.

(** C03: in every reachable state, for every package and document: different children have
    different names, no child is listed twice, and looking up a name gives exactly the
    listed children. *)
Theorem C03_sibling_names_unique : forall h, reachable h -> forall i, children_unique h i.
Proof. intros h R i. apply children_unique_inv. now apply inv_reachable. Qed.

Example C03_case : exists o, nth_error demo 1 = Some o /\ o_packages o ++ o_elements o = [2; 4].
Proof. eexists. split; vm_compute; reflexivity. Qed.

(** C04: the reference string of an attached element or package leads back to it, in the
    document its parent links end in.  No restriction on the history. *)
Theorem C04_reference_leads_back :
  forall h i s,
    reachable h -> valid_names h ->
    has_kind KPkg h i \/ has_kind KElem h i \/ has_kind KComp h i ->
    calc_ref h i = Ok (Some s) ->
    exists c, chain h i c /\ has_kind KColl h c /\ coll_find h c s = Ok (Some i).
Proof.
  intros h i s R V K C. apply inv_reachable in R.
  assert (X : exists o, get h i = Some o /\ is_item (o_kind o))
    by (destruct K as [(o & E & K)|[(o & E & K)|(o & E & K)]]; exists o; split; unfold is_item; auto).
  destruct X as (o & E & KI).
  destruct (ref_find h i o s R V E KI C) as (c & Ch & KC & F & _).
  exists c. rewrite has_kind_kd. auto.
Qed.

Example C04_case : valid_names demo /\ calc_ref demo 3 = Ok (Some "/A/B/E") /\ has_kind KElem demo 3.
Proof.
  split; [|split; [vm_compute; reflexivity|eexists; split; vm_compute; reflexivity]].
  intros i o E K. vm_compute in E.
  do 7 (destruct i as [|i]; [injection E as <-; first [exfalso; apply K; reflexivity | split; [discriminate|reflexivity]]|]).
  destruct i; discriminate.
Qed.

(** C04 for ports: the reference of a port leads to the first port of that name in its
    component, hence back to the port when the component's port names differ. *)
Theorem C04_port_reference_leads_back :
  forall h i e s m n,
    reachable h -> valid_names h -> has_kind KMem h i -> parent_is h i (Some e) -> has_kind KComp h e ->
    name_is h i n ->
    nth_error h e = Some m ->
    (forall j, In j (o_elements m) -> name_is h j n -> j = i) ->
    calc_ref h i = Ok (Some s) ->
    exists c, chain h i c /\ has_kind KColl h c /\ coll_find h c s = Ok (Some i).
Proof.
  intros h i e s m n R V (o & E & K) (o1 & E1 & P) (eo & Ee & Ke) (o2 & E2 & Nn) Em U C.
  rewrite E in E1, E2. injection E1 as <-. injection E2 as <-. rewrite Em in Ee. injection Ee as <-.
  apply inv_reachable in R.
  destruct (member_find h i o e m s R V E K P Em C) as (c & Ch & KC & _ & F).
  exists c. rewrite has_kind_kd. split; [exact Ch|]. split; [exact KC|].
  rewrite (F Ke). f_equal.
  destruct (g_parent h i o (R i o E) e P) as (eo' & Ee' & M). rewrite K in M. destruct M as [_ IM].
  unfold get in Ee'. rewrite Em in Ee'. injection Ee' as <-.
  assert (Ln : forall j, In j (o_elements m) -> j < List.length h).
  { intros j I. apply (g_kids h e m (R e m Em)). unfold kids. apply in_or_app; auto. }
  apply first_named_in; auto.
  - now apply nm_spec.
  - intros j I Nj. apply U; auto.
    specialize (Ln j I). destruct (nth_error h j) as [jo|] eqn:Ej; [|apply nth_error_None in Ej; lia].
    exists jo. split; auto. rewrite <- Nn, <- Nj. symmetry. now apply nm_spec.
Qed.

Example C04_port_case : calc_ref demo 5 = Ok (Some "/A/C/p") /\ coll_find demo 0 "/A/C/p" = Ok (Some 5).
Proof. split; vm_compute; reflexivity. Qed.

(** C04 fails for members of classes without a find method (e.g. the data elements of a port
    interface): the lookup of such a reference always raises AttributeError. *)
Theorem C04_members_of_other_elements_refuted :
  forall h i e s,
    reachable h -> valid_names h -> has_kind KMem h i -> parent_is h i (Some e) -> has_kind KElem h e ->
    calc_ref h i = Ok (Some s) ->
    exists c, chain h i c /\ has_kind KColl h c /\ coll_find h c s = Err AttributeError.
Proof.
  intros h i e s R V (o & E & K) (o1 & E1 & P) (eo & Ee & Ke) C.
  rewrite E in E1. injection E1 as <-. apply inv_reachable in R.
  destruct (member_find h i o e eo s R V E K P Ee C) as (c & Ch & KC & F & _).
  exists c. rewrite has_kind_kd. auto.
Qed.

Definition demo_iface : heap :=
  run [ONew KColl ""; OMake 0 "/P"; ONew KElem "I"; OPkgAppend 1 2; ONew KMem "d"; OMember 2 3].
Example C04_members_case :
  calc_ref demo_iface 3 = Ok (Some "/P/I/d") /\ coll_find demo_iface 0 "/P/I/d" = Err AttributeError.
Proof. split; vm_compute; reflexivity. Qed.

(** C04 also fails for a second port of the same name, which append_port accepts. *)
Theorem C04_duplicate_port_refuted :
  exists h i s, reachable h /\ valid_names h /\ has_kind KMem h i /\ calc_ref h i = Ok (Some s) /\
    exists j, coll_find h 0 s = Ok (Some j) /\ j <> i.
Proof.
  pose (ops := [ONew KColl ""; OMake 0 "/P"; ONew KComp "C"; OPkgAppend 1 2; ONew KMem "p"; OMember 2 3;
           ONew KMem "p"; OMember 2 4]).
  exists (run ops), 4, "/P/C/p". split; [exists ops; reflexivity|]. split; [|split; [|split]].
  - intros i o E K. vm_compute in E.
    do 5 (destruct i as [|i]; [injection E as <-; first [exfalso; apply K; reflexivity | split; [discriminate|reflexivity]]|]).
    destruct i; discriminate.
  - eexists; split; vm_compute; reflexivity.
  - vm_compute; reflexivity.
  - exists 3. split; [vm_compute; reflexivity|lia].
Qed.

(** C05: two packages/elements attached to the same document with the same reference are
    the same object. *)
Theorem C05_references_identify :
  forall h i j c s,
    reachable h -> valid_names h ->
    has_kind KPkg h i \/ has_kind KElem h i \/ has_kind KComp h i ->
    has_kind KPkg h j \/ has_kind KElem h j \/ has_kind KComp h j ->
    chain h i c -> chain h j c ->
    calc_ref h i = Ok (Some s) -> calc_ref h j = Ok (Some s) -> i = j.
Proof.
  intros h i j c s R V Ki Kj. apply inv_reachable in R.
  assert (X : forall i, has_kind KPkg h i \/ has_kind KElem h i \/ has_kind KComp h i ->
          exists o, get h i = Some o /\ is_item (o_kind o))
    by (intros k [(o & E & K)|[(o & E & K)|(o & E & K)]]; exists o; split; unfold is_item; auto).
  destruct (X i Ki) as (oi & Ei & Ii). destruct (X j Kj) as (oj & Ej & Ij).
  intros. eapply (ref_injective h i j oi oj s c); eauto.
Qed.

Example C05_case : calc_ref demo 3 = Ok (Some "/A/B/E") /\ calc_ref demo 4 = Ok (Some "/A/C").
Proof. split; vm_compute; reflexivity. Qed.

(** C06: a rejected call leaves the whole state (child lists, name lookups, parents) as it
    was.  make_packages is covered when it fails because of an existing element. *)
Theorem C06_rejected_calls_change_nothing :
  forall h o h' e,
    step h o = (h', Err e) ->
    (forall c r, o = OMake c r \/ o = OPkgMake c r -> e = KeyError) ->
    h' = h.
Proof. exact step_rejected. Qed.

Example C06_case :
  step demo (OPkgAppend 2 3) = (demo, Err DuplicateElement) /\
  step demo (OMake 0 "A/C/D") = (demo, Err KeyError).
Proof. split; vm_compute; reflexivity. Qed.

(** C06 beyond its domain: a malformed path is rejected only after its first packages were
    created. *)
Theorem C06_malformed_path_refuted :
  exists h r h' e, reachable h /\ step h (OMake 0 r) = (h', Err e) /\
    coll_find h 0 "A" = Ok None /\ exists i, coll_find h' 0 "A" = Ok (Some i).
Proof.
  exists (run [ONew KColl ""]), "A//B". eexists. exists ValueError.
  split; [eexists; reflexivity|]. split; [vm_compute; reflexivity|].
  split; [vm_compute; reflexivity|exists 1; vm_compute; reflexivity].
Qed.

(** C07: for an object whose parent links end, in [r]: ref() is None exactly when [r] is not
    a document/workspace, and is a string otherwise; root_collection finds [r]. *)
Theorem C07_detached_iff_no_reference :
  forall h i r,
    reachable h -> ~ has_kind KColl h i -> chain h i r ->
    (calc_ref h i = Ok None <-> ~ has_kind KColl h r) /\
    (has_kind KColl h r -> exists s, calc_ref h i = Ok (Some s)) /\
    (has_kind KColl h r -> root_collection (S (List.length h)) h i = Ok (Some r)) /\
    (~ has_kind KColl h r -> root_collection (S (List.length h)) h i = Ok None).
Proof.
  intros h i r R NK C. apply inv_reachable in R. rewrite !has_kind_kd in *.
  assert (X : exists o, get h i = Some o) by (destruct C as [j (o & E & _)|j p r (o & E & _) _]; eauto).
  destruct X as (o & E).
  assert (Ko : o_kind o <> KColl) by (intros Ko; apply NK; unfold kd; rewrite E; congruence).
  destruct (ref_none_iff h i o r R E Ko C) as (A & B & D). rewrite D.
  repeat split; try apply A; auto.
  - intros ->. reflexivity.
  - destruct (kd h r) as [[]|]; congruence.
Qed.

Example C07_case : calc_ref demo 6 = Ok None /\ chain demo 6 6 /\ chain demo 3 0.
Proof.
  split; [vm_compute; reflexivity|]. split.
  - constructor. eexists; split; vm_compute; reflexivity.
  - apply chain_up with 2; [eexists; split; vm_compute; reflexivity|].
    apply chain_up with 1; [eexists; split; vm_compute; reflexivity|].
    apply chain_up with 0; [eexists; split; vm_compute; reflexivity|].
    constructor. eexists; split; vm_compute; reflexivity.
Qed.

(** C07, termination: ref() gives an answer exactly when the parent links end. *)
Theorem C07_reference_ends_iff_parents_end :
  forall h i,
    reachable h -> i < List.length h -> ~ has_kind KColl h i ->
    ((exists r, chain h i r) <-> exists x, calc_ref h i = Ok x).
Proof.
  intros h i R L NK. apply inv_reachable in R.
  destruct (get h i) as [o|] eqn:E; [|apply nth_error_None in E; lia].
  apply (calc_ref_ends h i o); auto. intros K. apply NK. exists o. auto.
Qed.

(** Appending a package to itself is accepted and makes ref() recurse without end. *)
Theorem C07_parent_cycle_reachable :
  exists h i, reachable h /\ has_kind KPkg h i /\ (forall r, ~ chain h i r) /\ calc_ref h i = Err OutOfFuel.
Proof.
  pose (ops := [ONew KPkg "P"; OPkgAppend 0 0]).
  exists (run ops), 0. split; [exists ops; reflexivity|]. split; [eexists; split; vm_compute; reflexivity|].
  split; [|vm_compute; reflexivity].
  intros r C. assert (R : reachable (run ops)) by (exists ops; reflexivity).
  destruct (proj1 (C07_reference_ends_iff_parents_end (run ops) 0 R ltac:(vm_compute; lia)
     ltac:(intros (o & E & K); vm_compute in E; injection E as <-; discriminate))
     (ex_intro _ r C)) as (x & X).
  vm_compute in X. discriminate.
Qed.

(** C40: splitting a joined reference gives its parts, absolute or relative. *)
Theorem C40_split_of_join :
  forall parts,
    parts <> [] -> (forall p, In p parts -> valid_name p) ->
    split_ref (join "/" parts) = Ok parts /\
    split_ref ("/" ++ join "/" parts) = Ok parts /\
    split_ref_strict (join "/" parts) = Ok parts.
Proof.
  intros parts N V.
  destruct (join_valid_nonempty parts V N) as [J S].
  assert (SJ : split_at slash (join "/" parts) = parts).
  { apply split_join; auto. intros p I. apply V; auto. }
  unfold split_ref, split_ref_strict. cbn [String.append].
  split; [|split; [now rewrite Ascii.eqb_refl, SJ|]];
    destruct (join "/" parts) as [|c r] eqn:E; try contradiction; cbn in S; rewrite S; f_equal; exact SJ.
Qed.

(** C40: the strict variant rejects exactly the empty and the absolute strings. *)
Theorem C40_strict_rejects :
  forall s, split_ref_strict s = Err ValueError <-> s = "" \/ exists r, s = ("/" ++ r)%string.
Proof.
  intros [|c r]; cbn; split; auto.
  - destruct (Ascii.eqb_spec c slash) as [->|N]; [eauto|discriminate].
  - intros [X|(q & X)]; [discriminate|]. injection X as -> ->. reflexivity.
Qed.

(** C40: joining what split_ref returned gives the reference back, up to a leading slash. *)
Theorem C40_join_of_split :
  forall s parts, split_ref s = Ok parts ->
    s = join "/" parts \/ s = ("/" ++ join "/" parts)%string.
Proof.
  intros [|c r] parts; [discriminate|]. unfold split_ref.
  destruct (Ascii.eqb_spec c slash) as [->|N]; intros [= <-].
  - right. cbn [String.append]. f_equal. symmetry. apply (join_split slash).
  - left. symmetry. exact (join_split slash (String c r)).
Qed.

Example C40_case : split_ref "/Pkg/Sub/Elem" = Ok ["Pkg"; "Sub"; "Elem"] /\ split_ref_strict "/Pkg" = Err ValueError.
Proof. split; vm_compute; reflexivity. Qed.

Print Assumptions C01_made_package_is_found.
Print Assumptions C01_many_packages_are_found.
Print Assumptions C01_make_succeeds_unless_blocked.
Print Assumptions C02_make_twice_is_make_once.
Print Assumptions C02_make_keeps_lookups.
Print Assumptions C03_sibling_names_unique.
Print Assumptions C04_reference_leads_back.
Print Assumptions C04_port_reference_leads_back.
Print Assumptions C04_members_of_other_elements_refuted.
Print Assumptions C04_duplicate_port_refuted.
Print Assumptions C05_references_identify.
Print Assumptions C06_rejected_calls_change_nothing.
Print Assumptions C06_malformed_path_refuted.
Print Assumptions C07_detached_iff_no_reference.
Print Assumptions C07_reference_ends_iff_parents_end.
Print Assumptions C07_parent_cycle_reachable.
Print Assumptions C40_split_of_join.
Print Assumptions C40_strict_rejects.
Print Assumptions C40_join_of_split.
