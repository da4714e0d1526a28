(** C61: a reference to an object says where it is and what it is. *)
From Verif Require Import Base PBase MNum MXml MEnum MRefTab MRef MCodec MElem0 MElem1 MElemA MElemB MElemC MElem2 MElemD MElem3 MElem4 MElemE MElem5 MElemF MArxml MHeap SHeap PHeap PropsHeap MSelf SSelf.
Open Scope string_scope.

(** ref() of an object with a reference string succeeds for every class: the reference is that string
    and its kind is the name of the class. *)
Theorem C61_ref c s : exists r, self_ref c (Some s) = Ok (Some r) /\ rf_value r = s /\ enum_text em_IdentifiableSubTypes (rf_dest r) = Ok (schema_name c).
Proof. destruct c; (eexists; split; [reflexivity|split; reflexivity]). Qed.
(** ... and there is none for an object without. *)
Theorem C61_detached c : self_ref c None = Ok None.
Proof. reflexivity. Qed.
(** The reference is written with the name of the class. *)
Theorem C61_written tag c s r : self_ref c (Some s) = Ok (Some r) -> write_ref tag r = Ok [Leaf tag [("DEST", schema_name c)] s].
Proof. destruct c; intros H; injection H as <-; reflexivity. Qed.
(** The kind of a reference tells the class of the object. *)
Theorem C61_kind_identifies c d s t r q : self_ref c (Some s) = Ok (Some r) -> self_ref d (Some t) = Ok (Some q) -> rf_dest r = rf_dest q -> c = d.
Proof.
  intros H K E. destruct (C61_ref c s) as (r' & Hr & _ & A). destruct (C61_ref d t) as (q' & Hq & _ & B).
  rewrite H in Hr. rewrite K in Hq. injection Hr as <-. injection Hq as <-. rewrite E, B in A. injection A as A.
  clear -A. destruct c, d; first [reflexivity|discriminate A].
Qed.
(** Objects are written as elements of that name. *)
Theorem C61_tag c l : written c l -> exists a k, l = [Node (schema_name c) a k].
Proof.
  assert (N : forall tag a b l, node tag a b = Ok l -> exists a' k, l = [Node tag a' k]).
  { intros tag a [k|e] q H; cbn in H; [|discriminate H]. injection H as <-. eauto. }
  intros H. destruct H as [v e l H|v e l H|v e l H|v e l H|v e l H|v e l H|v e l H|v e l H|v e l H|v e l H|v e l H|v e l H|v e l H|v e l H|v e l H|v e l H|v e l H|v e l H|v e l H|v e l H|v e l H|v e l H|v e l H|v e l H|v e l H|v e l H|v e l H|v e l H|v e l H|v e l H|v e l H|v e l H|v e l H|v e l H|v e l H|v e l H|v e l H|v e l H|v e l H|v e l H|v e l H|v e l H|v e l H|v e l H|v e l H|v e l H|v e l H|v e l H|v e l H|v e l H|v e l H|v e l H|v e l H].
  - eapply N; exact H.
  - eapply N; exact H.
  - eapply N; exact H.
  - eapply N; exact H.
  - destruct e. eapply N; exact H.
  - eapply N; exact H.
  - eapply N; exact H.
  - eapply N; exact H.
  - eapply N; exact H.
  - eapply N; exact H.
  - eapply N; exact H.
  - eapply N; exact H.
  - eapply N; exact H.
  - eapply N; exact H.
  - destruct e. eapply N; exact H.
  - eapply N; exact H.
  - eapply N; exact H.
  - eapply N; exact H.
  - eapply N; exact H.
  - eapply N; exact H.
  - eapply N; exact H.
  - eapply N; exact H.
  - eapply N; exact H.
  - eapply N; exact H.
  - eapply N; exact H.
  - eapply N; exact H.
  - eapply N; exact H.
  - eapply N; exact H.
  - eapply N; exact H.
  - eapply N; exact H.
  - eapply N; exact H.
  - eapply N; exact H.
  - eapply N; exact H.
  - eapply N; exact H.
  - eapply N; exact H.
  - eapply N; exact H.
  - eapply N; exact H.
  - eapply N; exact H.
  - eapply N; exact H.
  - eapply N; exact H.
  - eapply N; exact H.
  - eapply N; exact H.
  - eapply N; exact H.
  - eapply N; exact H.
  - eapply N; exact H.
  - eapply N; exact H.
  - eapply N; exact H.
  - eapply N; exact H.
  - eapply N; exact H.
  - eapply N; exact H.
  - eapply N; exact H.
  - eapply N; exact H.
  - eapply N; exact H.
Qed.
(** The reference of a package or element in any document or workspace leads back to it, and says what it is. *)
Theorem C61_leads_back h x c r : reachable h -> valid_names h -> has_kind KPkg h x \/ has_kind KElem h x \/ has_kind KComp h x ->
  object_ref h x c = Ok (Some r) ->
  enum_text em_IdentifiableSubTypes (rf_dest r) = Ok (schema_name c) /\ exists d, chain h x d /\ has_kind KColl h d /\ coll_find h d (rf_value r) = Ok (Some x).
Proof.
  intros R V K H. unfold object_ref in H. destruct (calc_ref h x) as [[s|]|e] eqn:C; try discriminate H. cbn [bind] in H.
  destruct (C61_ref c s) as (q & Q & E & N). rewrite Q in H. injection H as <-. split; [exact N|]. rewrite E. exact (C04_reference_leads_back h x s R V K C).
Qed.
(** An attached object always has a reference, a detached one never. *)
Theorem C61_attached h x r c : reachable h -> ~ has_kind KColl h x -> chain h x r ->
  (has_kind KColl h r -> exists q, object_ref h x c = Ok (Some q)) /\ (~ has_kind KColl h r -> object_ref h x c = Ok None).
Proof.
  intros R N C. destruct (C07_detached_iff_no_reference h x r R N C) as (A & B & _). unfold object_ref. split.
  - intros K. destruct (B K) as (s & ->). cbn [bind]. destruct (C61_ref c s) as (q & Q & _). exists q. exact Q.
  - intros K. apply A in K. now rewrite K.
Qed.
Example C61_case : object_ref demo 3 Self_CompuMethod = Ok (Some (mkRef "/A/B/E" IdentifiableSubTypes_COMPU_METHOD)) /\ has_kind KElem demo 3.
Proof. split; [vm_compute; reflexivity|eexists; split; vm_compute; reflexivity]. Qed.
Example C61_written_case : exists l, written Self_InitEvent l.
Proof. eexists. apply (written_InitEvent 51 (mkInitEvent (mkIdent "E" None None None None None None None) [] None)). reflexivity. Qed.

Print Assumptions C61_ref.
Print Assumptions C61_detached.
Print Assumptions C61_written.
Print Assumptions C61_kind_identifies.
Print Assumptions C61_tag.
Print Assumptions C61_leads_back.
Print Assumptions C61_attached.
