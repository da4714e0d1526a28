(** C66 (what is found in the workspace is found after saving and loading). *)
From Verif Require Import Base PBase MHeap SHeap PHeap MWork SWork PWork PDocs PDocs2 MCodec SCodec MArxml SArxml PArxml SReload PSave0 PropsArxml PropsDocs.
Open Scope nat_scope.
Open Scope list_scope.
Ltac splits := repeat match goal with |- _ /\ _ => split end.

Lemma package_of_ind' h c id (P : nat -> package -> Prop) :
  (forall p o ps, nth_error h p = Some o -> o_kind o = KPkg -> id_name (id p) = o_name o ->
    (forall e, In e (o_elements o) -> name_is h e (element_name (c e))) ->
    Forall2 (package_of h c id) (o_packages o) ps -> Forall2 P (o_packages o) ps -> P p (mkPackage (id p) (map c (o_elements o)) ps)) ->
  forall p t, package_of h c id p t -> P p t.
Proof.
  intros H. fix IH 3. intros p t D. destruct D as [p o ps E K N En F]. apply (H p o ps E K N En F).
  induction F as [|a b l l' X F IHF]; constructor; [now apply IH|exact IHF].
Qed.
Lemma package_of_name h c id p t n : package_of h c id p t -> (name_is h p n <-> package_name t = n).
Proof.
  intros D. destruct D as [p o ps E K N _ _]. cbn. rewrite N. unfold name_is. split; [intros (o' & E' & X); congruence|eauto].
Qed.
Lemma Forall2_In_l {A B} (R : A -> B -> Prop) l l' a : Forall2 R l l' -> In a l -> exists b, In b l' /\ R a b.
Proof. induction 1 as [|x y l l' X F IH]; intros []; [subst; exists y; split; [now left|auto]|]. destruct IH as (b & I & Rb); auto. exists b. split; [now right|auto]. Qed.
Lemma Forall2_In_r {A B} (R : A -> B -> Prop) l l' b : Forall2 R l l' -> In b l' -> exists a, In a l /\ R a b.
Proof. induction 1 as [|x y l l' X F IH]; intros []; [subst; exists x; split; [now left|auto]|]. destruct IH as (a & I & Ra); auto. exists a. split; [now right|auto]. Qed.

(** Elements are neither packages nor collections. *)
Definition is_element (h : heap) (x : nat) : Prop := has_kind KElem h x \/ has_kind KComp h x.

Lemma listed_in_package h c id p t : Inv h -> package_of h c id p t -> forall n x, is_element h x -> listed_child h p n x ->
  exists i es ps, t = mkPackage i es ps /\ In (c x) es /\ element_name (c x) = n.
Proof.
  intros H D n x EX (o & E & _ & I & Nx). inversion D as [p' o' ps E' K N En F]; subst. rewrite E in E'. injection E' as <-.
  destruct I as [I|I].
  - exfalso. pose proof (g_pkgs h p o (H p o E) x I) as X. unfold kd in X. destruct (get h x) as [xo|] eqn:Ex; [|discriminate]. injection X as X.
    destruct EX as [(q & Q & QK)|(q & Q & QK)]; unfold get in Ex; rewrite Ex in Q; injection Q as <-; congruence.
  - do 3 eexists. split; [reflexivity|]. split; [now apply in_map|]. destruct (En x I) as (a & A1 & A2). destruct Nx as (b & B1 & B2). congruence.
Qed.
Lemma no_path_below h x ns y : is_element h x -> ~ path h x ns y.
Proof. intros K P. assert (L : exists n z, listed_child h x n z) by (inversion P; eauto). destruct L as (n & z & o & E & B & _).
  destruct K as [(q & Q & QK)|(q & Q & QK)]; rewrite E in Q; injection Q as <-; destruct B; congruence.
Qed.

(** Down from a package *)
Lemma path_stands h c id p t : Inv h -> package_of h c id p t -> forall ns x, is_element h x -> path h p ns x ->
  forall l, In t l -> stands l (package_name t :: ns) (c x).
Proof.
  intros H D. induction D as [p o ps E K N En F IH] using package_of_ind'. intros ns x EX P l I.
  assert (D : package_of h c id p (mkPackage (id p) (map c (o_elements o)) ps)) by (econstructor; eauto).
  inversion P as [p' n x' L|p' n q ns' x' L P']; subst.
  - destruct (listed_in_package h c id p _ H D n x EX L) as (i & es & ps' & T & Ix & <-). injection T as <- <- <-. cbn. eapply stands_here; eauto.
  - cbn. eapply stands_below; [exact I|]. destruct L as (o' & E' & _ & Iq & Nq). rewrite E in E'. injection E' as <-. destruct Iq as [Iq|Iq].
    + assert (Q : exists u, In u ps /\ (forall ns x, is_element h x -> path h q ns x -> forall l, In u l -> stands l (package_name u :: ns) (c x)) /\ package_of h c id q u).
      { clear - F IH Iq. revert F. induction IH as [|a b l l' X IHl IH']; intros F; [destruct Iq|]. inversion F; subst. destruct Iq as [->|Iq]; [exists b; splits; auto; now left|].
        destruct (IH' Iq) as (u & U1 & U2 & U3); auto. exists u. splits; auto. now right. }
      destruct Q as (u & U1 & U2 & U3). apply (package_of_name h c id q u n U3) in Nq. subst n. now apply U2.
    + exfalso. assert (EQ : is_element h q).
      { pose proof (g_elems h p o (H p o E) q Iq) as X. rewrite K in X. unfold kd, get in X. unfold is_element, has_kind.
        destruct (nth_error h q) as [qo|]; [|destruct X; discriminate]. destruct X as [[= X]|[= X]]; [left|right]; eauto. }
      exact (no_path_below h q ns' x EQ P').
Qed.
Lemma stands_path h c id d ps : Inv h -> (forall t, In t ps -> exists p n, listed_child h d n p /\ package_of h c id p t) -> forall ns a, stands ps ns a ->
  exists x, a = c x /\ is_element h x /\ path h d ns x.
Proof.
  intros H A ns a S. revert d A. induction S as [i es ps l e I Ie|i es ps l ns e I S IH]; intros d A; destruct (A _ I) as (p & n & L & D).
  - pose proof D as D0. inversion D as [p' o ps' E K N En F]; subst. apply in_map_iff in Ie as (x & <- & Ix). exists x. split; [reflexivity|].
    assert (EX : is_element h x).
    { pose proof (g_elems h p o (H p o E) x Ix) as X. rewrite K in X. unfold kd, get in X. unfold is_element, has_kind.
      destruct (nth_error h x) as [qo|]; [|destruct X; discriminate]. destruct X as [[= X]|[= X]]; [left|right]; eauto. }
    split; [exact EX|]. assert (n = id_name (id p)) as -> by (destruct L as (_ & _ & _ & _ & Nn); now apply (package_of_name h c id p _ n D0) in Nn).
    econstructor; [exact L|]. constructor. exists o. splits; eauto.
  - pose proof D as D0. inversion D as [p' o ps' E K N En F]; subst.
    destruct (IH p) as (x & X1 & X2 & X3).
    { intros t It. destruct (Forall2_In_r _ _ _ _ F It) as (q & Iq & Dq). exists q. pose proof Dq as Dq0. destruct Dq as [q oq psq Eq Kq Nq _ _]. exists (o_name oq).
      split; [|exact Dq0]. exists o. splits; eauto. exists oq. auto. }
    exists x. splits; auto. assert (n = id_name (id p)) as -> by (destruct L as (_ & _ & _ & _ & Nn); now apply (package_of_name h c id p _ n D0) in Nn).
    econstructor; eauto.
Qed.

(** Loading keeps what stands where, up to the normalization of the elements (C24). *)
Lemma norm_stands l : forall ns a, stands (map norm_package l) ns a <-> exists b, a = norm_ARElement b /\ stands l ns b.
Proof.
  intros ns a. split.
  - intros S. remember (map norm_package l) as m eqn:Hm. revert l Hm. induction S as [i es ps m e I Ie|i es ps m ns e I S IH]; intros l ->;
      apply in_map_iff in I as ([i' es' ps'] & [= <- <- <-] & I).
    + apply in_map_iff in Ie as (b & <- & Ib). exists b. split; [reflexivity|]. rewrite norm_element_name. eapply stands_here; eauto.
    + destruct (IH ps' eq_refl) as (b & -> & B). exists b. split; [reflexivity|]. eapply stands_below; eauto.
  - intros (b & -> & S). induction S as [i es ps l e I Ie|i es ps l ns e I S IH]; apply (in_map norm_package) in I; cbn [norm_package] in I.
    + rewrite <- norm_element_name. eapply stands_here; [exact I|]. now apply in_map.
    + eapply stands_below; eauto.
Qed.
Lemma norm_package_name p : package_name (norm_package p) = package_name p.
Proof. now destruct p. Qed.
Lemma norm_package_stands l : forall ns p, package_stands (map norm_package l) ns p <-> exists q, p = norm_package q /\ package_stands l ns q.
Proof.
  intros ns p. split; [intros S|intros (q & -> & S)].
  - remember (map norm_package l) as m eqn:Hm. revert l Hm. induction S as [m p I|i es ps m ns p I S IH]; intros l ->; apply in_map_iff in I as (q & E & I).
    + subst p. rewrite norm_package_name. exists q. split; [reflexivity|now constructor].
    + destruct q as [i' es' ps']. injection E as <- <- <-. destruct (IH ps' eq_refl) as (b & -> & B). exists b. split; [reflexivity|]. eapply package_below; eauto.
  - induction S as [l p I|i es ps l ns p I S IH]; apply (in_map norm_package) in I.
    + rewrite <- norm_package_name. now constructor.
    + cbn in I. eapply package_below; eauto.
Qed.

(** Packages *)
Lemma path_package h c id p t : Inv h -> package_of h c id p t -> forall ns x, has_kind KPkg h x -> path h p ns x ->
  forall l, In t l -> exists u, package_stands l (package_name t :: ns) u /\ package_of h c id x u.
Proof.
  intros H D. induction D as [p o ps E K N En F IH] using package_of_ind'. intros ns x KX P l I.
  assert (Sub : forall n q, listed_child h p n q -> has_kind KPkg h q -> exists u, In u ps /\ package_name u = n /\ package_of h c id q u /\
     (forall ns x, has_kind KPkg h x -> path h q ns x -> forall l, In u l -> exists v, package_stands l (package_name u :: ns) v /\ package_of h c id x v)).
  { intros n q (o' & E' & _ & Iq & Nq) Kq. rewrite E in E'. injection E' as <-. destruct Iq as [Iq|Iq].
    - assert (Q : exists u, In u ps /\ package_of h c id q u /\ (forall ns x, has_kind KPkg h x -> path h q ns x -> forall l, In u l -> exists v, package_stands l (package_name u :: ns) v /\ package_of h c id x v)).
      { clear - F IH Iq. revert F. induction IH as [|a b l l' X IHl IH']; intros F; [destruct Iq|]. inversion F; subst. destruct Iq as [->|Iq]; [exists b; splits; auto; now left|].
        destruct (IH' Iq) as (u & U1 & U2 & U3); auto. exists u. splits; auto. now right. }
      destruct Q as (u & U1 & U2 & U3). exists u. splits; auto. now apply (package_of_name h c id q u n U2).
    - exfalso. pose proof (g_elems h p o (H p o E) q Iq) as X. rewrite K in X. unfold kd, get in X. destruct Kq as (qo & Q & QK). rewrite Q in X. destruct X as [[= X]|[= X]]; congruence. }
  inversion P as [p' n x' L|p' n q ns' x' L P']; subst.
  - destruct (Sub n x L KX) as (u & U1 & <- & U2 & _). exists u. split; [|exact U2]. cbn. eapply package_below; [exact I|]. now constructor.
  - assert (Kq : has_kind KPkg h q).
    { assert (B : exists qo, nth_error h q = Some qo /\ (o_kind qo = KPkg \/ o_kind qo = KColl)) by (inversion P' as [? ? ? (qo & ? & ? & _)|? ? ? ? ? (qo & ? & ? & _) _]; subst; eauto).
      destruct B as (qo & Q & B). exists qo. split; [exact Q|]. destruct B as [B|B]; [exact B|]. exfalso. destruct L as (o' & E' & _ & Iq & _). rewrite E in E'. injection E' as <-.
      destruct Iq as [Iq|Iq].
      - pose proof (g_pkgs h p o (H p o E) q Iq) as X. unfold kd, get in X. rewrite Q in X. congruence.
      - pose proof (g_elems h p o (H p o E) q Iq) as X. rewrite K in X. unfold kd, get in X. rewrite Q in X. destruct X as [[= X]|[= X]]; congruence. }
    destruct (Sub n q L Kq) as (u & U1 & <- & U2 & U3). destruct (U3 ns' x KX P' ps U1) as (v & V & W). exists v. split; [|exact W]. cbn. eapply package_below; eauto.
Qed.
Lemma package_path h c id d ps : Inv h -> (forall t, In t ps -> exists p n, listed_child h d n p /\ package_of h c id p t) -> forall ns a, package_stands ps ns a ->
  exists x, package_of h c id x a /\ path h d ns x.
Proof.
  intros H A ns a S. revert d A. induction S as [l t I|i es ps l ns e I S IH]; intros d A; destruct (A _ I) as (p & n & L & D).
  - exists p. split; [exact D|]. destruct (D) as [p o ps E K N En F]. cbn. rewrite N. constructor. destruct L as (od & ? & ? & ? & (op & Ep & <-)). exists od. splits; auto. exists op. split; auto. congruence.
  - pose proof D as D0. inversion D as [p' o ps' E K N En F]; subst.
    destruct (IH p) as (x & X2 & X3).
    { intros t It. destruct (Forall2_In_r _ _ _ _ F It) as (q & Iq & Dq). exists q. pose proof Dq as Dq0. destruct Dq as [q oq psq Eq Kq Nq _ _]. exists (o_name oq).
      split; [|exact Dq0]. exists o. splits; eauto. exists oq. auto. }
    exists x. splits; auto. assert (n = id_name (id p)) as -> by (destruct L as (_ & _ & _ & _ & Nn); now apply (package_of_name h c id p _ n D0) in Nn).
    econstructor; eauto.
Qed.

(** Finding and paths *)
Lemma first_named_in h n l i : first_named h n l = Some i -> In i l.
Proof. induction l as [|x l IH]; cbn; [discriminate|]. destruct (get h x) as [o|]; [destruct (String.eqb (o_name o) n)|]; try (intros [= ->]; now left); auto. Qed.
Lemma item_find_sound h : Inv h -> forall ns f p x, (forall n, In n ns -> valid_name n) -> ns <> [] -> kd h x <> Some KMem ->
  item_find f h p (join "/" ns) = Ok (Some x) -> path h p ns x.
Proof.
  intros H ns. induction ns as [|n ns IH]; intros f p x V NE KX E; [easy|]. destruct f as [|f]; [discriminate|]. cbn [item_find] in E.
  destruct (get h p) as [po|] eqn:Ep; [|discriminate]. destruct (o_kind po) eqn:K; try discriminate.
  - destruct (V n (or_introl eq_refl)) as [N M]. destruct ns as [|m ns].
    + cbn [join] in E. rewrite starts_slash_strip in E by now apply starts_slash_mem. unfold partition_slash in E. rewrite partition_no in E by auto.
      destruct (assoc n (o_map po)) as [q|] eqn:A; [|discriminate]. injection E as <-. constructor. now apply (assoc_listed h p po n q H Ep (or_introl K)).
    + assert (Vn : forall k, In k (m :: ns) -> valid_name k) by (intros; apply V; now right). destruct (join_valid_nonempty (m :: ns) Vn ltac:(easy)) as [JN JS].
      rewrite join_path_cons in E by easy. rewrite starts_slash_strip in E by (rewrite starts_slash_app by auto; now apply starts_slash_mem).
      unfold partition_slash in E. rewrite partition_sep in E by auto. destruct (assoc n (o_map po)) as [q|] eqn:A; [|discriminate].
      apply String.eqb_neq in JN. rewrite JN in E. econstructor; [now apply (assoc_listed h p po n q H Ep (or_introl K))|]. eapply IH; eauto. easy.
  - exfalso. apply KX. injection E as E. apply first_named_in in E. pose proof (g_elems h p po (H p po Ep) x E) as X. now rewrite K in X.
Qed.
Lemma coll_find_sound h d ns x : Inv h -> has_kind KColl h d -> (forall n, In n ns -> valid_name n) -> ns <> [] -> kd h x <> Some KMem ->
  coll_find h d (abs ns) = Ok (Some x) -> path h d ns x.
Proof.
  intros H (o & Eo & K) V NE KX E. unfold coll_find in E. change (nth_error h d) with (get h d) in Eo. rewrite Eo in E.
  destruct ns as [|n ns]; [easy|]. destruct (V n (or_introl eq_refl)) as [N M].
  assert (SS : strip_slash (abs (n :: ns)) = join "/" (n :: ns)) by reflexivity. rewrite SS in E. unfold partition_slash in E. destruct ns as [|m ns].
  - cbn [join] in E. rewrite partition_no in E by auto. destruct (assoc n (o_map o)) as [q|] eqn:A; [|discriminate]. injection E as <-. constructor. now apply (assoc_listed h d o n q H Eo (or_intror K)).
  - assert (Vn : forall k, In k (m :: ns) -> valid_name k) by (intros; apply V; now right). destruct (join_valid_nonempty (m :: ns) Vn ltac:(easy)) as [JN JS].
    rewrite join_path_cons in E by easy. rewrite partition_sep in E by auto. destruct (assoc n (o_map o)) as [q|] eqn:A; [|discriminate].
    apply String.eqb_neq in JN. rewrite JN in E. econstructor; [now apply (assoc_listed h d o n q H Eo (or_intror K))|]. eapply item_find_sound; eauto. easy.
Qed.

(** Everything below [d] is good: the contents of the elements and of the packages survive saving and loading. *)
Definition good_contents (h : heap) (c : nat -> ARElement) (id : nat -> identifiable) (d : nat) (v : N) : Prop :=
  forall ns x, path h d ns x -> (is_element h x -> good_ARElement v (c x)) /\ (has_kind KPkg h x -> good_ident (id x)).

Lemma nodup_app_l {A} (a b : list A) : NoDup (a ++ b) -> NoDup a.
Proof. induction a as [|x a IH]; cbn; intros N; [constructor|]. inversion N; subst. constructor; [intros I; apply H1, in_or_app; auto|auto]. Qed.
Lemma names_of_map h c id l ps : Forall2 (package_of h c id) l ps -> map package_name ps = map (nm h) l.
Proof.
  induction 1 as [|a b l l' X F IH]; [reflexivity|]. cbn. f_equal; [|exact IH]. destruct X as [p o qs E K N _ _]. cbn. unfold nm, get. now rewrite E.
Qed.
Lemma nodup_kids h p o : Inv h -> get h p = Some o -> is_box (o_kind o) -> NoDup (map (nm h) (kids o)).
Proof.
  intros H E B. destruct (g_map h p o (H p o E) B) as [P ND]. eapply (Permutation.Permutation_map fst) in P. rewrite map_map in P. cbn in P. now rewrite P in ND.
Qed.
Lemma package_good h c id v p t : Inv h -> package_of h c id p t -> good_ident (id p) -> good_contents h c id p v -> good_package v t.
Proof.
  intros H D. induction D as [p o ps E K N En F IH] using package_of_ind'. intros GI G. cbn. split; [exact GI|]. split; [|split].
  - rewrite (names_of_map h c id _ _ F). rewrite map_map. pose proof (nodup_kids h p o H E (or_introl K)) as ND. unfold kids in ND. rewrite map_app in ND.
    assert (X : map (fun x => element_name (c x)) (o_elements o) = map (nm h) (o_elements o)).
    { apply map_ext_in. intros e I. destruct (En e I) as (eo & Ee & <-). unfold nm, get. now rewrite Ee. }
    rewrite X. eapply Permutation.Permutation_NoDup; [apply Permutation.Permutation_app_comm|exact ND].
  - apply all_ok_in. intros a I. apply in_map_iff in I as (x & <- & I). destruct (En x I) as (xo & Ex & Nx).
    apply (G [o_name xo] x).
    + constructor. exists o. splits; auto. exists xo. auto.
    + pose proof (g_elems h p o (H p o E) x I) as X. rewrite K in X. unfold kd, get in X. rewrite Ex in X. unfold is_element, has_kind. destruct X as [[= X]|[= X]]; [left|right]; eauto.
  - apply all_ok_in. intros t I.
    assert (Q : exists q, In q (o_packages o) /\ package_of h c id q t /\ (good_ident (id q) -> good_contents h c id q v -> good_package v t)).
    { clear - F IH I. revert F. induction IH as [|a b l l' X IHl IH']; intros F; [destruct I|]. inversion F; subst. destruct I as [->|I]; [exists a; splits; auto; now left|].
      destruct (IH' I) as (q & U1 & U2 & U3); auto. exists q. splits; auto. now right. }
    destruct Q as (q & Iq & Dq & Hq). assert (Kq : has_kind KPkg h q) by (destruct Dq; eexists; eauto).
    assert (L : listed_child h p (nm h q) q).
    { exists o. splits; auto. destruct Kq as (qo & Q & _). exists qo. unfold nm, get. now rewrite Q. }
    apply Hq.
    + apply (G [nm h q] q); [now constructor|exact Kq].
    + intros ns x P. apply (G (nm h q :: ns) x). econstructor; eauto.
Qed.
Lemma document_good h c id d doc : Inv h -> document_of h c id d doc -> good_contents h c id d (doc_schema_version doc) -> good_document doc.
Proof.
  intros H (o & E & K & F) G. split.
  - rewrite (names_of_map h c id _ _ F). pose proof (nodup_kids h d o H E (or_intror K)) as ND. unfold kids in ND. rewrite map_app in ND. now apply nodup_app_l in ND.
  - apply all_ok_in. intros t I. destruct (Forall2_In_r _ _ _ _ F I) as (q & Iq & Dq). assert (Kq : has_kind KPkg h q) by (destruct Dq; eexists; eauto).
    assert (L : listed_child h d (nm h q) q).
    { exists o. splits; auto. destruct Kq as (qo & Q & _). exists qo. unfold nm, get. now rewrite Q. }
    eapply package_good; eauto.
    + apply (G [nm h q] q); [now constructor|exact Kq].
    + intros ns x P. apply (G (nm h q :: ns) x). econstructor; eauto.
Qed.
Lemma document_kids h c id d doc : Inv h -> document_of h c id d doc -> forall t, In t (doc_packages doc) -> exists p n, listed_child h d n p /\ package_of h c id p t.
Proof.
  intros H (o & E & K & F) t I. destruct (Forall2_In_r _ _ _ _ F I) as (q & Iq & Dq). exists q, (nm h q). split; [|exact Dq].
  exists o. splits; auto. destruct Dq as [q oq ? Q ? ? ? ?]. exists oq. unfold nm, get. now rewrite Q.
Qed.
Lemma document_path h c id d doc ns x : Inv h -> document_of h c id d doc -> is_element h x -> path h d ns x -> stands (doc_packages doc) ns (c x).
Proof.
  intros H (o & E & K & F) EX P. inversion P as [p n x' L|p n q ns' x' L P']; subst.
  - exfalso. destruct L as (o' & E' & _ & I & _). rewrite E in E'. injection E' as <-. destruct I as [I|I].
    + pose proof (g_pkgs h d o (H d o E) x I) as X. unfold kd, get in X. destruct EX as [(q & Q & QK)|(q & Q & QK)]; rewrite Q in X; congruence.
    + pose proof (g_elems h d o (H d o E) x I) as X. now rewrite K in X.
  - destruct L as (o' & E' & _ & I & Nq). rewrite E in E'. injection E' as <-. destruct I as [I|I].
    + destruct (Forall2_In_l _ _ _ _ F I) as (t & It & Dt). apply (package_of_name h c id q t n Dt) in Nq. subst n. exact (path_stands h c id q t H Dt ns' x EX P' _ It).
    + exfalso. pose proof (g_elems h d o (H d o E) q I) as X. now rewrite K in X.
Qed.
Lemma document_package h c id d doc ns x : Inv h -> document_of h c id d doc -> has_kind KPkg h x -> path h d ns x -> exists p, package_stands (doc_packages doc) ns p /\ package_of h c id x p.
Proof.
  intros H (o & E & K & F) EX P. inversion P as [p n x' L|p n q ns' x' L P']; subst; destruct L as (o' & E' & _ & I & Nq); rewrite E in E'; injection E' as <-;
    (destruct I as [I|I]; [|exfalso; pose proof (g_elems h d o (H d o E) _ I) as X; now rewrite K in X]);
    destruct (Forall2_In_l _ _ _ _ F I) as (t & It & Dt).
  - apply (package_of_name h c id x t n Dt) in Nq. subst n. exists t. split; [now constructor|exact Dt].
  - apply (package_of_name h c id q t n Dt) in Nq. subst n. exact (path_package h c id q t H Dt ns' x EX P' _ It).
Qed.

(** ** C66 *)
Lemma reload h c id d doc : Inv h -> document_of h c id d doc -> good_contents h c id d (doc_schema_version doc) ->
  exists text loaded, write_file doc = Ok text /\ (forall v stop, snd (read_str v text stop) = Ok loaded) /\
    forall ns, ns <> [] -> (forall n, In n ns -> valid_name n) ->
      (forall x, is_element h x -> coll_find h d (abs ns) = Ok (Some x) -> stands (doc_packages loaded) ns (norm_ARElement (c x))) /\
      (forall a, stands (doc_packages loaded) ns a -> exists x, coll_find h d (abs ns) = Ok (Some x) /\ is_element h x /\ a = norm_ARElement (c x)) /\
      (forall x, has_kind KPkg h x -> coll_find h d (abs ns) = Ok (Some x) -> exists p, package_stands (doc_packages loaded) ns p /\ package_ident p = id x) /\
      (forall p, package_stands (doc_packages loaded) ns p -> exists x, coll_find h d (abs ns) = Ok (Some x) /\ has_kind KPkg h x /\ package_ident p = id x).
Proof.
  intros H D G. destruct (C24_document_round_trip doc (document_good h c id d doc H D G)) as (text & W & R).
  assert (KD : has_kind KColl h d) by (destruct D as (o & E & K & _); eexists; eauto). assert (KD' : kd h d = Some KColl) by (destruct KD as (o & E & K); unfold kd, get; now rewrite E, K).
  exists text, (norm_document doc). splits; auto; [intros; now rewrite R|]. intros ns NE V. cbn [norm_document doc_packages].
  assert (AB : abs ns = join "/" ("" :: ns)) by (destruct ns; [easy|reflexivity]). splits.
  - intros x EX F. apply norm_stands. exists (c x). split; [reflexivity|]. eapply document_path; eauto. eapply coll_find_sound; eauto.
    unfold kd, get. destruct EX as [(q & Q & QK)|(q & Q & QK)]; rewrite Q, QK; discriminate.
  - intros a S. apply norm_stands in S as (b & -> & S). destruct (stands_path h c id d _ H (document_kids h c id d doc H D) ns b S) as (x & -> & EX & P).
    exists x. splits; auto. eapply coll_find_path; eauto.
  - intros x KX F. destruct (document_package h c id d doc ns x H D KX) as (p & S & P).
    { eapply coll_find_sound; eauto. unfold kd, get. destruct KX as (q & Q & QK). rewrite Q, QK. discriminate. }
    exists (norm_package p). split; [apply norm_package_stands; eauto|]. now destruct P.
  - intros p S. apply norm_package_stands in S as (q & -> & S). destruct (package_path h c id d _ H (document_kids h c id d doc H D) ns q S) as (x & P & PA). exists x.
    splits; [eapply coll_find_path; eauto|destruct P; eexists; eauto|now destruct P].
Qed.

(** A document built through the API is saved and loaded.  Then a path leads to an element in the loaded document exactly when find leads to an
    element in the document, and it is the same element, up to the normalization of C24; the same holds for packages. *)
Theorem C66_found_after_reload h c id d doc : reachable h -> document_of h c id d doc -> good_contents h c id d (doc_schema_version doc) ->
  exists text loaded, write_file doc = Ok text /\ (forall v stop, snd (read_str v text stop) = Ok loaded) /\
    forall ns, ns <> [] -> (forall n, In n ns -> valid_name n) ->
      (forall x, is_element h x -> coll_find h d (abs ns) = Ok (Some x) -> stands (doc_packages loaded) ns (norm_ARElement (c x))) /\
      (forall a, stands (doc_packages loaded) ns a -> exists x, coll_find h d (abs ns) = Ok (Some x) /\ is_element h x /\ a = norm_ARElement (c x)) /\
      (forall x, has_kind KPkg h x -> coll_find h d (abs ns) = Ok (Some x) -> exists p, package_stands (doc_packages loaded) ns p /\ package_ident p = id x) /\
      (forall p, package_stands (doc_packages loaded) ns p -> exists x, coll_find h d (abs ns) = Ok (Some x) /\ has_kind KPkg h x /\ package_ident p = id x).
Proof. intros R. apply reload. now apply inv_reachable. Qed.

(** Every document has a tree, unless a package is inside itself. *)
Theorem C66_document_exists h c id d v : reachable h -> acyclic h -> has_kind KColl h d -> named_contents h c id ->
  exists doc, document_of h c id d doc /\ doc_schema_version doc = v.
Proof.
  intros R (depth & A) (o & E & K) N. apply inv_reachable in R as H.
  assert (T : forall n p, depth p < n -> has_kind KPkg h p -> exists t, package_of h c id p t).
  { induction n as [|n IH]; intros p L (po & Ep & Kp); [lia|].
    assert (F : exists ts, Forall2 (package_of h c id) (o_packages po) ts).
    { assert (S : forall q, In q (o_packages po) -> exists t, package_of h c id q t).
      { intros q I. apply IH; [pose proof (A p po q Ep I); lia|]. pose proof (g_pkgs h p po (H p po Ep) q I) as X. unfold kd, get in X.
        destruct (nth_error h q) as [qo|] eqn:Q; [|discriminate]. exists qo. split; [exact Q|congruence]. }
      clear - S. induction (o_packages po) as [|q l IHl]; [exists []; constructor|]. destruct (S q (or_introl eq_refl)) as (t & T). destruct IHl as (ts & F); [intros; apply S; now right|]. exists (t :: ts). now constructor. }
    destruct F as (ts & F). eexists. econstructor; [exact Ep|exact Kp|now apply (N p po Ep)| |exact F].
    intros e I. pose proof (g_elems h p po (H p po Ep) e I) as X. rewrite Kp in X. unfold kd, get in X. destruct (nth_error h e) as [eo|] eqn:Ee; [|destruct X; discriminate].
    exists eo. split; [exact Ee|]. symmetry. apply (N e eo Ee). destruct X as [[= X]|[= X]]; auto. }
  assert (F : exists ts, Forall2 (package_of h c id) (o_packages o) ts).
  { assert (S : forall q, In q (o_packages o) -> exists t, package_of h c id q t).
    { intros q I. apply (T (S (depth q))); [lia|]. pose proof (g_pkgs h d o (H d o E) q I) as X. unfold kd, get in X.
      destruct (nth_error h q) as [qo|] eqn:Q; [|discriminate]. exists qo. split; [exact Q|congruence]. }
    clear - S. induction (o_packages o) as [|q l IHl]; [exists []; constructor|]. destruct (S q (or_introl eq_refl)) as (t & T). destruct IHl as (ts & F); [intros; apply S; now right|]. exists (t :: ts). now constructor. }
  destruct F as (ts & F). exists (mkDocument ts v). split; [|reflexivity]. exists o. auto.
Qed.

Definition made (h : heap) : Prop := forall p o q, get h p = Some o -> o_kind o = KPkg -> In q (o_packages o) -> p < q.
Lemma made_upd h j f : made h -> (forall o, o_kind (f o) = o_kind o) ->
  (forall o q, get h j = Some o -> o_kind o = KPkg -> In q (o_packages (f o)) -> In q (o_packages o) \/ j < q) -> made (upd h j f).
Proof.
  intros M Kf Pf p o q E K I. rewrite get_upd in E. destruct (Nat.eqb_spec j p) as [->|N]; [|eapply M; eauto].
  destruct (get h p) as [o'|] eqn:E'; [|discriminate]. injection E as <-. rewrite Kf in K. destruct (Pf o' q eq_refl K I) as [X|X]; [eapply M; eauto|exact X].
Qed.
Lemma made_parent h j p : made h -> made (upd h j (set_parent p)).
Proof. intros M. apply made_upd; auto. Qed.
Lemma made_alloc h k n : made h -> made (h ++ [new_obj k n]).
Proof.
  intros M p o q E K I. rewrite get_alloc in E. destruct (Nat.eqb p (List.length h)); [injection E as <-; destruct I|eapply M; eauto].
Qed.
Lemma made_create h p n h' r : made h -> create_package h p n = (h', r) -> made h'.
Proof.
  intros M E. unfold create_package in E. destruct (get h p) as [po|] eqn:Ep; [|injection E as <- <-; exact M].
  destruct (assoc n (o_map po)); [injection E as <- <-; exact M|]. cbn [alloc] in E. injection E as <- <-.
  apply made_upd; [apply made_parent, made_alloc, M|reflexivity|]. intros o q _ _ I. cbn in I. apply in_app_iff in I as [I|[<-|[]]]; auto. right. now apply get_lt in Ep.
Qed.
Lemma made_pkg_make f : forall h p ref h' r, made h -> pkg_make f h p ref = (h', r) -> made h'.
Proof.
  induction f as [|f IH]; intros h p ref h' r M E; [injection E as <- <-; exact M|]. cbn [pkg_make] in E.
  destruct (starts_slash ref); [injection E as <- <-; exact M|]. destruct (partition_slash ref) as [n rest].
  destruct (get h p) as [po|]; [|injection E as <- <-; exact M]. destruct (assoc n (o_map po)) as [q|].
  - destruct (get h q) as [qo|]; [|injection E as <- <-; exact M]. destruct (o_kind qo); try (injection E as <- <-; exact M).
    destruct (String.eqb rest ""); [injection E as <- <-; exact M|eapply IH; eauto].
  - destruct (create_package h p n) as [h1 [q|e]] eqn:C; [|injection E as <- <-; eapply made_create; eauto].
    pose proof (made_create _ _ _ _ _ M C) as M1. destruct (String.eqb rest ""); [injection E as <- <-; exact M1|eapply IH; eauto].
Qed.
Lemma made_coll_make h c ref h' r : made h -> coll_make h c ref = (h', r) -> made h'.
Proof.
  intros M E. unfold coll_make in E. destruct (partition_slash (strip_slash ref)) as [n rest].
  destruct (get h c) as [co|]; [|injection E as <- <-; exact M]. destruct (assoc n (o_map co)) as [q|].
  - destruct (String.eqb rest ""); [injection E as <- <-; exact M|eapply made_pkg_make; eauto].
  - destruct (create_package h c n) as [h1 [q|e]] eqn:C; [|injection E as <- <-; eapply made_create; eauto].
    pose proof (made_create _ _ _ _ _ M C) as M1. destruct (String.eqb rest ""); [injection E as <- <-; exact M1|eapply made_pkg_make; eauto].
Qed.
Lemma made_step h o : made h -> match o with OPkgAppend p i => has_kind KPkg h i -> p < i | _ => True end -> made (fst (step h o)).
Proof.
  intros M C. destruct o as [k n|p i|c i|p n|c ref|p ref|c i]; cbn [step].
  - apply made_alloc, M.
  - destruct (is_kind KPkg h p); [|exact M]. unfold pkg_append. destruct (get h p) as [po|]; [|exact M]. destruct (get h i) as [io|] eqn:Ei; [|exact M].
    destruct (o_kind io) eqn:Ki; try exact M; (destruct (assoc _ _); [exact M|]); cbn [fst]; (apply made_upd; [apply made_parent, M|reflexivity|]); intros o q _ _ I; cbn in I; auto.
    apply in_app_iff in I as [I|[<-|[]]]; auto. right. apply C. exists io. auto.
  - destruct (is_kind KColl h c) eqn:Kc; [|exact M]. unfold coll_append. unfold is_kind in Kc. destruct (get h c) as [co|] eqn:Ec; [|exact M]. destruct (get h i) as [io|] eqn:Ei; [|exact M].
    destruct (o_kind io) eqn:Ki; try exact M. destruct (assoc _ _); [exact M|]. cbn [fst]. apply made_upd; [apply made_parent, M|reflexivity|].
    intros o q E K I. exfalso. rewrite get_upd in E. destruct (Nat.eqb i c); rewrite Ec in E; cbn in E; injection E as <-; cbn in K; rewrite K in Kc; discriminate.
  - destruct (is_kind KPkg h p || is_kind KColl h p)%bool; [|exact M]. destruct (create_package h p n) as [h1 [q|e]] eqn:X; cbn [fst]; eapply made_create; eauto.
  - destruct (is_kind KColl h c); [|exact M]. destruct (coll_make h c ref) as [h1 [q|e]] eqn:X; cbn [fst]; eapply made_coll_make; eauto.
  - destruct (is_kind KPkg h p); [|exact M]. destruct (pkg_make (S (String.length ref)) h p ref) as [h1 [q|e]] eqn:X; cbn [fst]; eapply made_pkg_make; eauto.
  - unfold add_member. destruct (get h c) as [co|]; [|exact M]. destruct (get h i) as [io|]; [|exact M].
    destruct (o_kind co), (o_kind io); try exact M; cbn [fst]; apply made_upd; auto; apply made_parent, M.
Qed.
(** No package gets inside itself as long as packages are only appended to packages made before them; create_package and make_packages never do. *)
Theorem C66_oldest_first_acyclic ops : oldest_first [] ops -> acyclic (run ops).
Proof.
  intros O. assert (M : made (run ops)).
  { unfold run. assert (M0 : made []) by (intros p o q E; unfold get in E; destruct p; discriminate). revert O M0. generalize (@nil obj). induction ops as [|o ops IH]; intros h O M; [exact M|]. destruct O as [C O].
    cbn. apply IH; auto. now apply made_step. }
  assert (H : Inv (run ops)) by (apply inv_reachable; eexists; reflexivity).
  exists (fun p => match get (run ops) p with Some o => match o_kind o with KColl => S (List.length (run ops)) | _ => List.length (run ops) - p end | None => 0 end).
  intros p o q E I. change (nth_error (run ops) p) with (get (run ops) p) in E. rewrite E. pose proof (get_lt _ _ _ E) as L.
  pose proof (g_pkgs _ p o (H p o E) q I) as Kq. unfold kd in Kq. destruct (get (run ops) q) as [qo|] eqn:Eq; [|discriminate]. injection Kq as Kq. rewrite Kq. pose proof (get_lt _ _ _ Eq) as Lq.
  destruct (o_kind o) eqn:K; [lia| | | |].
  - pose proof (M p o q E K I). lia.
  - exfalso. destruct (g_nobox _ p o (H p o E)) as [X _]; [rewrite K; intros [B|B]; discriminate|]. rewrite X in I. destruct I.
  - exfalso. destruct (g_nobox _ p o (H p o E)) as [X _]; [rewrite K; intros [B|B]; discriminate|]. rewrite X in I. destruct I.
  - exfalso. destruct (g_nobox _ p o (H p o E)) as [X _]; [rewrite K; intros [B|B]; discriminate|]. rewrite X in I. destruct I.
Qed.

(** Saving a configured document of a workspace (C39) and loading the file: an element in a package the document is configured with stands in the
    loaded document, below the name of that package, in the place it has in the workspace. *)
Theorem C66_configured_document root h ws dc h' f c id doc r p ns x :
  reachable h -> has_kind KColl h (dc_doc dc) -> ws <> dc_doc dc -> MWork.write_doc root h ws dc = (h', Ok f) ->
  document_of (f_heap f) c id (f_doc f) doc -> good_contents h' c id (dc_doc dc) (doc_schema_version doc) ->
  In r (dc_refs dc) -> coll_find h ws r = Ok (Some p) -> is_element h x -> path h p ns x ->
  exists text loaded, write_file doc = Ok text /\ (forall v stop, snd (read_str v text stop) = Ok loaded) /\
    stands (doc_packages loaded) (name_of h p :: ns) (norm_ARElement (c x)).
Proof.
  intros R KD D W DO G Ir F EX P. pose proof (C39_document_contents root h ws dc h' f R KD D W) as (_ & FD & FH & S & ps & Rs & PK). rewrite FD, FH in DO.
  unfold MWork.write_doc in W. destruct (put_packages h ws (dc_doc dc) (dc_refs dc)) as [h1 [u|e]] eqn:PP; [|discriminate]. injection W as <- <-.
  destruct (put_inv h ws (dc_doc dc) (dc_refs dc) (inv_reachable h R) KD D _ _ PP) as (I1 & _).
  destruct (C24_document_round_trip doc (document_good h1 c id _ doc I1 DO G)) as (text & T & RD). exists text, (norm_document doc). splits; auto; [intros; now rewrite RD|].
  cbn [norm_document doc_packages]. apply norm_stands. exists (c x). split; [reflexivity|].
  assert (Ip : In p ps).
  { clear - Rs Ir F. induction Rs as [|r' rs q ps FQ KQ Rs IH|r' rs ps FQ Rs IH]; [destruct Ir| |].
    - destruct Ir as [->|Ir]; [left; congruence|right; auto].
    - destruct Ir as [->|Ir]; [congruence|auto]. }
  assert (Kx : is_element h1 x).
  { destruct EX as [(o & E & K)|(o & E & K)]; destruct (proj2 S x o E) as (o' & E' & K' & _); [left|right]; exists o'; split; congruence. }
  assert (L : forall a n q, listed_child h a n q -> a <> dc_doc dc -> listed_child h1 a n q).
  { intros a n q (o & E & B & I & (qo & Q & Nq)) ND. destruct (proj2 S a o E) as (o' & E' & K' & _ & X). destruct (X ND) as (X1 & X2 & _).
    destruct (proj2 S q qo Q) as (qo' & Q' & _ & NQ & _). exists o'. rewrite K', X1, X2. splits; auto. exists qo'. split; congruence. }
  assert (PT : forall a ns y, path h a ns y -> a <> dc_doc dc -> path h1 a ns y).
  { intros a ms y PA. induction PA as [a n y La|a n q ms y La PA IH]; intros ND; [constructor; auto|]. econstructor; [apply L; eauto|]. apply IH.
    intros ->. destruct La as (o & E & _ & I & _). destruct KD as (od & Ed & Kd). pose proof (inv_reachable h R) as H0.
    destruct I as [I|I].
    - pose proof (g_pkgs h a o (H0 a o E) _ I) as X. unfold kd, get in X. rewrite Ed in X. congruence.
    - pose proof (g_elems h a o (H0 a o E) _ I) as X. unfold kd, get in X. rewrite Ed in X. destruct (o_kind o); try congruence; destruct X; congruence. }
  assert (KP : has_kind KPkg h p) by (clear - Rs Ip; induction Rs; [destruct Ip| |auto]; destruct Ip as [->|Ip]; auto).
  assert (NP : p <> dc_doc dc) by (intros ->; destruct KP as (a & A1 & A2); destruct KD as (b & B1 & B2); congruence).
  eapply document_path; eauto. econstructor; [|apply PT; eauto].
  destruct DO as (o & E & K & _). exists o. splits; auto.
  - left. unfold packages_of in PK at 1. rewrite E in PK. rewrite PK. apply in_or_app. auto.
  - destruct KP as (po & Ep & _). destruct (proj2 S p po Ep) as (po' & Ep' & _ & Np & _). exists po'. split; [exact Ep'|]. unfold name_of. now rewrite Ep.
Qed.

(** With a package of the workspace itself configured, the paths are the same in the workspace and in the loaded document. *)
Theorem C66_workspace_paths root h ws dc h' f c id doc n ns x :
  reachable h -> has_kind KColl h ws -> has_kind KColl h (dc_doc dc) -> ws <> dc_doc dc -> MWork.write_doc root h ws dc = (h', Ok f) ->
  document_of (f_heap f) c id (f_doc f) doc -> good_contents h' c id (dc_doc dc) (doc_schema_version doc) ->
  In (abs [n]) (dc_refs dc) -> (forall m, In m (n :: ns) -> valid_name m) -> coll_find h ws (abs (n :: ns)) = Ok (Some x) -> is_element h x ->
  exists text loaded, write_file doc = Ok text /\ (forall v stop, snd (read_str v text stop) = Ok loaded) /\
    stands (doc_packages loaded) (n :: ns) (norm_ARElement (c x)).
Proof.
  intros R KW KD D W DO G Ir V F EX. pose proof (inv_reachable h R) as H.
  assert (P : path h ws (n :: ns) x).
  { eapply coll_find_sound; eauto; [easy|]. unfold kd, get. destruct EX as [(q & Q & QK)|(q & Q & QK)]; rewrite Q, QK; discriminate. }
  apply path_head in P as (q & L & P). assert (KW' : kd h ws = Some KColl) by (destruct KW as (o & E & K); unfold kd, get; now rewrite E, K).
  assert (Fq : coll_find h ws (abs [n]) = Ok (Some q)).
  { eapply (coll_find_path h ws [n] q H); [now constructor|intros m [->|[]]; apply V; now left|exact KW'|right; reflexivity]. }
  assert (Nq : name_of h q = n) by (destruct L as (_ & _ & _ & _ & (o & E & <-)); unfold name_of; now rewrite E).
  destruct P as [[-> ->]|P].
  - exfalso. destruct L as (o & E & _ & I & _). destruct KW as (o' & E' & K). rewrite E in E'. injection E' as <-. destruct I as [I|I].
    + pose proof (g_pkgs h ws o (H ws o E) x I) as X. unfold kd, get in X. destruct EX as [(q & Q & QK)|(q & Q & QK)]; rewrite Q in X; congruence.
    + pose proof (g_elems h ws o (H ws o E) x I) as X. now rewrite K in X.
  - rewrite <- Nq. eapply C66_configured_document; eauto.
Qed.

(** A package inside itself: the document has no tree, saving it does not come to an end. *)
Theorem C66_inside_itself_refuted : exists h d, reachable h /\ has_kind KColl h d /\ coll_find h d "/A" = Ok (Some 1) /\ forall c id doc, ~ document_of h c id d doc.
Proof.
  exists (run [ONew KColl ""; OMake 0 "/A"; OPkgAppend 1 1]), 0. splits; [eexists; reflexivity|eexists; split; reflexivity|reflexivity|].
  intros c id doc (o & E & _ & F). vm_compute in E. injection E as <-. cbn in F. inversion F as [|a b l l' D _]; subst. clear F.
  assert (X : forall p t, package_of (run [ONew KColl ""; OMake 0 "/A"; OPkgAppend 1 1]) c id p t -> p <> 1).
  { intros p t T. induction T as [p o ps E K N En _ F] using package_of_ind'. intros ->. vm_compute in E. injection E as <-. cbn in F. inversion F; subst. congruence. }
  exact (X 1 b D eq_refl).
Qed.

(** ** Examples *)
Definition ex_ops : list op := [ONew KColl ""; OMake 0 "/P/Q"; ONew KElem "U"; OPkgAppend 2 3; ONew KColl ""].
Definition ex_contents (x : nat) : ARElement := AR_Unit (MElem1.mkUnit (name_only "U") None None None None).
Definition ex_idents (x : nat) : identifiable := match x with 1 => name_only "P" | _ => name_only "Q" end.
Definition ex_conf : docconf := mkDoc 4 "p.arxml" ["/P"].
Definition ex_doc : document := mkDocument [mkPackage (name_only "P") [] [mkPackage (name_only "Q") [ex_contents 3] []]] 51.
Example C66_history_example : oldest_first [] ex_ops /\ named_contents (run ex_ops) ex_contents ex_idents /\ acyclic (run ex_ops).
Proof.
  assert (O : oldest_first [] ex_ops).
  { cbn. splits; auto. }
  splits; [exact O| |now apply C66_oldest_first_acyclic].
  intros x o E. destruct x as [|[|[|[|[|x]]]]]; vm_compute in E; try discriminate; try (injection E as <-; split; [intros K|intros [K|K]]; (discriminate K || reflexivity)).
  destruct x; discriminate.
Qed.
Example C66_example : exists h' f, MWork.write_doc None (run ex_ops) 0 ex_conf = (h', Ok f) /\ document_of (f_heap f) ex_contents ex_idents (f_doc f) ex_doc /\
  good_contents h' ex_contents ex_idents 4 51 /\ coll_find (run ex_ops) 0 (abs ["P"; "Q"; "U"]) = Ok (Some 3) /\ is_element (run ex_ops) 3.
Proof.
  do 2 eexists. split; [reflexivity|]. splits.
  - eexists. splits; [reflexivity|reflexivity|]. constructor; [|constructor].
    match goal with |- package_of ?h _ _ _ _ => refine (package_of_intro h ex_contents ex_idents 1 (nth 1 h (new_obj KColl "")) [mkPackage (name_only "Q") [ex_contents 3] []] _ _ _ _ _) end;
      [reflexivity|reflexivity|reflexivity|intros e []|]. constructor; [|constructor].
    match goal with |- package_of ?h _ _ _ _ => refine (package_of_intro h ex_contents ex_idents 2 (nth 2 h (new_obj KColl "")) [] _ _ _ _ _) end;
      [reflexivity|reflexivity|reflexivity|intros e [<-|[]]; eexists; splits; (reflexivity || now left)|constructor].
  - intros ns x _. split; intros _.
    + good.
    + destruct x as [|[|x]]; good.
  - reflexivity.
  - left. eexists. split; reflexivity.
Qed.

Print Assumptions C66_found_after_reload.
Print Assumptions C66_document_exists.
Print Assumptions C66_oldest_first_acyclic.
Print Assumptions C66_configured_document.
Print Assumptions C66_workspace_paths.
Print Assumptions C66_inside_itself_refuted.
