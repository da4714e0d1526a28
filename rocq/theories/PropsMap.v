(** C62: elements are put and found by the keys of the package map.  C63: what is found stays found. *)
From Verif Require Import Base PBase MHeap SHeap PHeap MWork SWork PWork MMap SMap PMap.

Lemma state_inv c h m : workspace_state c h m -> map_inv c (h, m) /\ reachable h.
Proof.
  intros (h0 & ops & R & (co & Ec & KC) & E). assert (I : map_inv c (h0, [])).
  { split; [now apply inv_reachable|]. split; [exists co; auto|discriminate]. }
  rewrite E. split; [now apply map_run_spec|]. change h with (fst (h, m)). rewrite E. now apply map_run_reach.
Qed.

(** Creating a map makes a package for every entry; the key leads to the package at the path, and
    only keys of the map lead anywhere. *)
Theorem C62_map c h m l h' m' : workspace_state c h m -> NoDup (map fst l) -> create_package_map h c l = (h', m', Ok tt) ->
  (forall k r, In (k, r) l -> exists p ns lead trail, get_package m' k = Ok p /\ has_kind KPkg h' p /\ coll_find h' c r = Ok (Some p) /\
     path h' c ns p /\ r = (lead ++ join "/" ns ++ trail)%string /\ (lead = "" \/ lead = "/") /\ (trail = "" \/ trail = "/")) /\
  (forall k, ~ In k (map fst l) -> get_package m' k = Err (match l with [] => RuntimeError | _ => KeyError end)) /\
  grown h h'.
Proof.
  intros W ND E. destruct (state_inv c h m W) as ((H & C & _) & R). cbn [fst snd] in *.
  destruct (fill_spec c l h [] h' m' _ H C E) as (H' & G & A & B & D & F). split; [|split; [|exact G]].
  - intros k r I. destruct (fill_path c l h [] h' m' R C E ND k r I) as (p & ns & lead & trail & P1 & P2 & P3 & P4).
    exists p, ns, lead, trail. split; [now apply get_package_ok|]. split; [apply has_kind_kd; apply F with k; [discriminate|exact P1]|]. auto.
  - intros k N. specialize (A k N). cbn in A. unfold get_package. rewrite A. destruct l as [|[k0 r0] l].
    + cbn in E. injection E as <- <-. reflexivity.
    + destruct m'; [|reflexivity]. exfalso. apply (B eq_refl k0); [now left|reflexivity].
Qed.
(** Before a map exists nothing can be added or found. *)
Theorem C62_no_map h k e name : ws_add h [] k e = (h, Err RuntimeError) /\ ws_find h [] k name = Err RuntimeError /\ get_package [] k = Err RuntimeError.
Proof. repeat split. Qed.
(** add_element succeeds exactly for packages and elements whose name is not in use in the package;
    otherwise it changes nothing. *)
Theorem C62_add c h m k e o h' r : workspace_state c h m -> nth_error h e = Some o -> ws_add h m k e = (h', r) ->
  (r = Ok tt <-> exists p, get_package m k = Ok p /\ (o_kind o = KPkg \/ o_kind o = KElem \/ o_kind o = KComp) /\ forall j, ~ listed_child h p (o_name o) j) /\
  (r <> Ok tt -> h' = h).
Proof.
  intros W Ee E. destruct (state_inv c h m W) as ((H & C & K) & R). cbn [fst snd] in *. unfold ws_add in E.
  destruct (get_package m k) as [p|x] eqn:P.
  2: { injection E as <- <-. split; [split; [discriminate|intros (p & Q & _); discriminate Q]|auto]. }
  pose proof P as P'. apply get_package_ok, K, kd_pkg in P' as (po & Ep & KP). unfold pkg_append in E.
  change (nth_error h e) with (get h e) in Ee. rewrite Ep, Ee in E.
  assert (L : forall j, assoc (o_name o) (o_map po) = Some j <-> listed_child h p (o_name o) j) by (intros j; apply assoc_listed; auto; left; exact KP).
  destruct (o_kind o) eqn:KO.
  1, 5: injection E as <- <-; split; [split; [discriminate|intros (q & _ & [Q|[Q|Q]] & _); discriminate Q]|auto].
  all: destruct (assoc (o_name o) (o_map po)) as [j|] eqn:A; injection E as <- <-;
    [split; [split; [discriminate|intros (q & Q & _ & N); injection Q as <-; exfalso; apply (N j), L, eq_refl]|auto]
    |split; [split; [intros _; exists p; split; [reflexivity|]; split; [auto|]; intros j J; apply L in J; discriminate J|auto]|congruence]].
Qed.
(** What was added is found under its key and name, and under the path of the package; it belongs to the package. *)
Theorem C62_added_is_found c h m k e o h' p : workspace_state c h m -> nth_error h e = Some o -> ws_add h m k e = (h', Ok tt) -> get_package m k = Ok p -> valid_name (o_name o) ->
  ws_find h' m k (o_name o) = Ok (Some e) /\ listed_child h' p (o_name o) e /\ parent_is h' e (Some p) /\
  forall ns, path h c ns p -> (forall n, In n ns -> valid_name n) -> coll_find h' c (abs (ns ++ [o_name o])) = Ok (Some e).
Proof.
  intros W Ee E P V. destruct (state_inv c h m W) as ((H & C & K) & R). cbn [fst snd] in *.
  destruct (map_step_spec c (h, m) (MAdd k e) (conj H (conj C K))) as ((H' & C' & K') & X). cbn [map_step fst snd] in H', C', K', X. rewrite E in H', C', K', X. cbn [fst] in H', C', K', X.
  pose proof P as P'. apply get_package_ok, K, kd_pkg in P' as (po & Ep & KP). change (nth_error h e) with (get h e) in Ee.
  assert (Q : exists reg, (reg = add_package \/ reg = add_element) /\ h' = attach reg h p e (o_name o)).
  { unfold ws_add in E. rewrite P in E. unfold pkg_append in E. rewrite Ep, Ee in E. destruct (o_kind o); try discriminate E;
      (destruct (assoc (o_name o) (o_map po)); [discriminate E|]); injection E as <-; eexists; (split; [|reflexivity]); auto. }
  destruct Q as (reg & RG & Eh).
  assert (L : listed_child h' p (o_name o) e).
  { assert (Ep' : exists po', get h' p = Some po' /\ o_kind po' = KPkg /\ assoc (o_name o) (o_map po') = Some e).
    { rewrite Eh, get_attach, Ep, Nat.eqb_refl. eexists. split; [reflexivity|]. destruct RG as [-> | ->], (Nat.eqb e p); cbn; (split; [exact KP|apply assoc_set_same]). }
    destruct Ep' as (po' & Ep' & KP' & A). apply (assoc_listed h' p po' _ _ H' Ep'); [left; exact KP'|exact A]. }
  assert (PA : parent_is h' e (Some p)).
  { assert (G : exists o', get h' e = Some o' /\ o_parent o' = Some p).
    { rewrite Eh, get_attach, Ee, Nat.eqb_refl. eexists. split; [reflexivity|]. destruct RG as [-> | ->], (Nat.eqb p e); reflexivity. }
    exact G. }
  split; [|split; [exact L|split; [exact PA|]]].
  - unfold ws_find. rewrite P. cbn [bind]. pose proof (item_find_path h' p [o_name o] e (S (String.length (o_name o))) H' (path_one _ _ _ _ L)) as F.
    apply F; [intros n [<-|[]]; exact V|apply (K' k); now apply get_package_ok|cbn; lia].
  - intros ns PT VN. apply (coll_find_path h' c (ns ++ [o_name o]) e H').
    + apply (path_snoc h' c ns p); [exact (path_ext h h' c ns p H H' X PT)|exact L].
    + intros n I. apply in_app_or in I as [I|[<-|[]]]; auto.
    + destruct C' as (co & Ec & KC). unfold kd. now rewrite Ec, KC.
    + right. unfold abs. now destruct (ns ++ [o_name o]) eqn:Z; [destruct ns; discriminate Z|].
Qed.
(** Whatever is called later, other than creating another map, what is found under a key and name stays the same. *)
Theorem C62_kept c h m ops k name e : workspace_state c h m -> Forall keeps_map ops -> ws_find h m k name = Ok (Some e) ->
  forall h' m', map_run c ops (h, m) = (h', m') -> ws_find h' m' k name = Ok (Some e).
Proof.
  intros W F E h' m' Z. destruct (state_inv c h m W) as (I & _).
  assert (M : m' = m).
  { change m' with (snd (h', m')). rewrite <- Z. clear -F. revert h m. induction F as [|o ops N F IH]; intros h m; [reflexivity|]. cbn. destruct o; [destruct N|apply IH|apply IH]. }
  subst m'. destruct (map_run_spec c ops (h, m) I) as (_ & X). rewrite Z in X. cbn [fst] in X. destruct I as (H & _). cbn [fst] in H.
  unfold ws_find in *. destruct (get_package m k) as [p|x]; [|discriminate E]. cbn [bind] in *. exact (item_find_ext _ h h' p name e H X E).
Qed.
(** Creating the map again with the same path gives the same package. *)
Theorem C62_mapped_again c h m l h' m' k r p : workspace_state c h m -> NoDup (map fst l) -> create_package_map h c l = (h', m', Ok tt) -> In (k, r) l ->
  coll_find h c r = Ok (Some p) -> get_package m' k = Ok p.
Proof.
  intros W ND E I F. destruct (C62_map c h m l h' m' W ND E) as (A & _ & G). destruct (A k r I) as (q & ns & lead & trail & Q & _ & F' & _).
  destruct (state_inv c h m W) as ((H & _) & _). pose proof (coll_find_grown h h' c r p H G F) as F2. congruence.
Qed.
(** A map that cannot be created completely replaces the old one nevertheless. *)
Theorem C62_failed_map_refuted : exists c h m l h' m' p, workspace_state c h m /\ get_package m "Types" = Ok p /\
  create_package_map h c l = (h', m', Err ValueError) /\ get_package m' "Types" = Err KeyError.
Proof.
  exists 0, (run [ONew KColl ""; OMake 0 "/T"]), [("Types", 1)], [("New", "/New"); ("Bad", "/A//B")]. do 2 eexists. exists 1. split; [|split; [reflexivity|split; vm_compute; reflexivity]].
  exists (run [ONew KColl ""]), [MMap [("Types", "/T")]]. split; [eexists; reflexivity|]. split; [eexists; split; reflexivity|reflexivity].
Qed.
Example C62_case : exists h m, workspace_state 0 h m /\ NoDup (map fst [("A", "/P/A"); ("B", "/P/B")]) /\ get_package m "B" = Ok 3 /\
  ws_find h m "B" "E" = Ok (Some 4) /\ coll_find h 0 "/P/B/E" = Ok (Some 4) /\ ws_find h m "A" "E" = Ok None.
Proof.
  eexists. eexists. split; [exists (run [ONew KColl ""]), [MMap [("A", "/P/A"); ("B", "/P/B")]; MCall (ONew KElem "E"); MAdd "B" 4];
    split; [eexists; reflexivity|]; split; [eexists; split; reflexivity|reflexivity]|].
  split; [repeat constructor; cbn; intuition congruence|]. repeat split.
Qed.

(** * C63 *)
(** A path that finds an object finds the same object after any further calls, failed ones included. *)
Theorem C63_found_stays_found h ops c r i : reachable h -> coll_find h c r = Ok (Some i) -> coll_find (fold_left (fun h o => fst (step h o)) ops h) c r = Ok (Some i).
Proof. intros R E. pose proof (inv_reachable h R) as H. exact (coll_find_ext h _ c r i H (ext_steps ops h H) E). Qed.
(** The same for the paths of names below a package or document. *)
Theorem C63_paths_stay h ops p ns i : reachable h -> path h p ns i -> path (fold_left (fun h o => fst (step h o)) ops h) p ns i.
Proof. intros R P. pose proof (inv_reachable h R) as H. exact (path_ext h _ p ns i H (inv_fold ops h H) (ext_steps ops h H) P). Qed.
(** Names and kinds never change. *)
Theorem C63_names_stay h ops i o : reachable h -> nth_error h i = Some o ->
  exists o', nth_error (fold_left (fun h o => fst (step h o)) ops h) i = Some o' /\ o_name o' = o_name o /\ o_kind o' = o_kind o.
Proof. intros R E. destruct (ext_steps ops h (inv_reachable h R) i o E) as (o' & E' & K & N & _). exists o'. auto. Qed.
(** The reference an element states for itself can become another one: appending it elsewhere moves it, and both paths find it. *)
Theorem C63_moved_refuted : exists h o h', reachable h /\ h' = fst (step h o) /\ calc_ref h 3 = Ok (Some "/A/E") /\ calc_ref h' 3 = Ok (Some "/B/E") /\
  coll_find h' 0 "/A/E" = Ok (Some 3) /\ coll_find h' 0 "/B/E" = Ok (Some 3).
Proof. exists (run [ONew KColl ""; OMake 0 "/A"; OMake 0 "/B"; ONew KElem "E"; OPkgAppend 1 3]), (OPkgAppend 2 3). eexists. split; [eexists; reflexivity|]. repeat split. Qed.
Example C63_case : exists h, reachable h /\ coll_find h 0 "/A/E" = Ok (Some 2) /\ path h 0 ["A"; "E"] 2.
Proof.
  exists (run [ONew KColl ""; OMake 0 "/A"; ONew KElem "E"; OPkgAppend 1 2]). split; [eexists; reflexivity|]. split; [reflexivity|].
  econstructor; [|constructor]; (eexists; split; [reflexivity|]; split; [first [now left|now right]|]; split; [cbn; auto|eexists; split; reflexivity]).
Qed.

Print Assumptions C62_map.
Print Assumptions C62_no_map.
Print Assumptions C62_add.
Print Assumptions C62_added_is_found.
Print Assumptions C62_kept.
Print Assumptions C62_mapped_again.
Print Assumptions C62_failed_map_refuted.
Print Assumptions C63_found_stays_found.
Print Assumptions C63_paths_stay.
Print Assumptions C63_names_stay.
Print Assumptions C63_moved_refuted.
