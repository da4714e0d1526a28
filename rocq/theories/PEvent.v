(** Proofs about creating events. *)
From Coq Require Import Sorted Permutation.
From Verif Require Import Base PBase MHeap SHeap MNames PNames MWork PWork MNum MXml MEnum MRefTab MRef MCodec MElem0 MElem1 MElem2 MElem4 MElemE MElem5 MElemF MArxml MFind SFind PFind PConn MEvent SEvent.
Open Scope list_scope.
Ltac splits := repeat match goal with |- _ /\ _ => split end.

(** ** Renaming *)
Lemma with_name_name n i : id_name (with_name n i) = n.
Proof. reflexivity. Qed.
Lemma with_own_name i : with_name (id_name i) i = i.
Proof. now destruct i. Qed.
Lemma rename_event_name n e : event_name (rename_event n e) = n.
Proof. destruct e as [e|e|e|e|e|e|e|e|e|e|e|e|e|e|e]; destruct e; reflexivity. Qed.
Lemma rename_event_same e : rename_event (event_name e) e = e.
Proof. destruct e as [e|e|e|e|e|e|e|e|e|e|e|e|e|e|e]; destruct e as [i]; destruct i; reflexivity. Qed.
Lemma rename_event_start n e : event_start (rename_event n e) = event_start e.
Proof. destruct e as [e|e|e|e|e|e|e|e|e|e|e|e|e|e|e]; destruct e; reflexivity. Qed.
Lemma rename_events_same l : rename_events (map event_name l) l = l.
Proof. induction l as [|e l IH]; cbn; [reflexivity|]. now rewrite rename_event_same, IH. Qed.
Lemma rename_events_app a b la lb : List.length a = List.length la -> rename_events (a ++ b) (la ++ lb) = rename_events a la ++ rename_events b lb.
Proof. revert la. induction a as [|n a IH]; intros [|e la]; cbn; intros L; try discriminate; [reflexivity|]. now rewrite IH by lia. Qed.

Lemma make_unique_event_effect b base b' n : make_unique_event_name b base = (b', n) ->
  exists olds, b' = set_events b olds /\ one_renamed base (SwcInternalBehavior_events b) olds /\ ~ In n (map event_name olds) /\
    make_unique (map event_name (SwcInternalBehavior_events b)) base = (map event_name olds, n).
Proof.
  unfold make_unique_event_name. destruct (make_unique (map event_name (SwcInternalBehavior_events b)) base) as [names m] eqn:E. intros X. inversion X. subst. clear X.
  exists (rename_events names (SwcInternalBehavior_events b)). split; [reflexivity|]. pose proof (make_unique_fresh _ _ _ _ E) as F.
  set (l := SwcInternalBehavior_events b) in *. destruct (make_unique_effect _ _ _ _ E) as [[N ->]|(x & y & E1 & -> & N)].
  - rewrite rename_events_same. split; [left; auto|]. auto.
  - assert (exists lx e ly, l = lx ++ e :: ly /\ map event_name lx = x /\ event_name e = base /\ map event_name ly = y) as (lx & e & ly & El & Ex & Ee & Ey).
    { apply map_eq_app in E1 as (lx & r & -> & Ex & Er). destruct r as [|e ly]; [discriminate|]. inversion Er. eauto 8. }
    assert (R : rename_events (x ++ (base ++ "_0")%string :: y) l = lx ++ rename_event (base ++ "_0")%string e :: ly).
    { rewrite El. rewrite rename_events_app by (subst x; now rewrite map_length). subst x y. cbn [rename_events]. now rewrite !rename_events_same. }
    rewrite R. assert (Mp : map event_name (lx ++ rename_event (base ++ "_0")%string e :: ly) = x ++ (base ++ "_0")%string :: y).
    { rewrite map_app. cbn [map]. rewrite rename_event_name. congruence. }
    rewrite Mp. split; [|auto]. right. exists lx, e, ly. auto.
Qed.

(** ** Every call has the same shape *)
Definition maker := identifiable -> list RModeInAtomicSwcInstanceRef -> option ref -> RteEvent.
Definition finish (o : option owner) (b : SwcInternalBehavior) (r : RunnableEntity) (mk : result maker) (kw : keywords) (n : string) : result RteEvent :=
  let* mk := mk in
  match kw with Keywords i m => Ok (mk (with_name n i) m (runnable_ref o b r)) | BadKeywords x => Err x end.
Lemma new_rte_event_eq n o b r kw :
  new_rte_event n (runnable_ref o b r) kw = match kw with Keywords i m => Ok (with_name n i, m, runnable_ref o b r) | BadKeywords x => Err x end.
Proof. destruct kw as [i m|x]; [|reflexivity]. unfold new_rte_event, runnable_ref. destruct (owner_path o); reflexivity. Qed.

Lemma assign_required o p : r_or_pr p = true -> assign rc_PortPrototypeRef (port_ref o p) rc_AbstractRequiredPortPrototypeRef = Ok (port_ref o p).
Proof. destruct o; [|reflexivity]. destruct p; [discriminate| |]; reflexivity. Qed.
Lemma assign_provided o p : p_or_pr p = true -> assign rc_PortPrototypeRef (port_ref o p) rc_AbstractProvidedPortPrototypeRef = Ok (port_ref o p).
Proof. destruct o; [|reflexivity]. destruct p; [|discriminate|]; reflexivity. Qed.
Lemma find_r_port_in w n p : find_r_port w n = Some p -> In p (ow_ports w) /\ port_name p = n /\ r_or_pr p = true.
Proof. intros E. apply first_named_in in E as [I <-]. apply filter_In in I as [I J]. auto. Qed.
Lemma find_p_port_in w n p : find_p_port w n = Some p -> In p (ow_ports w) /\ port_name p = n /\ p_or_pr p = true.
Proof. intros E. apply first_named_in in E as [I <-]. apply filter_In in I as [I J]. auto. Qed.
Lemma NoDup_map_filter {A} (g : A -> string) h l : NoDup (map g l) -> NoDup (map g (filter h l)).
Proof.
  induction l as [|a l IH]; cbn; intros N; [constructor|]. inversion N as [|? ? N1 N2]. subst. destruct (h a); [|auto]. cbn. constructor; [|auto].
  intros I. apply N1. apply in_map_iff in I as (b & E & I). apply filter_In in I as [I _]. rewrite <- E. now apply in_map.
Qed.
Lemma find_r_port_found w p : NoDup (map port_name (ow_ports w)) -> In p (ow_ports w) -> requires p -> find_r_port w (port_name p) = Some p.
Proof. intros N I R. unfold find_r_port. apply first_named_found; [now apply NoDup_map_filter|]. apply filter_In. split; [assumption|]. destruct p; [destruct R| |]; reflexivity. Qed.
Lemma find_p_port_found w p : NoDup (map port_name (ow_ports w)) -> In p (ow_ports w) -> provides p -> find_p_port w (port_name p) = Some p.
Proof. intros N I R. unfold find_p_port. apply first_named_found; [now apply NoDup_map_filter|]. apply filter_In. split; [assumption|]. destruct p; [|destruct R|]; reflexivity. Qed.
Lemma requires_eq p : r_or_pr p = true <-> requires p.
Proof. destruct p; cbn; split; auto; try discriminate; intros []. Qed.
Lemma provides_eq p : p_or_pr p = true <-> provides p.
Proof. destruct p; cbn; split; auto; try discriminate; intros []. Qed.

(** What a call prepares: the base name, the event and the runnable. *)
Definition variable_iref (w : owner) (p : PortPrototypeElement) (d : string * VariableDataPrototype) : RVariableInAtomicSwcInstanceRef :=
  mkRVariableInAtomicSwcInstanceRef (own_port_ref w p) (data_ref (fst d) (snd d)).
Definition the_operation (o : option owner) (b : SwcInternalBehavior) (runnable text : string) :=
  let* w := get_valid_parent o in
  let* r := get_runnable b runnable in
  let* (port, element) := port_and_element text in
  let* p := or_value_error (find_p_port w port) in
  let* d := get_operation_in_port w p element in
  let* d := or_value_error d in
  Ok (w, r, p, d).
Definition the_group (o : option owner) (b : SwcInternalBehavior) (runnable port : string) :=
  let* w := get_valid_parent o in
  let* r := get_runnable b runnable in
  let* p := or_value_error (find_p_port w port) in
  let* g := get_mode_declaration_group_in_port w p in
  let* g := or_value_error g in
  let* pl := get_workspace w in
  Ok (w, r, p, g, pl).
Definition plan (o : option owner) (b : SwcInternalBehavior) (c : event_call) (runnable : string) (name : option string) : result (string * result maker * RunnableEntity) :=
  match c with
  | CallBackground => let* r := get_runnable b runnable in let* base := base_name o (prefix_setting c) [runnable] name in
      Ok (base, Ok (fun i m s => RteEvent_BackgroundEvent (mkBackgroundEvent i m s)), r)
  | CallInit => let* r := get_runnable b runnable in let* base := base_name o (prefix_setting c) [runnable] name in
      Ok (base, Ok (fun i m s => RteEvent_InitEvent (mkInitEvent i m s)), r)
  | CallTiming p f => let* r := get_runnable b runnable in let* base := base_name o (prefix_setting c) [runnable] name in
      Ok (base, Ok (fun i m s => RteEvent_TimingEvent (mkTimingEvent i m s (option_map as_float f) (option_map as_float p))), r)
  | CallDataReceiveError t => let* (w, r, p, d) := received_data o b runnable t in
      let* base := base_name o (prefix_setting c) [runnable; port_name p; data_name (snd d)] name in
      Ok (base, Ok (fun i m s => RteEvent_DataReceiveErrorEvent (mkDataReceiveErrorEvent i m s (Some (variable_iref w p d)))), r)
  | CallDataReceived t => let* (w, r, p, d) := received_data o b runnable t in
      let* base := base_name o (prefix_setting c) [runnable; port_name p; data_name (snd d)] name in
      Ok (base, Ok (fun i m s => RteEvent_DataReceivedEvent (mkDataReceivedEvent i m s (Some (variable_iref w p d)))), r)
  | CallDataSendCompleted _ | CallDataWriteCompleted _ => Err NotImplementedError
  | CallOperationInvoked t => let* (w, r, p, d) := the_operation o b runnable t in
      let* base := base_name o (prefix_setting c) [runnable; port_name p; operation_name (snd d)] name in
      Ok (base, Ok (fun i m s => RteEvent_OperationInvokedEvent (mkOperationInvokedEvent i m s
        (Some (mkPOperationInAtomicSwcInstanceRef (own_port_ref w p) (operation_ref (fst d) (snd d)))))), r)
  | CallModeManagerError t => let* (w, r, p, g, pl) := the_group o b runnable t in
      let* base := base_name o (prefix_setting c) [runnable; port_name p; group_name (snd g)] name in
      Ok (base, Ok (fun i m s => RteEvent_SwcModeManagerErrorEvent (mkSwcModeManagerErrorEvent i m s
        (Some (mkPModeGroupInAtomicSwcInstanceRef (own_port_ref w p) (group_ref pl (fst g) (snd g)))))), r)
  | CallModeSwitch m a => let* w := get_valid_parent o in let* _ := get_workspace w in let* r := get_runnable b runnable in
      let* base := base_name o (prefix_setting c) [runnable] name in
      Ok (base, (let* x := switch_mode w m in Ok (fun i m s => RteEvent_SwcModeSwitchEvent (mkSwcModeSwitchEvent i m s a (Some x)))), r)
  end.
Lemma add_event_ext b base f g : (forall n, f n = g n) -> add_event b base f = add_event b base g.
Proof. intros H. unfold add_event. destruct (make_unique_event_name b base) as [b1 n]. now rewrite H. Qed.
Lemma received_port o b rn t w r p d : received_data o b rn t = Ok (w, r, p, d) -> r_or_pr p = true.
Proof.
  unfold received_data. destruct (get_valid_parent o) as [w'|]; cbn; [|discriminate]. destruct (get_runnable b rn); cbn; [|discriminate].
  destruct (port_and_element t) as [[x y]|]; cbn; [|discriminate]. destruct (find_r_port w' x) as [p'|] eqn:F; cbn; [|discriminate].
  destruct (get_data_element_in_port w' p' y) as [[z|]|]; cbn; try discriminate. intros E. inversion E. subst. now apply find_r_port_in in F.
Qed.
Lemma operation_port o b rn t w r p d : the_operation o b rn t = Ok (w, r, p, d) -> p_or_pr p = true.
Proof.
  unfold the_operation. destruct (get_valid_parent o) as [w'|]; cbn; [|discriminate]. destruct (get_runnable b rn); cbn; [|discriminate].
  destruct (port_and_element t) as [[x y]|]; cbn; [|discriminate]. destruct (find_p_port w' x) as [p'|] eqn:F; cbn; [|discriminate].
  destruct (get_operation_in_port w' p' y) as [[z|]|]; cbn; try discriminate. intros E. inversion E. subst. now apply find_p_port_in in F.
Qed.
Lemma group_port o b rn t w r p d pl : the_group o b rn t = Ok (w, r, p, d, pl) -> p_or_pr p = true.
Proof.
  unfold the_group. destruct (get_valid_parent o) as [w'|]; cbn; [|discriminate]. destruct (get_runnable b rn); cbn; [|discriminate].
  destruct (find_p_port w' t) as [p'|] eqn:F; cbn; [|discriminate].
  destruct (get_mode_declaration_group_in_port w' p') as [[z|]|]; cbn; try discriminate. destruct (get_workspace w'); cbn; [|discriminate].
  intros E. inversion E. subst. now apply find_p_port_in in F.
Qed.
Lemma group_ref_assign pl path g : assign rc_ModeDeclarationGroupPrototypeRef (group_ref pl path g) rc_ModeDeclarationGroupPrototypeRef = Ok (group_ref pl path g).
Proof. unfold group_ref. destruct (pl_adopted pl path); reflexivity. Qed.

Lemma create_event_plan o b c rn nm kw :
  create_event o b c rn nm kw = prepared b (plan o b c rn nm) (fun x => let '(base, mk, r) := x in add_event b base (finish o b r mk kw)).
Proof.
  destruct c; cbn [create_event plan]; try reflexivity.
  - unfold create_background_event. destruct (get_runnable b rn) as [r|]; cbn [prepared bind]; [|reflexivity]. cbn [prefix_setting]. destruct (base_name _ _ _ _); cbn [prepared bind]; [|reflexivity].
    apply add_event_ext. intros n. rewrite new_rte_event_eq. now destruct kw.
  - unfold create_init_event. destruct (get_runnable b rn) as [r|]; cbn [prepared bind]; [|reflexivity]. cbn [prefix_setting]. destruct (base_name _ _ _ _); cbn [prepared bind]; [|reflexivity].
    apply add_event_ext. intros n. rewrite new_rte_event_eq. now destruct kw.
  - unfold create_timing_event. destruct (get_runnable b rn) as [r|]; cbn [prepared bind]; [|reflexivity]. cbn [prefix_setting]. destruct (base_name _ _ _ _); cbn [prepared bind]; [|reflexivity].
    apply add_event_ext. intros n. rewrite new_rte_event_eq. now destruct kw.
  - unfold create_data_receive_error_event. destruct (received_data o b rn port_data_element) as [[[[w r] p] d]|] eqn:R; cbn [prepared bind]; [|reflexivity]. cbn [prefix_setting].
    destruct (base_name _ _ _ _); cbn [prepared bind]; [|reflexivity]. apply add_event_ext. intros n. rewrite new_rte_event_eq.
    unfold new_variable_iref, own_port_ref. rewrite assign_required by eauto using received_port. now destruct kw.
  - unfold create_data_received_event. destruct (received_data o b rn data_element_ref) as [[[[w r] p] d]|] eqn:R; cbn [prepared bind]; [|reflexivity]. cbn [prefix_setting].
    destruct (base_name _ _ _ _); cbn [prepared bind]; [|reflexivity]. apply add_event_ext. intros n. rewrite new_rte_event_eq.
    unfold new_variable_iref, own_port_ref. rewrite assign_required by eauto using received_port. now destruct kw.
  - unfold create_operation_invoked_event. fold (the_operation o b rn operation_ref). destruct (the_operation o b rn operation_ref) as [[[[w r] p] d]|] eqn:R; cbn [prepared bind]; [|reflexivity].
    cbn [prefix_setting]. destruct (base_name _ _ _ _); cbn [prepared bind]; [|reflexivity]. apply add_event_ext. intros n. rewrite new_rte_event_eq.
    unfold own_port_ref. rewrite assign_provided by eauto using operation_port. now destruct kw.
  - unfold create_swc_mode_manager_error_event. fold (the_group o b rn port_name). destruct (the_group o b rn port_name) as [[[[[w r] p] g] pl]|] eqn:R; cbn [prepared bind]; [|reflexivity].
    cbn [prefix_setting]. destruct (base_name _ _ _ _); cbn [prepared bind]; [|reflexivity]. apply add_event_ext. intros n. rewrite new_rte_event_eq.
    unfold own_port_ref. rewrite assign_provided by eauto using group_port. rewrite group_ref_assign. now destruct kw.
  - unfold create_swc_mode_mode_switch_event. destruct (get_valid_parent o) as [w|]; cbn [prepared bind]; [|reflexivity]. destruct (get_workspace w); cbn [prepared bind]; [|reflexivity].
    destruct (get_runnable b rn) as [r|]; cbn [prepared bind]; [|reflexivity]. cbn [prefix_setting]. destruct (base_name _ _ _ _); cbn [prepared bind]; [|reflexivity].
    apply add_event_ext. intros n. rewrite new_rte_event_eq. unfold finish. destruct (switch_mode w mode_ref); cbn [bind]; [|reflexivity]. now destruct kw.
Qed.

(** ** Texts *)
Lemma split_strict_ok s l : split_ref_strict s = Ok l -> l = split_at slash s /\ s <> "" /\ starts_slash s = false.
Proof.
  assert (X : forall a b : list string, Ok a = Ok b -> a = b) by congruence.
  unfold split_ref_strict, starts_slash. destruct s as [|c s]; [discriminate|]. destruct (Ascii.eqb c slash) eqn:Ec; [discriminate|]. intros E. apply X in E. auto with datatypes.
  split; [auto|]. split; [discriminate|]. reflexivity.
Qed.
Lemma split_strict_join p l : valid_name p -> split_ref_strict (join "/" (p :: l)) = Ok (split_at slash (join "/" (p :: l))).
Proof.
  intros [V W]. destruct p as [|c p]; [congruence|]. cbn in W. apply orb_false_iff in W as [E _].
  destruct l; cbn [join append]; unfold split_ref_strict; now rewrite E.
Qed.
Lemma split_first_part p l : mem_char slash p = false -> l <> [] -> split_at slash (join "/" (p :: l)) = p :: split_at slash (join "/" l).
Proof. intros V N. rewrite PFind.join_cons by assumption. change ("/" ++ join "/" l)%string with (String slash (join "/" l)). now apply split_at_sep. Qed.
Lemma split_head e rest : mem_char slash e = false -> exists l, split_at slash (join "/" (e :: rest)) = e :: l.
Proof. intros V. destruct rest as [|x rest]; [exists []; now apply split_at_no|]. eexists. now apply split_first_part. Qed.

Lemma says_splits text p o : says text p o -> exists o', port_and_element text = Ok (p, o') /\ (o' = o \/ (o = None /\ o' = Some "")).
Proof.
  intros H. destruct H as [p V|p rest V|p e rest V W]; unfold port_and_element.
  - exists None. split; [|auto]. change p with (join "/" [p]) at 1. rewrite split_strict_join by assumption. cbn [join bind]. now rewrite split_at_no by apply V.
  - exists (Some ""). split; [|auto]. rewrite split_strict_join by assumption. cbn [bind]. rewrite split_first_part by (apply V || discriminate).
    destruct (split_head "" rest eq_refl) as [l ->]. reflexivity.
  - exists (Some e). split; [|auto]. rewrite split_strict_join by assumption. cbn [bind]. rewrite split_first_part by (apply V || discriminate).
    destruct (split_head e rest (proj2 W)) as [l ->]. reflexivity.
Qed.
Lemma splits_says text p o : port_and_element text = Ok (p, o) -> says text p (match o with Some EmptyString => None | _ => o end).
Proof.
  unfold port_and_element. destruct (split_ref_strict text) as [l|] eqn:E; cbn [bind]; [|discriminate]. apply split_strict_ok in E as (-> & N & S).
  pose proof (join_split slash text) as J. change (String slash "") with "/" in J. pose proof (split_at_mem text) as M.
  assert (H : forall x r, split_at slash text = x :: r -> valid_name x).
  { intros x r E. rewrite E in M. inversion M. subst. split; [|assumption]. intros ->. destruct (starts_slash_not_head _ _ _ S E eq_refl) as [_ Z]. contradiction. }
  destruct (split_at slash text) as [|x [|y r]] eqn:E; [discriminate| |]; intros X; inversion X; subst; clear X.
  - apply says_port. eauto.
  - destruct y as [|c y]; [apply says_only; eauto|]. apply says_element; [eauto|]. inversion M as [|? ? _ M2]. subst. inversion M2. subst. split; [discriminate|assumption].
Qed.

(** ** References *)
Lemma own_port_ref_at w pl self p : stands_at w pl self -> own_port_ref w p = Some (ref_to_port self p).
Proof. intros (P & N & E). unfold own_port_ref, port_ref, ref_to_port. rewrite P. cbn [option_map]. now rewrite E, path_below. Qed.
Lemma runnable_ref_at w pl self b r : stands_at w pl self -> runnable_ref (Some w) b r = Some (ref_to_runnable self b r).
Proof.
  intros (P & N & E). unfold runnable_ref, owner_path, ref_to_runnable. rewrite P. cbn [option_map]. rewrite E, path_below by assumption.
  rewrite path_below by (destruct self; discriminate). now rewrite <- app_assoc.
Qed.
Lemma get_interface_leads pl p path e : get_interface pl p = Ok (path, FElement e) -> exists ns, path = path_string ns /\ leads_to (pl_packages pl) (port_interface_ref p) ns e.
Proof.
  unfold get_interface, tree_find_ref. destruct (port_interface_ref p) as [r|]; [|discriminate]. destruct (tree_find (pl_packages pl) (rf_value r)) as [[[x f]|]|] eqn:F; cbn [bind]; try discriminate.
  intros E. inversion E. subst. pose proof (tree_find_sound _ _ _ _ F) as (ns & A & ->). exists ns. split; [reflexivity|]. exists r. auto.
Qed.
Lemma leads_interface pl p ns e : leads_to (pl_packages pl) (port_interface_ref p) ns e -> get_interface pl p = Ok (path_string ns, FElement e).
Proof. intros (x & R & F & _). unfold get_interface, tree_find_ref. rewrite R, F. reflexivity. Qed.
Lemma leads_nonempty ws r ns e : leads_to ws r ns e -> ns <> [].
Proof. intros (x & _ & _ & A). eauto using at_nonempty. Qed.
Lemma only_or_named_picks {A} (g : A -> string) l o a :
  only_or_named g l o = Ok (Some a) -> picks g l (match o with Some EmptyString => None | _ => o end) a.
Proof.
  unfold only_or_named. destruct o as [[|c n]|]; try (destruct l as [|x [|y l]]; try discriminate; intros E; inversion E; reflexivity).
  intros E. assert (X : forall x y : option A, Ok x = Ok y -> x = y) by congruence. apply X in E. apply first_named_in in E. exact E.
Qed.
Lemma picks_only_or_named {A} (g : A -> string) l o o' a : NoDup (map g l) -> picks g l o a -> (o' = o \/ (o = None /\ o' = Some "")) -> (forall n, o = Some n -> n <> "") ->
  only_or_named g l o' = Ok (Some a).
Proof.
  intros N P [->|[-> ->]] V.
  - destruct o as [n|]; cbn in P; [|subst; reflexivity]. destruct P as [I <-]. cbn [only_or_named]. pose proof (V _ eq_refl). destruct (g a) eqn:E; [congruence|]. rewrite <- E. now rewrite first_named_found.
  - cbn in P. subst. reflexivity.
Qed.
Lemma says_valid text p n : says text p (Some n) -> n <> "".
Proof. intros H. inversion H. subst. match goal with V : valid_name n |- _ => apply V end. Qed.

(** ** What is found is what is named *)
Lemma get_runnable_in b n r : get_runnable b n = Ok r -> In r (SwcInternalBehavior_runnables b) /\ runnable_name r = n.
Proof. unfold get_runnable, find_runnable. destruct (first_named _ _ _) eqn:E; [|discriminate]. intros X. inversion X. subst. now apply first_named_in in E. Qed.
Lemma get_runnable_found b r : NoDup (map runnable_name (SwcInternalBehavior_runnables b)) -> In r (SwcInternalBehavior_runnables b) -> get_runnable b (runnable_name r) = Ok r.
Proof. intros N I. unfold get_runnable, find_runnable. now rewrite first_named_found. Qed.

Lemma received_sound w pl self b rn t w' r p d : stands_at w pl self -> received_data (Some w) b rn t = Ok (w', r, p, d) ->
  w' = w /\ get_runnable b rn = Ok r /\ exists ns, data_named pl (ow_ports w) t p ns (snd d) /\ variable_iref w p d = data_of self p ns (snd d).
Proof.
  intros P. unfold received_data. cbn [get_valid_parent bind]. destruct (get_runnable b rn) as [r'|]; cbn [bind]; [|discriminate].
  destruct (port_and_element t) as [[x y]|] eqn:S; cbn [bind]; [|discriminate]. destruct (find_r_port w x) as [p'|] eqn:F; cbn [or_value_error bind]; [|discriminate].
  unfold get_data_element_in_port, get_workspace. rewrite (proj1 P). cbn [bind]. destruct (get_interface pl p') as [[path f]|] eqn:I; cbn [bind]; [|discriminate].
  destruct f as [|e| | | | | |]; try discriminate. destruct e as [e|e|e|e|e|e|e|e|e|e|e|e|e|e|e|e|e|e|e|e|e]; try discriminate.
  destruct (only_or_named data_name _ y) as [[z|]|] eqn:O; cbn [bind option_map or_value_error]; try discriminate. intros E. injection E as <- <- <- <-. cbn [snd].
  apply find_r_port_in in F as (Ip & <- & R). apply requires_eq in R. apply get_interface_leads in I as (ns & -> & L). apply splits_says in S. apply only_or_named_picks in O.
  splits; auto. exists ns. split; [econstructor; eassumption|].
  unfold variable_iref, data_of, data_ref, ref_inside. cbn [fst snd]. rewrite (own_port_ref_at w pl self) by assumption. rewrite path_below by eauto using leads_nonempty. reflexivity.
Qed.

Lemma operation_sound w pl self b rn t w' r p d : stands_at w pl self -> the_operation (Some w) b rn t = Ok (w', r, p, d) ->
  w' = w /\ get_runnable b rn = Ok r /\ exists ns, operation_named pl (ow_ports w) t p ns (snd d) /\
    mkPOperationInAtomicSwcInstanceRef (own_port_ref w p) (operation_ref (fst d) (snd d)) = operation_of self p ns (snd d).
Proof.
  intros P. unfold the_operation. cbn [get_valid_parent bind]. destruct (get_runnable b rn) as [r'|]; cbn [bind]; [|discriminate].
  destruct (port_and_element t) as [[x y]|] eqn:S; cbn [bind]; [|discriminate]. destruct (find_p_port w x) as [p'|] eqn:F; cbn [or_value_error bind]; [|discriminate].
  unfold get_operation_in_port, get_workspace. rewrite (proj1 P). cbn [bind]. destruct (get_interface pl p') as [[path f]|] eqn:I; cbn [bind]; [|discriminate].
  destruct f as [|e| | | | | |]; try discriminate. destruct e as [e|e|e|e|e|e|e|e|e|e|e|e|e|e|e|e|e|e|e|e|e]; try discriminate.
  destruct (only_or_named operation_name _ y) as [[z|]|] eqn:O; cbn [bind option_map or_value_error]; try discriminate. intros E. injection E as <- <- <- <-. cbn [snd].
  apply find_p_port_in in F as (Ip & <- & R). apply provides_eq in R. apply get_interface_leads in I as (ns & -> & L). apply splits_says in S. apply only_or_named_picks in O.
  splits; auto. exists ns. split; [econstructor; eassumption|].
  unfold operation_of, operation_ref, ref_inside. cbn [fst snd]. rewrite (own_port_ref_at w pl self) by assumption. rewrite path_below by eauto using leads_nonempty. reflexivity.
Qed.
Lemma group_ref_at pl ns g : ns <> [] -> group_ref pl (path_string ns) g = ref_to_group pl ns g.
Proof. intros N. unfold group_ref, ref_to_group, ref_inside. destruct (pl_adopted pl (path_string ns)); [|reflexivity]. now rewrite path_below. Qed.
Lemma group_sound w pl self b rn t w' r p g pl' : stands_at w pl self -> the_group (Some w) b rn t = Ok (w', r, p, g, pl') ->
  w' = w /\ pl' = pl /\ get_runnable b rn = Ok r /\ exists ns i, In p (ow_ports w) /\ port_name p = t /\ provides p /\
    leads_to (pl_packages pl) (port_interface_ref p) ns (AR_ModeSwitchInterface i) /\ ModeSwitchInterface_mode_group i = Some (snd g) /\
    mkPModeGroupInAtomicSwcInstanceRef (own_port_ref w p) (group_ref pl (fst g) (snd g)) = mkPModeGroupInAtomicSwcInstanceRef (Some (ref_to_port self p)) (ref_to_group pl ns (snd g)).
Proof.
  intros P. unfold the_group. cbn [get_valid_parent bind]. destruct (get_runnable b rn) as [r'|]; cbn [bind]; [|discriminate].
  destruct (find_p_port w t) as [p'|] eqn:F; cbn [or_value_error bind]; [|discriminate].
  unfold get_mode_declaration_group_in_port, get_workspace. rewrite (proj1 P). cbn [bind]. destruct (get_interface pl p') as [[path f]|] eqn:I; cbn [bind]; [|discriminate].
  destruct f as [|e| | | | | |]; try discriminate. destruct e as [e|e|e|e|e|e|e|e|e|e|e|e|e|e|e|e|e|e|e|e|e]; try discriminate.
  destruct (ModeSwitchInterface_mode_group e) as [z|] eqn:O; cbn [bind option_map or_value_error]; try discriminate. intros E. injection E as <- <- <- <- <-. cbn [snd fst].
  apply find_p_port_in in F as (Ip & <- & R). apply provides_eq in R. apply get_interface_leads in I as (ns & -> & L).
  splits; auto. exists ns, e. splits; auto. rewrite (own_port_ref_at w pl self) by assumption. rewrite group_ref_at by eauto using leads_nonempty. reflexivity.
Qed.
Lemma mode_group_find_mode g n m : mode_group_find g n = Some (FMode m) -> In m (ModeDeclarationGroup_mode_declarations g) /\ mode_name m = n.
Proof.
  unfold mode_group_find. destruct (first_named mode_name n _) eqn:E.
  - intros X. inversion X. subst. now apply first_named_in in E.
  - destruct (first_named transition_name n _); discriminate.
Qed.
Lemma mode_ref_assign path m : assign rc_ModeDeclarationRef (mode_ref path m) rc_ModeDeclarationRef = Ok (mode_ref path m).
Proof. reflexivity. Qed.
Lemma mode_sound w pl self t i : stands_at w pl self -> new_mode_iref w t = Ok i -> mode_of pl self (ow_ports w) t i.
Proof.
  intros P. unfold new_mode_iref. destruct (split_ref_strict t) as [l|] eqn:S; cbn [bind]; [|discriminate]. destruct l as [|x [|y [|z l]]]; try discriminate.
  destruct (find_r_port w x) as [p|] eqn:F; cbn [or_value_error bind]; [|discriminate]. unfold get_mode_declaration_group_in_port, get_workspace. rewrite (proj1 P). cbn [bind].
  destruct (get_interface pl p) as [[path f]|] eqn:I; cbn [bind]; [|discriminate].
  destruct f as [|e| | | | | |]; try discriminate. destruct e as [e|e|e|e|e|e|e|e|e|e|e|e|e|e|e|e|e|e|e|e|e]; try discriminate.
  destruct (ModeSwitchInterface_mode_group e) as [g|] eqn:O; cbn [bind option_map or_value_error]; try discriminate.
  destruct (tree_find_ref (pl_packages pl) (ModeDeclarationGroupPrototype_type_ref g)) as [[[gp f]|]|] eqn:T; cbn [bind]; try discriminate.
  destruct (find_mode gp f y) as [[gp' m]|] eqn:Fm; cbn [bind]; [|discriminate].
  apply find_r_port_in in F as (Ip & <- & R). unfold own_port_ref at 1. rewrite assign_required by assumption. cbn [bind]. rewrite group_ref_assign. cbn [bind].
  apply requires_eq in R. unfold find_mode in Fm. destruct f as [|f| | | | | |]; try discriminate. destruct f as [f|f|f|f|f|f|f|f|f|f|f|f|f|f|f|f|f|f|f|f|f]; try discriminate.
  destruct (mode_group_find f y) as [[]|] eqn:M; try discriminate. inversion Fm. subst. clear Fm. apply mode_group_find_mode in M as [Im <-].
  apply get_interface_leads in I as (ns & -> & L). unfold tree_find_ref in T. destruct (ModeDeclarationGroupPrototype_type_ref g) as [gr|] eqn:Eg; [|discriminate].
  pose proof (tree_find_sound _ _ _ _ T) as (gs & A & ->). rewrite mode_ref_assign. cbn [bind]. intros E. assert (Inj : forall a b : RModeInAtomicSwcInstanceRef, Ok a = Ok b -> a = b) by congruence. apply Inj in E. subst i.
  apply split_strict_ok in S as (S & N & X). pose proof (join_split slash t) as J. rewrite <- S in J. change (String slash "") with "/" in J. cbn [join] in J.
  pose proof (split_at_mem t) as M. rewrite <- S in M. apply Forall_inv in M as M1. apply Forall_inv_tail in M as M2. apply Forall_inv in M2.
  rewrite group_ref_at by eauto using leads_nonempty. fold (own_port_ref w p). rewrite (own_port_ref_at w pl self) by assumption. unfold mode_ref. rewrite path_below by eauto using at_nonempty.
  rewrite <- J. apply (mode_of_port pl self (ow_ports w) p ns e g gs f m); auto.
  - split; [|assumption]. intros Z. symmetry in S. destruct (starts_slash_not_head _ _ _ X S Z) as [_ Q]. contradiction.
  - rewrite Eg. exists gr. auto.
Qed.
Lemma switch_sound w pl self t x : stands_at w pl self -> switch_mode w t = Ok x ->
  match t, x with
  | ModeText s, OneMode r => mode_of pl self (ow_ports w) s r
  | ModeTexts [s1; s2], TwoModes r1 r2 => mode_of pl self (ow_ports w) s1 r1 /\ mode_of pl self (ow_ports w) s2 r2
  | _, _ => False
  end.
Proof.
  intros P. destruct t as [s|l]; cbn [switch_mode].
  - destruct (String.eqb s ""); [discriminate|]. destruct (new_mode_iref w s) eqn:E; [|discriminate]. cbn [bind]. intros X. inversion X. eauto using mode_sound.
  - destruct l as [|s1 [|s2 [|]]]; try discriminate. destruct (String.eqb s1 ""); [discriminate|]. destruct (String.eqb s2 "").
    + destruct (new_mode_iref w s1); discriminate.
    + destruct (new_mode_iref w s1) eqn:E1; [|discriminate]. cbn [bind]. destruct (new_mode_iref w s2) eqn:E2; [|discriminate]. cbn [bind]. intros X. inversion X. eauto using mode_sound.
Qed.
Lemma base_name_asked w pl c rn parts nm base self : stands_at w pl self -> base_name (Some w) (prefix_setting c) (rn :: parts) nm = Ok base -> name_asked pl c rn parts nm base.
Proof.
  intros P. unfold base_name, name_asked. destruct nm as [n|]; [intros E; inversion E; auto|]. unfold get_valid_behavior_settings. cbn [get_valid_parent bind]. rewrite (proj1 P).
  destruct (pl_settings pl) as [s|]; [|discriminate]. cbn [bind]. unfold get_value. destruct (assoc (prefix_setting c) s) as [x|] eqn:A; [|discriminate].
  intros E. right. split; [reflexivity|]. exists s, x. rewrite A. destruct x as [|ch x]; [discriminate|]. splits; auto; congruence.
Qed.
Lemma asked_base_name w pl c rn parts nm base self : stands_at w pl self -> name_asked pl c rn parts nm base -> base_name (Some w) (prefix_setting c) (rn :: parts) nm = Ok base.
Proof.
  intros P [->|(-> & s & x & S & G & N & ->)]; [reflexivity|]. unfold base_name, get_valid_behavior_settings. cbn [get_valid_parent bind]. rewrite (proj1 P), S. cbn [bind].
  unfold get_value in G. destruct (assoc (prefix_setting c) s) as [y|]; [|destruct (existsb _ _); [discriminate|]; destruct (existsb _ _); discriminate].
  inversion G. subst. destruct x; [congruence|reflexivity].
Qed.

Lemma plan_sound w pl self b c rn nm base mk r : stands_at w pl self -> plan (Some w) b c rn nm = Ok (base, Ok mk, r) ->
  In r (SwcInternalBehavior_runnables b) /\ runnable_name r = rn /\ exists parts, asks pl self (ow_ports w) c parts mk /\ name_asked pl c rn parts nm base.
Proof.
  intros P. destruct c; cbn [plan].
  1-3: destruct (get_runnable b rn) as [r'|] eqn:R; cbn [bind]; [|discriminate]; destruct (base_name _ _ _ _) eqn:B; cbn [bind]; [|discriminate]; intros E; inversion E; subst;
    apply get_runnable_in in R as [I <-]; splits; auto; exists []; split; [constructor|eapply base_name_asked; eassumption].
  1-2: destruct (received_data (Some w) b rn _) as [[[[w' r'] p] d]|] eqn:R; cbn [bind]; [|discriminate]; destruct (base_name _ _ _ _) eqn:B; cbn [bind]; [|discriminate]; intros E; inversion E; subst;
    destruct (received_sound _ _ _ _ _ _ _ _ _ _ P R) as (-> & G & ns & D & V); apply get_runnable_in in G as [I <-]; splits; auto; rewrite V; eexists; (split; [constructor; eassumption|eapply base_name_asked; eassumption]).
  1-2: discriminate.
  - destruct (the_operation (Some w) b rn _) as [[[[w' r'] p] d]|] eqn:R; cbn [bind]; [|discriminate]; destruct (base_name _ _ _ _) eqn:B; cbn [bind]; [|discriminate]; intros E; inversion E; subst.
    destruct (operation_sound _ _ _ _ _ _ _ _ _ _ P R) as (-> & G & ns & D & V); apply get_runnable_in in G as [I <-]; splits; auto; rewrite V; eexists; (split; [constructor; eassumption|eapply base_name_asked; eassumption]).
  - destruct (the_group (Some w) b rn _) as [[[[[w' r'] p] g] pl']|] eqn:R; cbn [bind]; [|discriminate]; destruct (base_name _ _ _ _) eqn:B; cbn [bind]; [|discriminate]; intros E; inversion E; subst.
    destruct (group_sound _ _ _ _ _ _ _ _ _ _ _ P R) as (-> & -> & G & ns & i & Ip & <- & Pp & L & M & V); apply get_runnable_in in G as [I <-]; splits; auto; rewrite V.
    eexists; (split; [eapply asks_manager; eassumption|eapply base_name_asked; eassumption]).
  - unfold get_workspace. cbn [get_valid_parent bind]. rewrite (proj1 P). cbn [bind]. destruct (get_runnable b rn) as [r'|] eqn:R; cbn [bind]; [|discriminate].
    destruct (base_name _ _ _ _) eqn:B; cbn [bind]; [|discriminate]. destruct (switch_mode w mode_ref) as [x|] eqn:S; cbn [bind]; [|discriminate]. intros E; inversion E; subst.
    apply get_runnable_in in R as [I <-]. pose proof (switch_sound _ _ _ _ _ P S) as X. splits; auto. exists []. split; [|eapply base_name_asked; eassumption].
    destruct mode_ref as [s|[|s1 [|s2 [|]]]]; destruct x as [m|m1 m2]; cbn in X; try contradiction; [|destruct X]; constructor; auto.
Qed.

(** ** What is named is found *)
Lemma received_complete w pl self b rn r t p ns d : stands_at w pl self -> distinct_names w pl b -> get_runnable b rn = Ok r -> data_named pl (ow_ports w) t p ns d ->
  received_data (Some w) b rn t = Ok (w, r, p, (path_string ns, d)).
Proof.
  intros P (_ & Np & Ni) G D. destruct D as [t p o ns i d S I R L K]. unfold received_data. cbn [get_valid_parent bind]. rewrite G. cbn [bind].
  destruct (says_splits _ _ _ S) as (o' & -> & O). cbn [bind]. rewrite find_r_port_found by assumption. cbn [or_value_error bind].
  unfold get_data_element_in_port, get_workspace. rewrite (proj1 P). cbn [bind]. rewrite (leads_interface _ _ _ _ L). cbn [bind].
  destruct L as (x & _ & _ & A). pose proof (Ni _ _ A) as N. cbn [inner_names] in N.
  rewrite (picks_only_or_named data_name _ o o' d); auto. intros n ->. eauto using says_valid.
Qed.
Lemma operation_complete w pl self b rn r t p ns d : stands_at w pl self -> distinct_names w pl b -> get_runnable b rn = Ok r -> operation_named pl (ow_ports w) t p ns d ->
  the_operation (Some w) b rn t = Ok (w, r, p, (path_string ns, d)).
Proof.
  intros P (_ & Np & Ni) G D. destruct D as [t p o ns i d S I R L K]. unfold the_operation. cbn [get_valid_parent bind]. rewrite G. cbn [bind].
  destruct (says_splits _ _ _ S) as (o' & -> & O). cbn [bind]. rewrite find_p_port_found by assumption. cbn [or_value_error bind].
  unfold get_operation_in_port, get_workspace. rewrite (proj1 P). cbn [bind]. rewrite (leads_interface _ _ _ _ L). cbn [bind].
  destruct L as (x & _ & _ & A). pose proof (Ni _ _ A) as N. cbn [inner_names] in N.
  rewrite (picks_only_or_named operation_name _ o o' d); auto. intros n ->. eauto using says_valid.
Qed.
Lemma mode_complete w pl self b t i : stands_at w pl self -> distinct_names w pl b -> mode_of pl self (ow_ports w) t i -> new_mode_iref w t = Ok i /\ String.eqb t "" = false.
Proof.
  intros P (_ & Np & Ni) M. destruct M as [p ns e g gs grp m I R V W L O T Im]. unfold new_mode_iref.
  split; [|destruct V as [V _]; destruct (port_name p); [congruence|reflexivity]].
  change (port_name p ++ "/" ++ mode_name m)%string with (join "/" [port_name p; mode_name m]). rewrite split_strict_join by assumption. cbn [bind].
  rewrite split_first_part by (apply V || discriminate). cbn [join]. rewrite split_at_no by assumption. rewrite find_r_port_found by assumption. cbn [or_value_error bind].
  unfold get_mode_declaration_group_in_port, get_workspace. rewrite (proj1 P). cbn [bind]. rewrite (leads_interface _ _ _ _ L). cbn [bind]. rewrite O. cbn [option_map or_value_error bind].
  pose proof (leads_nonempty _ _ _ _ L) as N1. pose proof (leads_nonempty _ _ _ _ T) as N2. destruct T as (x & Ex & Fx & A). rewrite Ex. cbn [tree_find_ref]. rewrite Fx. cbn [bind].
  unfold find_mode, mode_group_find. pose proof (Ni _ _ A) as N. cbn [inner_names] in N. rewrite first_named_found by assumption. cbn [bind].
  unfold own_port_ref at 1. rewrite assign_required by now apply requires_eq. cbn [bind]. rewrite group_ref_assign. cbn [bind].
  fold (own_port_ref w p). rewrite (own_port_ref_at w pl self) by assumption. rewrite group_ref_at by assumption. unfold mode_ref. rewrite path_below by assumption. reflexivity.
Qed.
Lemma plan_complete w pl self b c r parts mk nm base : stands_at w pl self -> distinct_names w pl b -> In r (SwcInternalBehavior_runnables b) ->
  asks pl self (ow_ports w) c parts mk -> name_asked pl c (runnable_name r) parts nm base -> plan (Some w) b c (runnable_name r) nm = Ok (base, Ok mk, r).
Proof.
  intros P D I A B. pose proof (get_runnable_found b r (proj1 D) I) as G. apply (asked_base_name w pl c (runnable_name r) parts nm base self P) in B.
  destruct A as [| |pe of|t p ns d X|t p ns d X|t p ns d X|p ns i g Ip Pp L M|t x a X|t1 t2 x1 x2 a X1 X2]; cbn [plan].
  1-3: rewrite G; cbn [bind]; rewrite B; reflexivity.
  1-2: rewrite (received_complete w pl self b _ _ _ _ _ _ P D G X); cbn [bind snd]; rewrite B; cbn [bind]; unfold variable_iref; rewrite (own_port_ref_at w pl self) by assumption; cbn [fst snd];
    unfold data_ref; rewrite path_below by (destruct X; eauto using leads_nonempty); reflexivity.
  - rewrite (operation_complete w pl self b _ _ _ _ _ _ P D G X); cbn [bind snd]; rewrite B; cbn [bind]; rewrite (own_port_ref_at w pl self) by assumption; cbn [fst snd];
    unfold operation_ref; rewrite path_below by (destruct X; eauto using leads_nonempty); reflexivity.
  - unfold the_group. cbn [get_valid_parent bind]. rewrite G. cbn [bind]. rewrite find_p_port_found by (apply D || assumption). cbn [or_value_error bind].
    unfold get_mode_declaration_group_in_port, get_workspace. rewrite (proj1 P). cbn [bind]. rewrite (leads_interface _ _ _ _ L). cbn [bind]. rewrite M. cbn [option_map or_value_error bind snd].
    rewrite B. cbn [bind fst snd]. rewrite (own_port_ref_at w pl self) by assumption. rewrite group_ref_at by eauto using leads_nonempty. reflexivity.
  - unfold get_workspace. cbn [get_valid_parent bind]. rewrite (proj1 P). cbn [bind]. rewrite G. cbn [bind]. rewrite B. cbn [bind].
    destruct (mode_complete w pl self b _ _ P D X) as [E1 E2]. cbn [switch_mode]. rewrite E2, E1. reflexivity.
  - unfold get_workspace. cbn [get_valid_parent bind]. rewrite (proj1 P). cbn [bind]. rewrite G. cbn [bind]. rewrite B. cbn [bind].
    destruct (mode_complete w pl self b _ _ P D X1) as [E1 E2]. destruct (mode_complete w pl self b _ _ P D X2) as [E3 E4]. cbn [switch_mode]. rewrite E2, E1, E4, E3. reflexivity.
Qed.

(** ** What a call does *)
Lemma asks_common pl self ports c parts mk i m s : asks pl self ports c parts mk -> event_name (mk i m s) = id_name i /\ event_start (mk i m s) = s.
Proof. intros A. destruct A; split; reflexivity. Qed.
Lemma add_event_effect b base f b' res : add_event b base f = (b', res) ->
  exists olds n, one_renamed base (SwcInternalBehavior_events b) olds /\ ~ In n (map event_name olds) /\
    make_unique (map event_name (SwcInternalBehavior_events b)) base = (map event_name olds, n) /\ f n = res /\
    match res with Ok e => b' = set_events b (olds ++ [e]) | Err _ => b' = set_events b olds end.
Proof.
  unfold add_event. destruct (make_unique_event_name b base) as [b1 n] eqn:E. apply make_unique_event_effect in E as (olds & -> & R & F & M).
  destruct (f n) as [e|x] eqn:Ef; intros X; inversion X; subst; exists olds, n; splits; auto.
Qed.
Lemma make_unique_shape names base names' n : make_unique names base = (names', n) -> n = base \/ exists k, n = (base ++ "_" ++ dec k)%string.
Proof.
  unfold make_unique. destruct (scan names base false 0) as [has hi]. destruct (has || _); intros E.
  - right. exists (hi + 1)%N. congruence.
  - left. congruence.
Qed.
Lemma prefix_app p s : String.prefix p (p ++ s)%string = true.
Proof. induction p as [|c p IH]; cbn; [now destruct s|]. destruct (ascii_dec c c); [assumption|congruence]. Qed.
Lemma make_unique_free names base : (forall x, In x names -> String.prefix base x = false) -> make_unique names base = (names, base).
Proof.
  intros F. unfold make_unique. pose proof (scan_spec names base false 0) as S. destruct (scan names base false 0) as [has hi]. destruct S as (S & _).
  assert (R : rename_last names base = None).
  { apply rename_last_none. intros I. apply F in I. pose proof (prefix_app base "") as X. rewrite PFind.append_nil_r in X. congruence. }
  rewrite R. destruct has; [|reflexivity]. exfalso. destruct S as [S _]. destruct (S eq_refl) as [X|(x & i & I & M)]; [discriminate|].
  unfold match_index in M. destruct (strip_prefix (base ++ "_")%string x) as [t|] eqn:P; [|discriminate]. apply strip_prefix_spec in P. subst x.
  apply F in I. rewrite PFind.append_assoc, prefix_app in I. discriminate.
Qed.
Lemma set_events_same b l : same_but_events b (set_events b l) /\ SwcInternalBehavior_events (set_events b l) = l.
Proof. unfold same_but_events, set_events. cbn. splits; reflexivity. Qed.
Lemma set_own_events b : set_events b (SwcInternalBehavior_events b) = b.
Proof. now destruct b. Qed.
Lemma one_renamed_starts base l l' : one_renamed base l l' -> map event_start l' = map event_start l.
Proof. intros [[_ ->]|(x & e & y & -> & _ & ->)]; [reflexivity|]. rewrite !map_app. cbn [map]. now rewrite rename_event_start. Qed.
Lemma one_renamed_length base l l' : one_renamed base l l' -> List.length l' = List.length l.
Proof. intros [[_ ->]|(x & e & y & -> & _ & ->)]; [reflexivity|]. rewrite !app_length. reflexivity. Qed.

Lemma plan_runnable o b c rn nm base mk r : plan o b c rn nm = Ok (base, mk, r) -> In r (SwcInternalBehavior_runnables b) /\ runnable_name r = rn.
Proof.
  intros H. apply get_runnable_in. destruct c; cbn [plan] in H; try discriminate.
  1-3: destruct (get_runnable b rn); cbn [bind] in H; [|discriminate]; destruct (base_name _ _ _ _); cbn [bind] in H; [|discriminate]; congruence.
  1-2: unfold received_data in H; destruct (get_valid_parent o) as [w'|]; cbn [bind] in H; [|discriminate]; destruct (get_runnable b rn); cbn [bind] in H; [|discriminate];
    destruct (port_and_element _) as [[x y]|]; cbn [bind] in H; [|discriminate]; destruct (or_value_error (find_r_port w' x)) as [p'|]; cbn [bind] in H; [|discriminate];
    destruct (get_data_element_in_port w' p' y) as [z|]; cbn [bind] in H; [|discriminate]; destruct (or_value_error z); cbn [bind] in H; [|discriminate];
    destruct (base_name _ _ _ _); cbn [bind] in H; [|discriminate]; congruence.
  - unfold the_operation in H; destruct (get_valid_parent o) as [w'|]; cbn [bind] in H; [|discriminate]; destruct (get_runnable b rn); cbn [bind] in H; [|discriminate];
    destruct (port_and_element _) as [[x y]|]; cbn [bind] in H; [|discriminate]; destruct (or_value_error (find_p_port w' x)) as [p'|]; cbn [bind] in H; [|discriminate];
    destruct (get_operation_in_port w' p' y) as [z|]; cbn [bind] in H; [|discriminate]; destruct (or_value_error z); cbn [bind] in H; [|discriminate];
    destruct (base_name _ _ _ _); cbn [bind] in H; [|discriminate]; congruence.
  - unfold the_group in H; destruct (get_valid_parent o) as [w'|]; cbn [bind] in H; [|discriminate]; destruct (get_runnable b rn); cbn [bind] in H; [|discriminate];
    destruct (or_value_error (find_p_port w' _)) as [p'|]; cbn [bind] in H; [|discriminate];
    destruct (get_mode_declaration_group_in_port w' p') as [z|]; cbn [bind] in H; [|discriminate]; destruct (or_value_error z); cbn [bind] in H; [|discriminate];
    destruct (get_workspace w'); cbn [bind] in H; [|discriminate]; destruct (base_name _ _ _ _); cbn [bind] in H; [|discriminate]; congruence.
  - destruct (get_valid_parent o) as [w'|]; cbn [bind] in H; [|discriminate]; destruct (get_workspace w'); cbn [bind] in H; [|discriminate]; destruct (get_runnable b rn); cbn [bind] in H; [|discriminate];
    destruct (base_name _ _ _ _); cbn [bind] in H; [|discriminate]; congruence.
Qed.
Lemma plan_ready o b c rn nm base mk r : plan o b c rn nm = Ok (base, mk, r) -> (forall m a, c <> CallModeSwitch m a) -> exists f, mk = Ok f.
Proof.
  intros H N. destruct c; cbn [plan] in H; try discriminate; try (exfalso; eapply N; reflexivity);
  repeat match type of H with
  | bind ?x _ = _ => destruct x; cbn [bind] in H; [|discriminate]
  | (let (_, _) := ?x in _) = _ => destruct x
  end; inversion H; eauto.
Qed.
Lemma finish_common o b c rn nm base mk r kw n e : plan o b c rn nm = Ok (base, mk, r) -> finish o b r mk kw n = Ok e ->
  event_name e = n /\ event_start e = runnable_ref o b r.
Proof.
  unfold finish. intros H E. destruct mk as [mk|]; cbn [bind] in E; [|discriminate]. destruct kw as [i m|]; [|discriminate].
  assert (X : e = mk (with_name n i) m (runnable_ref o b r)) by congruence. subst e. clear E.
  destruct c; cbn [plan] in H; try discriminate;
  repeat match type of H with
  | bind ?x _ = _ => destruct x; cbn [bind] in H; [|discriminate]
  | (let (_, _) := ?x in _) = _ => destruct x
  end; try (inversion H; subst; split; reflexivity).
  match type of H with context [switch_mode ?w ?m] => destruct (switch_mode w m) end; cbn [bind] in H; [|discriminate]. inversion H. subst. split; reflexivity.
Qed.
(** The effect of every call, wherever the behavior is. *)
Lemma create_effect o b c rn nm kw b' res : create_event o b c rn nm kw = (b', res) ->
  match res with
  | Ok e => exists r base olds, In r (SwcInternalBehavior_runnables b) /\ runnable_name r = rn /\ one_renamed base (SwcInternalBehavior_events b) olds /\
      ~ In (event_name e) (map event_name olds) /\ event_start e = runnable_ref o b r /\ b' = set_events b (olds ++ [e]) /\
      make_unique (map event_name (SwcInternalBehavior_events b)) base = (map event_name olds, event_name e)
  | Err _ => b' = b \/ exists base olds n, one_renamed base (SwcInternalBehavior_events b) olds /\ b' = set_events b olds /\
      make_unique (map event_name (SwcInternalBehavior_events b)) base = (map event_name olds, n)
  end.
Proof.
  rewrite create_event_plan. destruct (plan o b c rn nm) as [[[base mk] r]|x] eqn:P; cbn [prepared]; intros H.
  - apply add_event_effect in H as (olds & n & R & F & M & E & B). destruct res as [e|x].
    + destruct (finish_common _ _ _ _ _ _ _ _ _ _ _ P E) as [<- S]. destruct (plan_runnable _ _ _ _ _ _ _ _ P) as [I Nm]. exists r, base, olds. splits; auto.
    + right. exists base, olds, n. auto.
  - inversion H. subst. now left.
Qed.
Lemma create_keeps_rest o b c rn nm kw b' res : create_event o b c rn nm kw = (b', res) -> same_but_events b b'.
Proof.
  intros H. apply create_effect in H. destruct res as [e|x].
  - destruct H as (r & base & olds & _ & _ & _ & _ & _ & -> & _). apply set_events_same.
  - destruct H as [->|(base & olds & n & _ & -> & _)]; [unfold same_but_events; splits; reflexivity|apply set_events_same].
Qed.
Lemma same_but_trans a b c : same_but_events a b -> same_but_events b c -> same_but_events a c.
Proof. unfold same_but_events. intros (A1 & A2 & A3 & A4 & A5) (B1 & B2 & B3 & B4 & B5). splits; congruence. Qed.
Lemma same_runnable_ref o b b' r : same_but_events b b' -> runnable_ref o b' r = runnable_ref o b r.
Proof. intros (A & _). unfold runnable_ref. now rewrite A. Qed.
Lemma history o l : forall b, let b' := fold_left (call_on o) l b in
  same_but_events b b' /\
  List.length (SwcInternalBehavior_events b') = (List.length (SwcInternalBehavior_events b) + successes o b l)%nat /\
  forall e, In e (SwcInternalBehavior_events b') -> In (event_start e) (map event_start (SwcInternalBehavior_events b)) \/
    exists r, In r (SwcInternalBehavior_runnables b) /\ event_start e = runnable_ref o b r.
Proof.
  induction l as [|[[[c rn] nm] kw] l IH]; intros b; cbn [fold_left successes].
  - splits; try (unfold same_but_events; splits; reflexivity); [lia|]. intros e I. left. now apply in_map.
  - set (b1 := call_on o b (c, rn, nm, kw)). destruct (IH b1) as (S & L & E).
    assert (C : create_event o b c rn nm kw = (b1, snd (create_event o b c rn nm kw))) by (unfold b1, call_on; now destruct (create_event o b c rn nm kw)).
    pose proof (create_keeps_rest _ _ _ _ _ _ _ _ C) as K. pose proof (create_effect _ _ _ _ _ _ _ _ C) as F.
    unfold call_ok. destruct (snd (create_event o b c rn nm kw)) as [e0|x].
    + destruct F as (r & base & olds & I & Nm & R & Fr & St & B & _). splits; [eauto using same_but_trans| |].
      * rewrite L, B. cbn [set_events SwcInternalBehavior_events]. rewrite app_length, (one_renamed_length _ _ _ R). cbn [List.length]. lia.
      * intros e Ie. destruct (E e Ie) as [J|(r' & J & V)].
        -- rewrite B in J. cbn [set_events SwcInternalBehavior_events] in J. rewrite map_app, (one_renamed_starts _ _ _ R) in J. apply in_app_iff in J as [J|J]; [now left|].
           cbn in J. destruct J as [J|[]]. right. exists r. split; [assumption|congruence].
        -- right. exists r'. rewrite (same_runnable_ref o b b1) in V by assumption. destruct K as (_ & _ & _ & _ & K). rewrite K in J. auto.
    + assert (X : map event_start (SwcInternalBehavior_events b1) = map event_start (SwcInternalBehavior_events b) /\ List.length (SwcInternalBehavior_events b1) = List.length (SwcInternalBehavior_events b)).
      { destruct F as [->|(base & olds & n & R & -> & _)]; [auto|]. cbn [set_events SwcInternalBehavior_events]. eauto using one_renamed_starts, one_renamed_length. }
      destruct X as [X1 X2]. splits; [eauto using same_but_trans|lia|]. intros e Ie. destruct (E e Ie) as [J|(r' & J & V)].
      * left. congruence.
      * right. exists r'. rewrite (same_runnable_ref o b b1) in V by assumption. destruct K as (_ & _ & _ & _ & K). rewrite K in J. auto.
Qed.
Lemma create_distinct o b c rn nm kw b' res : NoDup (map event_name (SwcInternalBehavior_events b)) -> create_event o b c rn nm kw = (b', res) ->
  NoDup (map event_name (SwcInternalBehavior_events b')) \/
  exists base, In base (map event_name (SwcInternalBehavior_events b)) /\ In (base ++ "_0")%string (map event_name (SwcInternalBehavior_events b)).
Proof.
  intros N H. apply create_effect in H. set (names := map event_name (SwcInternalBehavior_events b)) in *.
  assert (D : forall base, ~ (In base names /\ In (base ++ "_0")%string names) \/ (In base names /\ In (base ++ "_0")%string names)).
  { intros base. destruct (in_dec string_dec base names); [|tauto]. destruct (in_dec string_dec (base ++ "_0")%string names); tauto. }
  destruct res as [e|x].
  - destruct H as (r & base & olds & _ & _ & R & F & _ & -> & M). cbn [set_events SwcInternalBehavior_events]. destruct (D base) as [X|X]; [|eauto].
    left. rewrite map_app. apply nodup_snoc. split; [|assumption]. eapply names_nodup_iff; eassumption.
  - destruct H as [->|(base & olds & n & R & -> & M)]; [auto|]. cbn [set_events SwcInternalBehavior_events]. destruct (D base) as [X|X]; [|eauto]. left. eapply names_nodup_iff; eassumption.
Qed.

(** ** Port API options *)
Lemma ascii_compare_trans a b c : Ascii.compare a b <> Gt -> Ascii.compare b c <> Gt -> Ascii.compare a c <> Gt /\ (Ascii.compare a c = Eq -> Ascii.compare a b = Eq /\ Ascii.compare b c = Eq).
Proof.
  unfold Ascii.compare. generalize (N_of_ascii a) (N_of_ascii b) (N_of_ascii c). clear a b c. intros a b c H1 H2.
  assert (L1 : (a <= b)%N) by exact H1. assert (L2 : (b <= c)%N) by exact H2. split.
  - assert (X : (a <= c)%N) by lia. exact X.
  - intros E. apply N.compare_eq in E. split; apply N.compare_eq_iff; lia.
Qed.
Lemma string_compare_trans a : forall b c, String.compare a b <> Gt -> String.compare b c <> Gt -> String.compare a c <> Gt.
Proof.
  induction a as [|x a IH]; intros [|y b] [|z c]; cbn; try congruence.
  destruct (Ascii.compare x y) eqn:Exy, (Ascii.compare y z) eqn:Eyz; try congruence; intros H1 H2;
    pose proof (ascii_compare_trans x y z ltac:(congruence) ltac:(congruence)) as [X Y]; destruct (Ascii.compare x z); try congruence;
    destruct (Y eq_refl); try congruence; eauto.
Qed.
Lemma leb_le a b : String.leb a b = true <-> String.compare a b <> Gt.
Proof. unfold String.leb. destruct (String.compare a b); split; congruence. Qed.
Lemma before_trans a b c : before a b -> before b c -> before a c.
Proof. unfold before. rewrite !leb_le. apply string_compare_trans. Qed.
Definition port_before (p q : PortPrototypeElement) : Prop := before (port_name p) (port_name q).
Lemma insert_port_perm p l : Permutation (insert_port p l) (p :: l).
Proof. induction l as [|q l IH]; cbn; [reflexivity|]. destruct (String.leb _ _); [reflexivity|]. rewrite IH. apply perm_swap. Qed.
Lemma sort_ports_perm l : Permutation (sort_ports l) l.
Proof. induction l as [|p l IH]; cbn; [reflexivity|]. rewrite insert_port_perm. now rewrite IH. Qed.
Lemma insert_port_sorted p l : StronglySorted port_before l -> StronglySorted port_before (insert_port p l).
Proof.
  induction l as [|q l IH]; cbn; intros H; [repeat constructor|]. inversion H as [|? ? H1 H2]. subst. destruct (String.leb (port_key p) (port_key q)) eqn:E.
  - constructor; [assumption|]. constructor; [exact E|]. eapply Forall_impl; [|exact H2]. intros r. unfold port_before. apply before_trans. exact E.
  - constructor; [auto|]. apply (Permutation_Forall (Permutation_sym (insert_port_perm p l))). constructor; [|assumption].
    unfold port_before, before. destruct (String.leb_total (port_key p) (port_key q)) as [X|X]; [congruence|exact X].
Qed.
Lemma sort_ports_sorted l : StronglySorted port_before (sort_ports l).
Proof. induction l as [|p l IH]; cbn; [constructor|]. now apply insert_port_sorted. Qed.
Lemma StronglySorted_filter {A} (R : A -> A -> Prop) f l : StronglySorted R l -> StronglySorted R (filter f l).
Proof.
  induction l as [|a l IH]; cbn; intros H; [constructor|]. inversion H as [|? ? H1 H2]. subst. destruct (f a); [|auto]. constructor; [auto|].
  apply Forall_forall. intros x I. apply filter_In in I as [I _]. rewrite Forall_forall in H2. auto.
Qed.
Lemma StronglySorted_names l : StronglySorted port_before l -> StronglySorted before (map port_name l).
Proof. induction 1 as [|p l H IH F]; cbn; constructor; [assumption|]. apply Forall_map. exact F. Qed.

Lemma split_at_app c a b : split_at c (a ++ String c b)%string = split_at c a ++ split_at c b.
Proof.
  induction a as [|x a IH]; cbn [append split_at].
  - now rewrite Ascii.eqb_refl.
  - destruct (Ascii.eqb x c); cbn [app]; rewrite IH; [reflexivity|]. pose proof (split_at_nonempty c a). destruct (split_at c a); [congruence|reflexivity].
Qed.
Lemma last_app {A} (a b : list A) d : b <> [] -> List.last (a ++ b) d = List.last b d.
Proof. intros N. induction a as [|x a IH]; [reflexivity|]. cbn [app]. destruct (a ++ b) eqn:E; [apply app_eq_nil in E as [_ E]; congruence|]. exact IH. Qed.
Lemma last_split_path ns n : mem_char slash n = false -> List.last (split_at slash (path_string (ns ++ [n]))) "" = n.
Proof.
  intros V. unfold path_string. change ("/" ++ join "/" (ns ++ [n]))%string with ("" ++ String slash (join "/" (ns ++ [n])))%string.
  rewrite split_at_app, last_app by apply split_at_nonempty. induction ns as [|m ns IH]; [cbn [app join]; now rewrite split_at_no|].
  cbn [app]. rewrite PFind.join_cons by (destruct ns; discriminate). change ("/" ++ join "/" (ns ++ [n]))%string with (String slash (join "/" (ns ++ [n]))).
  now rewrite split_at_app, last_app by apply split_at_nonempty.
Qed.
Lemma last_part_port self p : valid_name (port_name p) -> last_part (ref_to_port self p) = port_name p.
Proof. intros [_ V]. unfold last_part, ref_to_port. cbn [rf_value]. now apply last_split_path. Qed.
Lemma option_made w pl self p a : stands_at w pl self -> create_port_api_option_internal w p a = Ok (option_for self p a).
Proof. intros P. unfold create_port_api_option_internal. rewrite (own_port_ref_at w pl self) by assumption. destruct p; reflexivity. Qed.
Lemma assoc_set_keys {A} k (v : A) l : map fst (assoc_set k v l) = if existsb (String.eqb k) (map fst l) then map fst l else map fst l ++ [k].
Proof.
  induction l as [|[k' v'] l IH]; cbn [assoc_set map fst existsb app]; [reflexivity|]. destruct (String.eqb_spec k k') as [->|N]; cbn [orb map fst]; [reflexivity|].
  rewrite IH. destruct (existsb _ _); reflexivity.
Qed.
Lemma names_one_in l n : names_one l n = true <-> In n l.
Proof.
  unfold names_one. rewrite existsb_exists. split; [intros (x & I & E); apply String.eqb_eq in E; now subst|]. intros I. exists n. split; [assumption|apply String.eqb_refl].
Qed.
Lemma add_options_effect w pl self names a : stands_at w pl self -> forall L opts, Forall valid_name (map port_name L) -> NoDup (map port_name L) ->
  exists opts', add_options w names a L opts = (opts', Ok tt) /\
    (forall p, In p L -> In (port_name p) names -> assoc (port_name p) opts' = Some (option_for self p a)) /\
    (forall k, ~ (In k (map port_name L) /\ In k names) -> assoc k opts' = assoc k opts) /\
    map fst opts' = map fst opts ++ map port_name (filter (fun p => names_one names (port_name p) && negb (names_one (map fst opts) (port_name p))) L).
Proof.
  intros P. induction L as [|p L IH]; cbn [add_options map filter]; intros opts V N.
  - exists opts. splits; [reflexivity| |reflexivity|now rewrite app_nil_r]. intros p [].
  - inversion V as [|? ? V1 V2]. inversion N as [|? ? N1 N2]. subst. destruct (names_one names (port_name p)) eqn:S.
    + rewrite (option_made w pl self) by assumption. unfold append_port_api_option. cbn [option_for PortApiOption_port]. rewrite last_part_port by assumption. fold (option_for self p a).
      destruct (IH (assoc_set (port_name p) (option_for self p a) opts) V2 N2) as (opts' & E & A & B & K). exists opts'. splits; [exact E| | |].
      * intros q [<-|I] Iq; [|auto]. rewrite B by tauto. apply assoc_set_same.
      * intros k X. rewrite B by (intros [X1 X2]; apply X; split; [now right|assumption]). apply assoc_set_other. intros ->. apply X. split; [now left|]. now apply names_one_in.
      * rewrite K, assoc_set_keys. cbn [andb]. fold (names_one (map fst opts) (port_name p)). destruct (names_one (map fst opts) (port_name p)) eqn:T; cbn [negb].
        -- reflexivity.
        -- cbn [map]. rewrite <- app_assoc. cbn [app]. do 3 f_equal. apply filter_ext_in. intros q I. f_equal. f_equal. unfold names_one. rewrite existsb_app. cbn [existsb].
           destruct (String.eqb_spec (port_name q) (port_name p)) as [X|X]; [|now rewrite !orb_false_r]. exfalso. apply N1. rewrite <- X. now apply in_map.
    + destruct (IH opts V2 N2) as (opts' & E & A & B & K). exists opts'. splits; [exact E| | |].
      * intros q [<-|I] Iq; [|auto]. apply names_one_in in Iq. congruence.
      * intros k X. apply B. intros [X1 X2]. apply X. split; [now right|assumption].
      * exact K.
Qed.
Lemma selected_means w s n : In n (map port_name (ow_ports w)) -> (In n (selected w s) <-> means_port s n).
Proof.
  intros I. destruct s as [m|l]; cbn [selected means_port]; [|reflexivity]. destruct (String.eqb_spec m "*") as [->|X]; [tauto|]. cbn. split; [intros [->|[]]; auto|]. intros [->| ->]; [congruence|auto].
Qed.
Lemma selected_known w s : forallb (fun n => names_one (map port_name (ow_ports w)) n) (selected w s) = true <-> all_known w s.
Proof.
  rewrite forallb_forall. destruct s as [m|l]; cbn [selected all_known].
  - destruct (String.eqb_spec m "*") as [->|X].
    + split; [auto|]. intros _ x I. now apply names_one_in.
    + split; [intros H; right; apply names_one_in, H; now left|]. intros [->|I] x [<-|[]]; [congruence|now apply names_one_in].
  - split; intros H n I; [apply names_one_in|apply names_one_in]; auto.
Qed.
Lemma options_effect w pl self b s a b' res : stands_at w pl self -> NoDup (map port_name (ow_ports w)) -> Forall valid_name (map port_name (ow_ports w)) ->
  create_port_api_options (Some w) b s a = (b', res) ->
  let old := SwcInternalBehavior_port_api_options b in let new := SwcInternalBehavior_port_api_options b' in
  b' = set_options b new /\
  (forall p, In p (ow_ports w) -> means_port s (port_name p) -> assoc (port_name p) new = Some (option_for self p a)) /\
  (forall k, ~ (In k (map port_name (ow_ports w)) /\ means_port s k) -> assoc k new = assoc k old) /\
  (exists added, map fst new = map fst old ++ added /\ NoDup added /\ StronglySorted before added /\
     forall n, In n added <-> In n (map port_name (ow_ports w)) /\ means_port s n /\ ~ In n (map fst old)) /\
  (all_known w s -> res = Ok tt) /\ (~ all_known w s -> res = Err ValueError).
Proof.
  intros P N V. unfold create_port_api_options. cbn [get_valid_parent].
  pose proof (sort_ports_perm (ow_ports w)) as Pm. pose proof (Permutation_map port_name Pm) as Pn.
  destruct (add_options_effect w pl self (selected w s) a P (sort_ports (ow_ports w)) (SwcInternalBehavior_port_api_options b)) as (l & -> & A & B & K).
  { eapply Permutation_Forall; [|exact V]. now apply Permutation_sym. }
  { eapply Permutation_NoDup; [|exact N]. now apply Permutation_sym. }
  cbn [bind]. intros E. injection E as <- <-. cbn [set_options SwcInternalBehavior_port_api_options]. splits.
  - reflexivity.
  - intros p I M. apply A; [eapply Permutation_in; [apply Permutation_sym; exact Pm|assumption]|]. apply selected_means; [now apply in_map|assumption].
  - intros k X. apply B. intros [X1 X2]. apply X. assert (I : In k (map port_name (ow_ports w))) by (eapply Permutation_in; eassumption). split; [assumption|]. now apply selected_means in X2.
  - eexists. split; [exact K|]. splits.
    + apply NoDup_map_filter. eapply Permutation_NoDup; [|exact N]. now apply Permutation_sym.
    + apply StronglySorted_names, StronglySorted_filter, sort_ports_sorted.
    + intros n. rewrite in_map_iff. split.
      * intros (p & <- & I). apply filter_In in I as [I X]. apply andb_prop in X as [X1 X2]. apply names_one_in in X1. apply negb_true_iff in X2.
        assert (J : In (port_name p) (map port_name (ow_ports w))) by (apply in_map; eapply Permutation_in; eassumption). splits; [assumption|now apply selected_means in X1|].
        intros Z. apply names_one_in in Z. congruence.
      * intros (I & M & Z). apply in_map_iff in I as (p & <- & I). exists p. split; [reflexivity|]. apply filter_In. split; [eapply Permutation_in; [apply Permutation_sym; exact Pm|assumption]|].
        apply andb_true_intro. split; [apply names_one_in, selected_means; [now apply in_map|assumption]|]. apply negb_true_iff. destruct (names_one _ _) eqn:Y; [|reflexivity]. apply names_one_in in Y. contradiction.
  - intros X. apply selected_known in X. now rewrite X.
  - intros X. destruct (forallb _ _) eqn:Y; [|reflexivity]. apply selected_known in Y. contradiction.
Qed.
Lemma NoDup_app_intro {A} (a b : list A) : NoDup a -> NoDup b -> (forall x, In x a -> In x b -> False) -> NoDup (a ++ b).
Proof.
  induction a as [|x a IH]; cbn; intros Na Nb D; [assumption|]. inversion Na. subst. constructor; [|eauto]. intros I. apply in_app_iff in I as [I|I]; [contradiction|eauto].
Qed.
Lemma options_keys w pl self b s a : stands_at w pl self -> NoDup (map port_name (ow_ports w)) -> Forall valid_name (map port_name (ow_ports w)) ->
  NoDup (map fst (SwcInternalBehavior_port_api_options b)) -> NoDup (map fst (SwcInternalBehavior_port_api_options (fst (create_port_api_options (Some w) b s a)))).
Proof.
  intros P N V D. destruct (create_port_api_options (Some w) b s a) as [b' res] eqn:E. cbn [fst]. destruct (options_effect w pl self b s a b' res P N V E) as (_ & _ & _ & (added & -> & Na & _ & I) & _).
  apply NoDup_app_intro; [assumption|assumption|]. intros x X Y. apply I in Y. tauto.
Qed.

(** ** All elements of a tree, for examples *)
Fixpoint package_elements (p : package) : list ARElement := match p with mkPackage _ es ps => es ++ flat_map package_elements ps end.
Lemma inside_elements p ns f : inside p ns f -> forall e, f = FElement e -> In e (package_elements p).
Proof.
  induction 1 as [i es ps e I|i es ps e f I M|i es ps q I|i es ps q ns f I H IH]; intros e' E; cbn [package_elements].
  - inversion E. subst. apply in_app_iff. now left.
  - subst f. exfalso. destruct e; cbn in M; rewrite ?in_app_iff in M; repeat match goal with H : _ \/ _ |- _ => destruct H end; try contradiction; apply in_map_iff in M as (x & X & _) || apply in_map_iff in H as (x & X & _); discriminate.
  - discriminate.
  - apply in_app_iff. right. apply in_flat_map. eauto.
Qed.
Lemma at_elements ws ns e : at_path ws ns (FElement e) -> In e (flat_map package_elements ws).
Proof. intros H. inversion H. subst. apply in_flat_map. eauto using inside_elements. Qed.
