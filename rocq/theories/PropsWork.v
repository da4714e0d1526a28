(** Property theorems about namespaces (C13), templates (C14) and settings (C38).
    Vocabulary: SWork.v, SHeap.v.  The model of the code: MWork.v, MHeap.v. *)
From Verif Require Import Base PBase MHeap SHeap PHeap MWork SWork PWork PTmpl.

(** ** C13 *)

(** The reference of a role, for a namespace whose base is an absolute reference: the path
    reached from the base by following the components of the relative path given by the last
    entry of the map that denotes the role. *)
Theorem C13_role_reference :
  forall nss name pm base nss' pre k rel post ro bs q,
    create_namespace nss name pm base = Ok nss' ->
    pm = pre ++ (k, rel) :: post -> denotes k ro ->
    (forall k', In k' (map fst post) -> ~ denotes k' ro) ->
    match base with Some b => b | None => ("/" ++ name)%string end = abs bs ->
    (forall n, In n bs -> plain n) ->
    starts_slash rel = false -> follow bs (split_at slash rel) q ->
    role_ref nss' name ro = Ok (abs q).
Proof. exact role_ref_abs. Qed.

(** [follow] gives exactly one answer for every relative path, so the theorem above covers
    every relative path. *)
Theorem C13_follow_is_a_function :
  forall bs rel, (forall n, In n bs -> plain n) ->
    exists q, follow bs (split_at slash rel) q /\
      forall q', follow bs (split_at slash rel) q' -> q' = q.
Proof.
  intros bs rel V. destruct (follow_total bs (split_at slash rel)) as [q F].
  { intros c. apply split_parts_no. }
  exists q. split; [exact F|]. intros q' F'. eapply follow_fun; eauto. intros n I. apply V, I.
Qed.

(** Relative paths made of ordinary names are appended to the base. *)
Theorem C13_plain_relative_path :
  forall nss name pm base nss' pre k post ro bs rs,
    create_namespace nss name pm base = Ok nss' ->
    pm = pre ++ (k, join "/" rs) :: post -> denotes k ro ->
    (forall k', In k' (map fst post) -> ~ denotes k' ro) ->
    match base with Some b => b | None => ("/" ++ name)%string end = abs bs ->
    (forall n, In n (bs ++ rs) -> plain n) -> rs <> [] ->
    role_ref nss' name ro = Ok (abs (bs ++ rs)).
Proof.
  intros nss name pm base nss' pre k post ro bs rs C P D N B V NE.
  eapply role_ref_abs; eauto.
  - intros n I. apply V, in_or_app. auto.
  - destruct rs as [|r rs]; [contradiction|].
    assert (X : plain r) by (apply V, in_or_app; right; now left). destruct X as ([X1 X2] & _).
    destruct rs; [now apply starts_slash_mem|]. rewrite join_cons.
    rewrite starts_slash_app by exact X1. now apply starts_slash_mem.
  - change "/"%string with (String slash ""). rewrite split_join; [|exact NE|].
    + apply follow_plain_list. intros c I. apply V, in_or_app. auto.
    + intros c I. apply (V c), in_or_app. auto.
Qed.

(** A path starting with '/' in the package map is used as it is, whatever the base is. *)
Theorem C13_rooted_path :
  forall nss name pm base nss' pre k post ro rel q,
    create_namespace nss name pm base = Ok nss' ->
    pm = pre ++ (k, ("/" ++ rel)%string) :: post -> denotes k ro ->
    (forall k', In k' (map fst post) -> ~ denotes k' ro) ->
    starts_slash rel = false -> follow [] (split_at slash rel) q ->
    role_ref nss' name ro = Ok (abs q).
Proof. exact role_ref_rooted. Qed.

(** Roles that are not in the map, namespaces that do not exist, unknown role names. *)
Theorem C13_errors :
  (forall nss name pm base nss' ro, create_namespace nss name pm base = Ok nss' ->
     (forall k, In k (map fst pm) -> ~ denotes k ro) -> role_ref nss' name ro = Err ValueError) /\
  (forall nss name ro, (forall ns, ~ In (name, ns) nss) -> role_ref nss name ro = Err KeyError) /\
  (forall nss name pm base, (exists k, In k (map fst pm) /\ forall ro, ~ denotes k ro) ->
     create_namespace nss name pm base = Err KeyError) /\
  (forall nss name pm base, (forall k, In k (map fst pm) -> exists ro, denotes k ro) ->
     exists nss', create_namespace nss name pm base = Ok nss').
Proof.
  split; [exact role_ref_missing|]. split; [|split].
  - intros nss name ro N. unfold role_ref. destruct (assoc name nss) as [ns|] eqn:A; [|reflexivity].
    apply assoc_in in A. now apply N in A.
  - intros nss name pm base (k & I & N). unfold create_namespace, mk_namespace. cbv zeta.
    fold (base_of name base). destruct (fill_map (base_of name base) [] pm) as [m|e] eqn:F.
    + apply in_map_iff in I as (kr & <- & I). destruct (fill_map_ok _ _ _ _ F kr I) as (ro & D).
      now apply N in D.
    + cbn [bind]. apply fill_map_err in F. now subst.
  - intros nss name pm base A. unfold create_namespace, mk_namespace. cbv zeta.
    fold (base_of name base). destruct (fill_map_total (base_of name base) pm []) as (m & F).
    + intros kr I. apply A. now apply in_map.
    + rewrite F. cbn [bind]. eauto.
Qed.

(** Creating a namespace leaves the other ones alone. *)
Theorem C13_other_namespaces_unchanged :
  forall nss name pm base nss' other ro,
    create_namespace nss name pm base = Ok nss' -> other <> name ->
    role_ref nss' other ro = role_ref nss other ro.
Proof. exact role_ref_other. Qed.

(** With a base that is not absolute the property fails: the base is joined twice. *)
Theorem C13_relative_base_refuted :
  exists nss', create_namespace [] "N" [("Unit", "Units")] (Some "Pkg") = Ok nss' /\
    role_ref nss' "N" (REnum UNIT) = Ok "Pkg/Pkg/Units".
Proof. eexists. split; vm_compute; reflexivity. Qed.

Example C13_case :
  exists nss', create_namespace [] "Default" [("BaseType", "Platform/BaseTypes"); ("!X", "../Other"); ("BASE_TYPE", "BT")]
                 (Some "/Root/Sub") = Ok nss' /\
    role_ref nss' "Default" (REnum BASE_TYPE) = Ok "/Root/Sub/BT" /\
    role_ref nss' "Default" (RStr "X") = Ok "/Root/Other" /\
    role_ref nss' "Default" (REnum UNIT) = Err ValueError /\
    follow ["Root"; "Sub"] (split_at slash "../Other") ["Root"; "Other"].
Proof.
  eexists. repeat split; try (vm_compute; reflexivity).
  change (split_at slash "../Other") with [".."; "Other"].
  apply (fo_up ["Root"] "Sub"). apply fo_down; [|apply fo_done].
  repeat split; discriminate.
Qed.

(** ** C14 *)

(** All histories: [before] are the applications made so far, starting from a state [h0] of the
    workspace [c]; [t] is applied; then the templates [later] are applied (failing
    applications included).

    After a successful application the element is reachable at the template's reference, then
    and later on; applying the template again returns it and changes nothing (neither the
    objects nor the record of create calls). *)
Theorem C14_applied_element_is_found_and_kept :
  forall nss c h0 before h log t h' log' e later h2 log2,
    reachable h0 -> has_kind KColl h0 c ->
    (forall x, In x before -> well_behaved x) -> well_behaved t -> (forall x, In x later -> well_behaved x) ->
    apply_all nss c before (h0, []) = (h, log) ->
    apply nss c t (h, log) = ((h', log'), Ok e) ->
    apply_all nss c later (h', log') = (h2, log2) ->
    (exists r, tm_ref nss t = Ok r /\ coll_find h' c r = Ok (Some e) /\ coll_find h2 c r = Ok (Some e)) /\
    apply nss c t (h2, log2) = ((h2, log2), Ok e).
Proof.
  intros nss c h0 before h log t h' log' e later h2 log2 R KC WB W WL B E L.
  destruct (apply_all_main nss c h0 before WB h0 [] KC (J_start nss c h0 R)) as (J0 & X0).
  rewrite B in *. cbn [fst] in X0.
  destruct (apply_main nss c h0 t W h log _ _ (extends_kind _ _ _ _ X0 KC) J0 E) as (J1 & X1 & _ & D1).
  cbn [fst] in *. destruct (D1 e eq_refl) as (Dn & rf & T & F).
  destruct (apply_all_main nss c h0 later WL h' log') as (J2 & X2).
  { exact (extends_kind _ _ _ _ X1 (extends_kind _ _ _ _ X0 KC)). }
  { exact J1. }
  rewrite L in *. cbn [fst] in *. split.
  - exists rf. split; [exact T|]. split; [exact F|]. eapply coll_find_ext; [|exact X2|exact F].
    apply inv_reachable, J1.
  - now apply Dn.
Qed.

(** Whenever the create method of a template was called (also if it then failed), all its
    dependencies existed and its own element did not. *)
Theorem C14_dependencies_exist_before_create :
  forall nss c h0 ts h log x,
    reachable h0 -> has_kind KColl h0 c -> (forall t, In t ts -> well_behaved t) ->
    apply_all nss c ts (h0, []) = (h, log) -> In x log ->
    (forall d, In d (tm_depends (cr_t x)) -> present nss c (cr_before x) d) /\
    exists r, tm_ref nss (cr_t x) = Ok r /\ coll_find (cr_before x) c r = Ok None.
Proof.
  intros nss c h0 ts h log x R KC W E I.
  destruct (apply_all_main nss c h0 ts W h0 [] KC (J_start nss c h0 R)) as (J0 & X0).
  rewrite E in *. destruct J0 as (_ & _ & L & _). destruct (L x I) as (_ & D & N & _). auto.
Qed.

(** The same element is never created twice: two recorded successful creations have
    different references. *)
Theorem C14_created_at_most_once :
  forall nss c h0 ts h log a x b y d,
    reachable h0 -> has_kind KColl h0 c -> (forall t, In t ts -> well_behaved t) ->
    apply_all nss c ts (h0, []) = (h, log) ->
    log = a ++ x :: b ++ y :: d -> cr_ok x = true ->
    tm_ref nss (cr_t x) <> tm_ref nss (cr_t y).
Proof.
  intros nss c h0 ts h log a x b y d R KC W E -> K Q.
  destruct (apply_all_main nss c h0 ts W h0 [] KC (J_start nss c h0 R)) as (J0 & X0).
  rewrite E in *. destruct J0 as (_ & _ & L & O).
  assert (P : present nss c (cr_before y) (cr_t x)).
  { clear - O K. induction a as [|z a IH]; cbn [app] in O.
    - inversion O as [|? ? F O']; subst. rewrite Forall_forall in F. apply (F y); auto.
      apply in_or_app. right. now left.
    - inversion O; subst. auto. }
  destruct P as (r & e & T & F).
  destruct (L y) as (_ & _ & (r' & T' & F') & _).
  { apply in_or_app. right. right. apply in_or_app. right. now left. }
  rewrite T, T' in Q. injection Q as <-. congruence.
Qed.

(** Only the template and its direct and indirect dependencies are created. *)
Theorem C14_only_needed_elements_are_created :
  forall nss c h0 before h log t h' log' r,
    reachable h0 -> has_kind KColl h0 c ->
    (forall x, In x before -> well_behaved x) -> well_behaved t ->
    apply_all nss c before (h0, []) = (h, log) ->
    apply nss c t (h, log) = ((h', log'), r) ->
    exists new, log' = log ++ new /\ forall x, In x new -> part_of (cr_t x) t.
Proof.
  intros nss c h0 before h log t h' log' r R KC WB W B E.
  destruct (apply_all_main nss c h0 before WB h0 [] KC (J_start nss c h0 R)) as (J0 & X0).
  rewrite B in *. cbn [fst] in X0.
  destruct (apply_main nss c h0 t W h log _ _ (extends_kind _ _ _ _ X0 KC) J0 E) as (_ & _ & P & _).
  exact P.
Qed.

(** A create method as users write it: construct an element and return it. *)
Definition simple_create (n : string) : heap -> nat -> list (string * nat) -> heap * result (option nat) :=
  fun h p dm => let (h', i) := alloc h KElem n in (h', Ok (Some i)).
Definition simple (n ns : string) (ro : role) (deps : list tmpl) : tmpl :=
  Tmpl n ns ro (Some deps) true (simple_create n).

Lemma extends_alloc h k n : extends h (h ++ [new_obj k n]).
Proof.
  intros i o E. exists o. split; [rewrite nth_error_app1; auto; apply nth_error_Some; congruence|].
  repeat split; exists []; now rewrite app_nil_r.
Qed.

Lemma simple_contract n ns ro deps : contract (simple n ns ro deps).
Proof.
  intros h p dm h' r R K E. cbn in E. injection E as <- <-.
  split; [exact (reachable_step h (ONew KElem n) R)|]. split; [apply extends_alloc|].
  intros e [= <-]. cbn. split.
  - exists (new_obj KElem n). split; [|reflexivity].
    rewrite nth_error_app2, Nat.sub_diag by auto. reflexivity.
  - now apply nth_error_None.
Qed.

(** Non-vacuity: a diamond of dependencies over two packages. *)
Definition demo_nss : list (string * namespace) :=
  match create_namespace [] "N" [("BaseType", "Types/Base"); ("ImplementationDataType", "Types")] None with
  | Ok x => x | Err _ => [] end.
Definition t_base := simple "uint8_base" "N" (REnum BASE_TYPE) [].
Definition t_a := simple "A_T" "N" (REnum IMPLEMENTATION_DATA_TYPE) [t_base].
Definition t_b := simple "B_T" "N" (REnum IMPLEMENTATION_DATA_TYPE) [t_base].
Definition t_top := simple "Top_T" "N" (REnum IMPLEMENTATION_DATA_TYPE) [t_a; t_b].

Lemma t_top_well_behaved : well_behaved t_top.
Proof.
  assert (V : forall t, In t [t_base; t_a; t_b; t_top] -> contract t /\ valid_name (tm_name t)).
  { intros t [<-|[<-|[<-|[<-|[]]]]]; (split; [apply simple_contract|split; [discriminate|reflexivity]]). }
  intros d P. apply V.
  assert (PB : forall d, part_of d t_base -> d = t_base).
  { intros x P'. inversion P' as [|? y I]; subst; [reflexivity|destruct I]. }
  assert (PA : forall d, part_of d t_a -> d = t_base \/ d = t_a).
  { intros x P'. inversion P' as [|? y I Q]; subst; [auto|]. destruct I as [<-|[]]. auto. }
  assert (PB' : forall d, part_of d t_b -> d = t_base \/ d = t_b).
  { intros x P'. inversion P' as [|? y I Q]; subst; [auto|]. destruct I as [<-|[]]. auto. }
  inversion P as [|? y I Q]; subst; cbn; [auto|].
  destruct I as [<-|[<-|[]]]; [destruct (PA _ Q) as [->| ->]|destruct (PB' _ Q) as [->| ->]]; auto.
Qed.

Example C14_case :
  let h0 := run [ONew KColl ""] in
  match apply demo_nss 0 t_top (h0, []) with
  | ((h', log'), Ok e) =>
      coll_find h' 0 "/N/Types/Top_T" = Ok (Some e) /\ coll_find h' 0 "/N/Types/Base/uint8_base" <> Ok None /\
      map (fun x => tm_name (cr_t x)) log' = ["uint8_base"; "A_T"; "B_T"; "Top_T"]
  | _ => False
  end.
Proof. vm_compute. repeat split; discriminate. Qed.

(** Without the contract the property fails: a template with append_to_package=False whose
    create method does not put the element into the package is created again. *)
Theorem C14_not_appended_refuted :
  exists t h0 h1 h2 log1 log2 e1 e2,
    reachable h0 /\ tm_append t = false /\
    apply demo_nss 0 t (h0, []) = ((h1, log1), Ok e1) /\
    apply demo_nss 0 t (h1, log1) = ((h2, log2), Ok e2) /\
    List.length log1 = 1 /\ List.length log2 = 2 /\ e1 <> e2 /\
    (exists r, tm_ref demo_nss t = Ok r /\ coll_find h2 0 r = Ok None).
Proof.
  exists (Tmpl "X" "N" (REnum BASE_TYPE) None false (simple_create "X")), (run [ONew KColl ""]).
  do 6 eexists. split; [eexists; reflexivity|]. split; [reflexivity|].
  split; [vm_compute; reflexivity|]. split; [vm_compute; reflexivity|].
  split; [reflexivity|]. split; [reflexivity|]. split; [discriminate|].
  eexists. split; vm_compute; reflexivity.
Qed.

(** ** C38 *)

(** [n] is given the value [v] last in the list of assignments. *)
Definition last_given (l : list (string * string)) (n v : string) : Prop :=
  exists pre post, l = pre ++ (n, v) :: post /\ ~ In n (map fst post).

(** An update with names of settings (and no method hidden) succeeds, sets exactly the given
    settings to the values given last, and leaves the other ones as they were. *)
Theorem C38_update :
  forall s l, assoc "set_value" s = None -> (forall nv, In nv l -> In (fst nv) setting_names) ->
    exists s', update s l = (s', Ok tt) /\ assoc "set_value" s' = None /\
      (forall n v, last_given l n v -> get_value s' n = Ok v) /\
      (forall n, ~ In n (map fst l) -> get_value s' n = get_value s n).
Proof.
  intros s l. revert s. induction l as [|[n v] l IH]; intros s S V.
  - exists s. split; [reflexivity|]. split; [exact S|]. split.
    + intros n v (pre & post & E & _). destruct pre; discriminate.
    + auto.
  - assert (Vn : In n setting_names) by (apply (V (n, v)); now left).
    assert (Ns : "set_value" <> n).
    { intros <-. cbn in Vn. repeat (destruct Vn as [Vn|Vn]; [discriminate|]). destruct Vn. }
    destruct (IH (assoc_set n v s)) as (s' & U & S' & A & B).
    + rewrite assoc_set_other; auto.
    + intros; apply V; now right.
    + exists s'. cbn [update]. rewrite S. unfold set_value. rewrite (known_setting n Vn).
      split; [exact U|]. split; [exact S'|]. split.
      * intros n0 v0 (pre & post & E & N). destruct pre as [|x pre].
        -- injection E as E1 E2 E3. subst n0 v0 post. rewrite B by exact N. unfold get_value. now rewrite assoc_set_same.
        -- injection E as E1 E2. apply A. exists pre, post. auto.
      * intros n0 N. cbn in N. rewrite B by tauto. unfold get_value.
        rewrite assoc_set_other by (intros ->; tauto). reflexivity.
Qed.

(** A history of updates, starting from a new settings object: every setting has the value
    given last in the whole history, or none (ValueError) if it was never given. *)
Theorem C38_history :
  forall us, (forall l nv, In l us -> In nv l -> In (fst nv) setting_names) ->
    let s := fold_left (fun s l => fst (update s l)) us [] in
    (forall n v, last_given (List.concat us) n v -> get_value s n = Ok v) /\
    (forall n, In n setting_names -> ~ In n (map fst (List.concat us)) -> get_value s n = Err ValueError).
Proof.
  intros us V. cbv zeta.
  assert (G : forall us s, assoc "set_value" s = None ->
     (forall l nv, In l us -> In nv l -> In (fst nv) setting_names) ->
     let s' := fold_left (fun s l => fst (update s l)) us s in
     (forall n v, last_given (List.concat us) n v -> get_value s' n = Ok v) /\
     (forall n, ~ In n (map fst (List.concat us)) -> get_value s' n = get_value s n)).
  { clear. induction us as [|l us IH]; intros s S V; cbn [fold_left List.concat].
    - split; [|auto]. intros n v (pre & post & E & _). destruct pre; discriminate.
    - destruct (C38_update s l S) as (s1 & U & S1 & A & B); [intros; eapply V; eauto; now left|].
      rewrite U. cbn [fst]. destruct (IH s1 S1) as (A' & B'); [intros; eapply V; eauto; now right|].
      split.
      + intros n v (pre & post & E & N).
        destruct (in_dec string_dec n (map fst (List.concat us))) as [I|I].
        * apply A'. clear - E N I. revert l E. induction pre as [|x pre IHp]; intros l E.
          -- destruct l as [|y l]; cbn in E.
             ++ exists [], post. auto.
             ++ injection E as E1 E2. exfalso. apply N. rewrite <- E2, map_app. apply in_or_app; auto.
          -- destruct l as [|y l]; cbn in E.
             ++ exists (x :: pre), post. auto.
             ++ injection E as E1 E2. apply (IHp l E2).
        * rewrite B' by exact I. apply A. clear - E I N. revert pre E.
          induction l as [|y l IHl]; intros pre E; cbn in E.
          -- exfalso. apply I. rewrite E, map_app. apply in_or_app. right. now left.
          -- destruct pre as [|x pre]; injection E as -> E.
             ++ exists [], l. split; [reflexivity|]. intros X. apply N. rewrite <- E, map_app.
                apply in_or_app; auto.
             ++ destruct (IHl pre E) as (p1 & p2 & -> & X). exists (x :: p1), p2. auto.
      + intros n N. rewrite map_app in N. rewrite B', B; auto; intros I; apply N, in_or_app; auto. }
  destruct (G us [] eq_refl V) as (A & B). split; [exact A|].
  intros n I N. rewrite B by exact N. unfold get_value. cbn [assoc].
  replace (existsb (String.eqb n) setting_names) with true; [reflexivity|].
  symmetry. apply existsb_exists. exists n. split; [exact I|apply String.eqb_refl].
Qed.

(** Unknown names are rejected. *)
Theorem C38_unknown_name :
  forall s n v, ~ In n setting_names -> ~ In n method_names ->
    set_value s n v = (s, Err KeyError) /\
    (assoc "set_value" s = None -> update s [(n, v)] = (s, Err KeyError)).
Proof.
  intros s n v A B. assert (K : known_attr n = false).
  { unfold known_attr. apply orb_false_iff. split.
    - destruct (existsb (String.eqb n) setting_names) eqn:X; [|reflexivity].
      apply existsb_exists in X as (x & I & E). apply String.eqb_eq in E as <-. contradiction.
    - destruct (existsb (String.eqb n) method_names) eqn:X; [|reflexivity].
      apply existsb_exists in X as (x & I & E). apply String.eqb_eq in E as <-. contradiction. }
  unfold set_value. rewrite K. split; [reflexivity|]. intros S. cbn [update]. rewrite S.
  unfold set_value. now rewrite K.
Qed.

(** A rejected update is not without effect: the entries before the wrong one stay. *)
Theorem C38_failed_update_changes_settings_refuted :
  exists l s', update [] l = (s', Err KeyError) /\
    get_value [] "timing_event_prefix" = Err ValueError /\ get_value s' "timing_event_prefix" = Ok "TMT_".
Proof. exists [("timing_event_prefix", "TMT_"); ("no_such", "x")]. eexists. repeat split; vm_compute; reflexivity. Qed.

(** The names of the methods are accepted as settings; once "set_value" has been given, no
    further update works. *)
Theorem C38_method_name_breaks_updates_refuted :
  forall s v n w r, exists s', set_value s "set_value" v = (s', Ok tt) /\ update s' ((n, w) :: r) = (s', Err TypeError).
Proof.
  intros. eexists. split; [reflexivity|]. cbn [update]. now rewrite assoc_set_same.
Qed.

Example C38_case :
  let us := [[("timing_event_prefix", "A"); ("init_event_prefix", "B")]; [("timing_event_prefix", "C")]] in
  let s := fold_left (fun s l => fst (update s l)) us [] in
  (forall l nv, In l us -> In nv l -> In (fst nv) setting_names) /\
  get_value s "timing_event_prefix" = Ok "C" /\ get_value s "init_event_prefix" = Ok "B" /\
  get_value s "wait_point_prefix" = Err ValueError.
Proof.
  cbv zeta. split; [|repeat split; vm_compute; reflexivity].
  intros l nv [<-|[<-|[]]]; cbn; intros I; repeat (destruct I as [<-|I]); cbn; tauto.
Qed.

Print Assumptions C13_role_reference.
Print Assumptions C13_plain_relative_path.
Print Assumptions C13_rooted_path.
Print Assumptions C13_errors.
Print Assumptions C14_applied_element_is_found_and_kept.
Print Assumptions C14_dependencies_exist_before_create.
Print Assumptions C14_created_at_most_once.
Print Assumptions C14_only_needed_elements_are_created.
Print Assumptions C38_update.
Print Assumptions C38_history.
