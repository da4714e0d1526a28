(** C74: which children of an element a reading method depends on, and which it warns about. *)
From Verif Require Import Base PBase MNum MXml MEnum MRefTab MRef MCodec MElem0 MElem1 MElemA MElemB MElemC MElem2 MElemD MElem3 MElem4 MElemE MElem5 MElemF MReport SReport PReport MLook SLook PLook PUsed.
Open Scope list_scope.
Open Scope string_scope.

Ltac splits := repeat match goal with |- _ /\ _ => split end.

(** ** Helpers *)
Lemma get_app t k l : get t (k ++ l)%list = match get t k with Some x => Some x | None => get t l end.
Proof. induction k as [|c k IH]; cbn [get List.app]; [reflexivity|]. now destruct (String.eqb t (x_tag c)). Qed.
Lemma get_some_in t k : In t (map x_tag k) -> exists x, get t k = Some x.
Proof. induction k as [|c k IH]; cbn [get map]; [intros []|]. intros [E|I]; [rewrite <- E, String.eqb_refl; now exists c|]. destruct (String.eqb t (x_tag c)); [now exists c|auto]. Qed.
Lemma get_findall t k : get t k = hd_error (findall t k).
Proof. unfold findall. induction k as [|c k IH]; cbn [get filter]; [reflexivity|]. now destruct (String.eqb t (x_tag c)). Qed.

(** ** What a method depends on *)
(** The result depends on name, attributes, text and the children asked for, and on nothing else. *)
Theorem C74_only_asked m : In m methods -> sees_only m.
Proof. pose proof all_look as H. rewrite Forall_forall in H. apply H. Qed.
(** Children of different names can be in any order, with any text between them. *)
Theorem C74_order m v tag a s k l u w : In m methods -> (forall t, findall t k = findall t l) -> m_read m v (Elem tag a s k u) = m_read m v (Elem tag a s l w).
Proof. intros I H. apply (C74_only_asked m I). split; intros t _; [rewrite !get_findall; now rewrite H|apply H]. Qed.
(** A child that is not asked for, or is not the first of its name, can be left out. *)
Theorem C74_unasked m v tag a s before c after u w : In m methods ->
  (In (Get (x_tag c)) (m_steps m v tag) -> In (x_tag c) (map x_tag before)) -> ~ In (x_tag c) (m_all m) ->
  m_read m v (Elem tag a s (before ++ c :: after) u) = m_read m v (Elem tag a s (before ++ after) w).
Proof.
  intros I G A. apply (C74_only_asked m I). split; intros t T.
  - rewrite !get_app. cbn [get]. destruct (get t before) eqn:E; [reflexivity|]. destruct (String.eqb_spec t (x_tag c)) as [X|X]; [|reflexivity].
    subst t. destruct (get_some_in _ _ (G T)) as (x & F). congruence.
  - unfold findall. rewrite !filter_app. cbn [filter]. destruct (String.eqb_spec t (x_tag c)) as [X|X]; [subst; contradiction|reflexivity].
Qed.

(** ** What a method warns about *)
Lemma printed_lines m v tag kids r : snd (run_visits (visits_of m v tag kids) r) =
  if m_reports m && r_warn r then map (warning (place_of r)) (firsts (r_observed r) (left_over (Through kids (m_steps m v tag)))) else [].
Proof.
  unfold visits_of. destruct (m_reports m); cbn [andb]; [|reflexivity]. rewrite run_visits_all. cbn [map List.concat]. rewrite app_nil_r.
  pose proof (report_all_firsts (left_over (Through kids (m_steps m v tag))) r) as H. destruct (report_all _ r) as [r' out]. now destruct H as (-> & _).
Qed.
(** A line that is printed is about a child without effect: the result is the same without all children of its name. *)
Theorem C74_truthful m v tag a s kids u w r line : In m methods -> In line (snd (run_visits (visits_of m v tag kids) r)) ->
  exists place c, In c kids /\ line = warning place c /\
    m_read m v (Elem tag a s (map l_elem kids) u) = m_read m v (Elem tag a s (map l_elem (others (l_tag c) kids)) w).
Proof.
  intros I. rewrite printed_lines. destruct (m_reports m && r_warn r); [|intros []]. intros L. apply in_map_iff in L as (c & <- & C). exists (place_of r), c.
  destruct (firsts_spec (r_observed r) (left_over (Through kids (m_steps m v tag)))) as (_ & A & _). destruct (A c C) as (_ & x & y & E & _).
  assert (P : passed_over (Through kids (m_steps m v tag)) c) by (apply left_over_iff; rewrite E; apply in_app_iff; right; now left).
  cbn in P. destruct P as (b & f & K & _ & N). splits; [rewrite K; apply in_app_iff; right; now left|reflexivity|].
  assert (F : forall t, t <> l_tag c -> findall t (map l_elem kids) = findall t (map l_elem (others (l_tag c) kids))).
  { intros t T. clear -T. unfold findall, others. induction kids as [|d kids IH]; cbn [map filter]; [reflexivity|]. change (x_tag (l_elem d)) with (l_tag d).
    destruct (String.eqb_spec (l_tag c) (l_tag d)) as [X|X]; cbn [negb]; [|cbn [map filter]; change (x_tag (l_elem d)) with (l_tag d); now rewrite IH].
    destruct (String.eqb_spec t (l_tag d)) as [Y|Y]; [congruence|exact IH]. }
  apply (C74_only_asked m I). split; intros t T.
  - rewrite !get_findall. rewrite F; [reflexivity|]. intros ->. apply N. now left.
  - apply F. intros ->. apply N. right. revert I T. clear. intros I T.
    assert (G : Forall (fun m => forall v tag t, In t (m_all m) -> In (Skip t) (m_steps m v tag)) methods).
    { unfold methods. repeat (apply Forall_cons; [intros v' tag' t' H; cbn [m_all m_steps] in *; first [destruct H; fail | cbn in H |- *; intuition congruence]|]). apply Forall_nil. }
    rewrite Forall_forall in G. now apply G.
Qed.
(** Every child is read, or has the name of one before it, or is of a name the method skips on purpose, or is reported,
    unless a warning about its name has been printed before: for all methods that report at all. *)
Theorem C74_accounted m v tag kids r c : In m methods -> m_reports m = true -> r_warn r = true -> In c kids ->
  is_read m v tag kids c \/ is_repeated kids c \/ In (Skip (l_tag c)) (m_steps m v tag) \/ In (l_tag c) (r_observed r) \/
  exists place, In (warning place c) (snd (run_visits (visits_of m v tag kids) r)).
Proof.
  intros I R W C. apply in_split in C as (b & f & K).
  destruct (in_dec string_dec (l_tag c) (map l_tag b)) as [B|B]; [right; left; now exists b, f|].
  destruct (in_dec string_dec (l_tag c) (r_observed r)) as [O|O]; [auto|].
  assert (D : forall x y : access, {x = y} + {x <> y}) by (decide equality; apply string_dec).
  destruct (in_dec D (Get (l_tag c)) (m_steps m v tag)) as [G|G]; [left; left; split; [exact G|now exists b, f]|].
  destruct (in_dec D (Skip (l_tag c)) (m_steps m v tag)) as [S|S]; [auto|].
  do 4 right. exists (place_of r). rewrite printed_lines, R, W. cbn [andb].
  assert (P : passed_over (Through kids (m_steps m v tag)) c) by (exists b, f; splits; [exact K|exact B|intros [X|X]; contradiction]).
  destruct (firsts_spec (r_observed r) (left_over (Through kids (m_steps m v tag)))) as (_ & A & F).
  pose proof (F c (proj2 (left_over_iff _ _) P) O) as T. apply in_map_iff in T as (d & E & Y). destruct (A d Y) as (_ & x & y & Z & _).
  assert (Q : passed_over (Through kids (m_steps m v tag)) d) by (apply left_over_iff; rewrite Z; apply in_app_iff; right; now left).
  apply in_map_iff. exists d. split; [|exact Y].
  cbn in P, Q. destruct P as (b1 & a1 & E1 & N1 & _), Q as (b2 & a2 & E2 & N2 & _). rewrite E1 in E2. rewrite E in N2.
  assert (c = d); [|now subst].
  clear -E E2 N1 N2. revert b2 E2 N2. induction b1 as [|p b1 IH]; intros [|q b2] X N2; cbn in X; injection X as X1 X2; subst; auto.
  - exfalso. apply N2. now left.
  - exfalso. apply N1. left. symmetry. symmetry. exact E.
  - apply (IH (fun H => N1 (or_intror H)) b2 X2 (fun H => N2 (or_intror H))).
Qed.
(** The methods that never warn *)
Theorem C74_silent : map m_name (filter (fun m => negb (m_reports m)) methods) =
  ["_read_admin_data"; "_read_data_constraint_rule"; "_read_internal_constraint"; "_read_physical_constraint"; "_read_scale_constraint"; "_read_sw_data_def_props";
   "_read_data_type_map"; "_read_mode_error_behavior"; "_read_invalidation_policy"; "_read_p_mode_group_in_atomic_swc_instance_ref"; "_read_r_mode_group_in_atomic_swc_instance_ref";
   "_read_external_triggering_point_ident"; "_read_mode_access_point_ident"; "_read_exclusive_area"].
Proof. reflexivity. Qed.

(** ** The names asked for are exactly those that make a difference *)
Lemma use_all_of : Forall (fun m => forall v tag t, In t (m_all m) -> matters m v tag t) methods.
Proof.
  unfold methods. repeat (apply Forall_cons; [intros v tag t H; cbn [m_all] in H; first [destruct H; fail | destruct H as [<-|[]];
    apply (matters_by _ _ _ [] (Elem "CONTEXT-DATA-PROTOTYPE-REF" [] "?" [] [])); cbn [m_read]; intros E; vm_compute in E; discriminate E]|]). apply Forall_nil.
Qed.
(** One call of get has no use: _read_parameter_in_atomic_swc_type_instance_ref asks for MODE-GROUP-IREF and forgets it. *)
Theorem C74_exact m v tag t : In m methods -> m_name m <> "_read_parameter_in_atomic_swc_type_instance_ref" \/ t <> "MODE-GROUP-IREF" ->
  (matters m v tag t <-> In (Get t) (m_steps m v tag) \/ In t (m_all m)).
Proof.
  intros I N. split.
  - intros (k & l & S & D). destruct (in_dec string_dec t (m_all m)) as [A|A]; [now right|]. left.
    assert (X : forall x y : access, {x = y} + {x <> y}) by (decide equality; apply string_dec).
    destruct (in_dec X (Get t) (m_steps m v tag)) as [G|G]; [exact G|]. destruct D. apply (C74_only_asked m I). split; intros u U.
    + rewrite !get_findall. rewrite S; [reflexivity|]. intros ->. contradiction.
    + apply S. intros ->. contradiction.
  - intros [G|A].
    + pose proof all_use as H. rewrite Forall_forall in H. exact (H m I v tag t G N).
    + pose proof use_all_of as H. rewrite Forall_forall in H. exact (H m I v tag t A).
Qed.

(** ** What does not hold *)
(** A child that is not read is reported.  Not so for that one: *)
Theorem C74_forgotten_refuted : ~ (forall m v tag kids r c, In m methods -> m_reports m = true -> r_warn r = true -> r_observed r = [] -> kids = [c] ->
  ~ matters m v tag (l_tag c) -> ~ In (Skip (l_tag c)) (m_steps m v tag) -> exists place, In (warning place c) (snd (run_visits (visits_of m v tag kids) r))).
Proof.
  intros H. pose (c := mkLocated (Elem "MODE-GROUP-IREF" [] "" [] []) 7).
  destruct (H method_read_parameter_in_atomic_swc_type_instance_ref 51%N "AUTOSAR-PARAMETER-IREF" [c] (new_reader true false) c) as (p & I); try reflexivity.
  - unfold methods. cbn [In]. tauto.
  - intros (k & l & S & D). apply D. cbn [m_read method_read_parameter_in_atomic_swc_type_instance_ref]. unfold read_parameter_in_atomic_swc_type_instance_ref, child.
    cbn [x_kids]. rewrite !get_findall. rewrite !S by discriminate. reflexivity.
  - vm_compute. intuition congruence.
  - exact I.
Qed.
(** Nor for a child of a method that never warns: an unknown child of a scale constraint is lost without a word. *)
Theorem C74_lost_refuted : ~ (forall m v tag kids r c, In m methods -> r_warn r = true -> r_observed r = [] -> kids = [c] ->
  ~ asked_for (m_steps m v tag) (l_tag c) -> exists place, In (warning place c) (snd (run_visits (visits_of m v tag kids) r))).
Proof.
  intros H. pose (c := mkLocated (Elem "UNIT-REF" [] "" [] []) 7).
  destruct (H method_read_scale_constraint 51%N "SCALE-CONSTR" [c] (new_reader true false) c) as (p & I); try reflexivity.
  - unfold methods. cbn [In]. tauto.
  - intros [A|A]; vm_compute in A; intuition congruence.
  - exact I.
Qed.

(** ** Examples *)
Definition at_line (tag text : string) (line : Z) : located := mkLocated (Elem tag [] text [] []) line.
(** A unit with a child it does not know, one that is repeated and another it reads *)
Example C74_example :
  let kids := [at_line "SHORT-NAME" "Volt" 3; at_line "DISPLAY-NAME" "V" 4; at_line "FACTOR" "2" 5; at_line "DISPLAY-NAME" "mV" 6] in
  m_read method_read_unit 51%N (Elem "UNIT" [] "" (map l_elem kids) []) = m_read method_read_unit 51%N (Elem "UNIT" [] "" (map l_elem [at_line "DISPLAY-NAME" "V" 1; at_line "SHORT-NAME" "Volt" 1]) []) /\
  snd (run_visits (visits_of method_read_unit 51%N "UNIT" kids) (new_reader true false)) = ["Unprocessed element <FACTOR>"] /\
  is_read method_read_unit 51%N "UNIT" kids (at_line "DISPLAY-NAME" "V" 4) /\ is_repeated kids (at_line "DISPLAY-NAME" "mV" 6).
Proof.
  cbv zeta. splits; try (vm_compute; reflexivity).
  - left. split; [vm_compute; tauto|]. exists [at_line "SHORT-NAME" "Volt" 3], [at_line "FACTOR" "2" 5; at_line "DISPLAY-NAME" "mV" 6]. split; [reflexivity|]. vm_compute. intuition congruence.
  - exists [at_line "SHORT-NAME" "Volt" 3; at_line "DISPLAY-NAME" "V" 4; at_line "FACTOR" "2" 5], []. split; [reflexivity|]. vm_compute. tauto.
Qed.
Example C74_example_reads : exists e, m_read method_read_unit 51%N (Elem "UNIT" [] "" (map l_elem [at_line "SHORT-NAME" "Volt" 3; at_line "DISPLAY-NAME" "V" 4]) []) = Ok e.
Proof. eexists. vm_compute. reflexivity. Qed.
Example C74_example_count : List.length methods = 131%nat /\ NoDup (map m_name methods).
Proof. split; [reflexivity|]. assert (H : nodup string_dec (map m_name methods) = map m_name methods) by (vm_compute; reflexivity). rewrite <- H. apply NoDup_nodup. Qed.

Print Assumptions C74_only_asked.
Print Assumptions C74_order.
Print Assumptions C74_unasked.
Print Assumptions C74_truthful.
Print Assumptions C74_accounted.
Print Assumptions C74_silent.
Print Assumptions C74_exact.
Print Assumptions C74_forgotten_refuted.
Print Assumptions C74_lost_refuted.
