(** C73: elements that the reader does not process are reported, each name once. *)
From Verif Require Import Base PBase MNum MXml MReport SReport PReport.
Open Scope list_scope.
Open Scope string_scope.
Local Ltac splits := repeat match goal with |- _ /\ _ => split end.

(** ** Looking up children *)
(** Whatever was looked up or skipped before, looking up a name gives the first child of that name. *)
Theorem C73_get kids steps : map (option_map l_elem) (fst (accesses steps (new_child_map kids))) =
  List.concat (map (fun a => match a with Get t => [get t (map l_elem kids)] | Skip _ => [] end) steps).
Proof.
  rewrite accesses_answers. unfold answers. rewrite concat_map, map_map. f_equal. apply map_ext. intros [t|t]; [|reflexivity]. cbn [map]. f_equal.
  unfold new_child_map. rewrite fill_elem. cbn [elem_of assoc option_map]. induction kids as [|c kids IH]; cbn [map first_of get]; [reflexivity|]. unfold l_tag at 1. now destruct (String.eqb t (x_tag (l_elem c))).
Qed.

(** ** Warnings *)
Lemma call_lines l r : let '(r', out) := run_visits l r in
  out = (if r_warn r then map (warning (place_of r)) (firsts (r_observed r) (List.concat (map left_over l))) else []) /\
  r_path r' = r_path r /\ r_base r' = r_base r /\ r_warn r' = r_warn r /\ r_full r' = r_full r.
Proof. rewrite run_visits_all. apply report_all_firsts. Qed.
(** read_file prints one line for every name that was passed over, with the line of its first occurrence and
    with the path or the last part of it. *)
Theorem C73_file path l r : r_warn r = true -> exists cs place, warned_right l cs /\
  snd (run_call (ReadFile path true l) r) = map (warning (Some place)) cs /\ (if r_full r then place = path else last_part path place).
Proof.
  intros W. cbn [run_call]. pose proof (call_lines l (mkReader (Some path) (Some (base_name path)) (r_warn r) (r_full r) [])) as H.
  destruct (run_visits l _) as [r' out]. destruct H as (-> & _). cbn [r_warn r_observed snd] in *. rewrite W. exists (firsts [] (List.concat (map left_over l))). unfold place_of. cbn.
  exists (if r_full r then path else base_name path). split; [apply firsts_right|]. split; [reflexivity|]. destruct (r_full r); [reflexivity|apply base_name_last].
Qed.
(** read_str does so with an empty name. *)
Theorem C73_string l r : r_warn r = true -> exists cs, warned_right l cs /\ snd (run_call (ReadStr true l) r) = map (warning (Some "")) cs.
Proof.
  intros W. cbn [run_call]. pose proof (call_lines l (mkReader (Some "") (Some "") (r_warn r) (r_full r) [])) as H.
  destruct (run_visits l _) as [r' out]. destruct H as (-> & _). cbn [r_warn r_observed snd] in *. rewrite W. exists (firsts [] (List.concat (map left_over l))). split; [apply firsts_right|].
  unfold place_of. cbn. now destruct (r_full r).
Qed.
(** read_str_elem of a new reader names no file. *)
Theorem C73_element full l : exists cs, warned_right l cs /\ snd (run_call (ReadStrElem true l) (new_reader true full)) = map (warning None) cs.
Proof.
  cbn [run_call]. pose proof (call_lines l (with_observed (new_reader true full) [])) as H. destruct (run_visits l _) as [r' out]. destruct H as (-> & _). cbn.
  exists (firsts [] (List.concat (map left_over l))). split; [apply firsts_right|reflexivity].
Qed.
(** Which elements are reported, and for which occurrence, is determined. *)
Lemma split_compare {A} (b1 : list A) v1 a1 b2 v2 a2 : (b1 ++ v1 :: a1 = b2 ++ v2 :: a2)%list -> In v1 b2 \/ In v2 b1 \/ v1 = v2.
Proof.
  revert b2. induction b1 as [|x b1 IH]; intros [|y b2] E; cbn in E; injection E as E1 E2; subst; cbn; auto. destruct (IH _ E2) as [H|[H|H]]; auto.
Qed.
Lemma passed_once v c d : passed_over v c -> passed_over v d -> l_tag c = l_tag d -> c = d.
Proof.
  destruct v as [kids steps|e]; cbn; [|congruence]. intros (b & a & E & N & _) (b' & a' & E' & N' & _) T. rewrite E in E'.
  destruct (split_compare _ _ _ _ _ _ E') as [H|[H|H]]; [| |exact H]; exfalso.
  - apply N'. rewrite <- T. now apply in_map.
  - apply N. rewrite T. now apply in_map.
Qed.
Theorem C73_determined l cs ds : warned_right l cs -> warned_right l ds -> forall c, In c cs <-> In c ds.
Proof.
  assert (G : forall cs ds, warned_right l cs -> warned_right l ds -> forall c, In c cs -> In c ds).
  { intros as' bs (_ & A & _) (_ & B & C) c I. destruct (A c I) as (b1 & v1 & a1 & E1 & P1 & F1). assert (V : In v1 l) by (rewrite E1; apply in_app_iff; right; now left).
    pose proof (C v1 c V P1) as T. apply in_map_iff in T as (d & T & D). destruct (B d D) as (b2 & v2 & a2 & E2 & P2 & F2). rewrite E1 in E2.
    destruct (split_compare _ _ _ _ _ _ E2) as [H|[H|H]].
    - exfalso. exact (F2 v1 c H P1 (eq_sym T)).
    - exfalso. exact (F1 v2 d H P2 T).
    - subst v2. now rewrite (passed_once v1 c d P1 P2 (eq_sym T)). }
  intros H K c. split; eauto.
Qed.
(** They are reported as they are found: going on only adds lines. *)
Theorem C73_order path l k r : exists more, snd (run_call (ReadFile path true (l ++ k)%list) r) = (snd (run_call (ReadFile path true l) r) ++ more)%list.
Proof.
  cbn [run_call]. rewrite !run_visits_all, map_app, concat_app, report_all_app. destruct (report_all (List.concat (map left_over l)) _) as [r1 o1]. destruct (report_all _ r1) as [r2 o2]. now exists o2.
Qed.
(** With warnings switched off, and when a text cannot be parsed, nothing is printed. *)
Lemma call_settings k r : r_warn (fst (run_call k r)) = r_warn r /\ r_full (fst (run_call k r)) = r_full r.
Proof.
  destruct k as [path p l|p l|p l]; cbn [run_call]; destruct p; try (split; reflexivity);
    match goal with |- context [run_visits l ?x] => pose proof (call_lines l x) as H; destruct (run_visits l x) as [r' out] end; destruct H as (_ & _ & _ & A & B); now split.
Qed.
Lemma session_app a b r : session (a ++ b)%list r = let '(r1, o1) := session a r in let '(r2, o2) := session b r1 in (r2, (o1 ++ o2)%list).
Proof.
  revert r. induction a as [|k a IH]; intros r; cbn [session List.app]; [now destruct (session b r)|]. destruct (run_call k r) as [r1 o1]. rewrite IH. destruct (session a r1) as [r2 o2]. now destruct (session b r2).
Qed.
Lemma session_settings l r : r_warn (fst (session l r)) = r_warn r /\ r_full (fst (session l r)) = r_full r.
Proof.
  revert r. induction l as [|k l IH]; intros r; cbn [session]; [now split|]. destruct (call_settings k r) as [A B]. destruct (run_call k r) as [r1 o1]. destruct (IH r1) as [C D]. destruct (session l r1) as [r2 o2]. cbn in *. split; congruence.
Qed.
Theorem C73_off full l : List.concat (snd (session l (new_reader false full))) = [].
Proof.
  assert (G : forall r, r_warn r = false -> List.concat (snd (session l r)) = []); [|now apply G].
  induction l as [|k l IH]; intros r W; cbn [session]; [reflexivity|]. pose proof (call_settings k r) as [S _].
  assert (E : snd (run_call k r) = []).
  { destruct k as [path p x|p x|p x]; cbn [run_call]; destruct p; try reflexivity;
      match goal with |- context [run_visits x ?y] => pose proof (call_lines x y) as H; destruct (run_visits x y) as [r' out] end; destruct H as (-> & _); cbn; now rewrite W. }
  destruct (run_call k r) as [r1 o1]. cbn in E, S. subst o1. specialize (IH r1 ltac:(congruence)). destruct (session l r1) as [r2 o2]. exact IH.
Qed.
Theorem C73_unparsed path l r : snd (run_call (ReadFile path false l) r) = [] /\ snd (run_call (ReadStr false l) r) = [] /\ snd (run_call (ReadStrElem false l) r) = [].
Proof. repeat split. Qed.
(** What read_file and read_str print does not depend on what the reader was used for before: names that were
    reported for another document are reported again. *)
Theorem C73_independent warn full before k : match k with ReadStrElem _ _ => False | _ => True end ->
  snd (run_call k (fst (session before (new_reader warn full)))) = snd (run_call k (new_reader warn full)).
Proof.
  pose proof (session_settings before (new_reader warn full)) as [A B]. destruct (session before (new_reader warn full)) as [r o]. cbn in A, B. destruct k as [path p l|p l|p l]; cbn [run_call fst]; intros H; [| |contradiction];
    rewrite A, B; now destruct p.
Qed.

(** ** What does not hold *)
(** A warning names the file that is being read: read_str_elem after read_file names the other file. *)
Definition note (line : Z) : located := mkLocated (Elem "NOTE" [] "" [] []) line.
Theorem C73_file_name_refuted : ~ (forall before l, exists cs, snd (run_call (ReadStrElem true l) (fst (session before (new_reader true false)))) = map (warning None) cs).
Proof. intros H. destruct (H [ReadFile "/in/old.arxml" true []] [Unknown (note 3)]) as (cs & E). vm_compute in E. destruct cs as [|c cs]; [discriminate|]. cbn [map] in E. injection E as E _. unfold warning in E. discriminate E. Qed.
(** Every child that nobody read is reported: a second child of a name is neither read nor reported. *)
Theorem C73_repeated_refuted : ~ (forall kids steps c r, r_warn r = true -> In c kids -> ~ In (Some c) (fst (accesses steps (new_child_map kids))) ->
  ~ In (Skip (l_tag c)) steps -> exists place, In (warning place c) (snd (run_call (ReadStr true [Through kids steps]) r))).
Proof.
  intros H. set (a := mkLocated (Elem "CATEGORY" [] "ONE" [] []) 4). set (b := mkLocated (Elem "CATEGORY" [] "TWO" [] []) 5).
  destruct (H [a; b] [Get "CATEGORY"] b (new_reader true false) eq_refl (or_intror (or_introl eq_refl))) as (p & I); [| |exact I].
  - cbn. intros [E|[]]. discriminate E.
  - intros [E|[]]. discriminate E.
Qed.

(** ** Example: two files and a text *)
Definition kid (tag : string) (line : Z) : located := mkLocated (Elem tag [] "" [] []) line.
Example C73_example : snd (session
    [ReadFile "/in/a.arxml" true [Through [kid "SHORT-NAME" 3; kid "NOTE" 4; kid "NOTE" 5; kid "OTHER" 6] [Get "SHORT-NAME"; Get "DESC"]; Unknown (kid "EXTRA" 8); Through [kid "NOTE" 9; kid "OTHER" 10; kid "LAST" 11] [Skip "LAST"]];
     ReadStr true [Through [kid "NOTE" 2] []]; ReadStrElem true [Unknown (kid "NOTE" 1)]] (new_reader true false)) =
  [["a.arxml(4): Unprocessed element <NOTE>"; "a.arxml(6): Unprocessed element <OTHER>"; "a.arxml(8): Unprocessed element <EXTRA>"];
   ["(2): Unprocessed element <NOTE>"]; ["(1): Unprocessed element <NOTE>"]].
Proof. vm_compute. reflexivity. Qed.
Example C73_example_passed : passed_over (Through [kid "SHORT-NAME" 3; kid "NOTE" 4; kid "NOTE" 5] [Get "SHORT-NAME"]) (kid "NOTE" 4) /\
  ~ passed_over (Through [kid "SHORT-NAME" 3; kid "NOTE" 4; kid "NOTE" 5] [Get "SHORT-NAME"]) (kid "NOTE" 5).
Proof.
  split.
  - exists [kid "SHORT-NAME" 3], [kid "NOTE" 5]. splits; [reflexivity|cbn; intros [E|[]]; discriminate|]. intros [[E|[]]|[E|[]]]; discriminate.
  - intros (b & a & E & N & _). destruct b as [|x [|y [|z b]]]; cbn in E; try discriminate. injection E as _ <- _. apply N. cbn. auto. now destruct b.
Qed.

Print Assumptions C73_get.
Print Assumptions C73_file.
Print Assumptions C73_string.
Print Assumptions C73_element.
Print Assumptions C73_determined.
Print Assumptions C73_order.
Print Assumptions C73_off.
Print Assumptions C73_unparsed.
Print Assumptions C73_independent.
Print Assumptions C73_file_name_refuted.
Print Assumptions C73_repeated_refuted.
