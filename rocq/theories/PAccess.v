(** Proofs about creating access points. *)
From Verif Require Import Base PBase MHeap SHeap MNames PNames MWork PWork MNum MXml MEnum MRefTab MRef PRef MCodec MElem0 MElem1 MElemA MElemB MElemC MElem2 MElemD MElem3 MElem4 MElemE MElem5 MElemF MArxml MFind SFind PFind PConn MValue MEvent SEvent PEvent MPort SPort PPort MAccess SAccess.
From Verif Require SLiteral PLiteral.
Open Scope list_scope.
Ltac splits := repeat match goal with |- _ /\ _ => split end.

(** ** Renaming and appending *)
Section Renaming.
Context {A : Type} (name_of : A -> string) (rename : string -> A -> A).
Context (Same : forall a, rename (name_of a) a = a).
Lemma rename_all_same l : rename_all rename (map name_of l) l = l.
Proof. induction l as [|a l IH]; cbn; [reflexivity|]. now rewrite Same, IH. Qed.
Lemma rename_all_app a b la lb : List.length a = List.length la -> rename_all rename (a ++ b) (la ++ lb) = rename_all rename a la ++ rename_all rename b lb.
Proof. revert la. induction a as [|n a IH]; intros [|e la]; cbn; intros L; try discriminate; [reflexivity|]. now rewrite IH by lia. Qed.
Lemma rename_effect base l : last_renamed name_of rename base l (rename_all rename (fst (make_unique (map name_of l) base)) l).
Proof.
  destruct (make_unique (map name_of l) base) as [names m] eqn:E. cbn [fst]. destruct (make_unique_effect _ _ _ _ E) as [[N ->]|(x & y & E1 & -> & N)].
  - left. split; [assumption|]. apply rename_all_same.
  - apply map_eq_app in E1 as (lx & r & -> & <- & Er). destruct r as [|e ly]; [discriminate|]. injection Er as E1 <-. subst base.
    right. exists lx, e, ly. splits; auto. rewrite rename_all_app by now rewrite map_length. cbn [rename_all]. now rewrite !rename_all_same.
Qed.
Lemma last_split {B} (g : B -> string) n x a y x' a' y' : g a = n -> g a' = n -> ~ In n (map g y) -> ~ In n (map g y') ->
  x ++ a :: y = x' ++ a' :: y' -> x = x' /\ a = a' /\ y = y'.
Proof.
  revert x'. induction x as [|b x IH]; intros [|b' x'] G G' N N' E; cbn in E; injection E as E1 E2.
  - auto.
  - subst. exfalso. apply N. rewrite map_app. cbn. apply in_or_app. right. left. congruence.
  - subst. exfalso. apply N'. rewrite map_app. cbn. apply in_or_app. right. left. congruence.
  - subst b'. destruct (IH x' G G' N N' E2) as (-> & -> & ->). auto.
Qed.
Lemma last_renamed_fun base l l1 l2 : last_renamed name_of rename base l l1 -> last_renamed name_of rename base l l2 -> l1 = l2.
Proof.
  intros [[N ->]|(x & a & y & -> & G & N & ->)] [[N' ->]|(x' & a' & y' & E' & G' & N' & ->)].
  - reflexivity.
  - exfalso. subst. apply N. rewrite map_app. cbn. apply in_or_app. right. now left.
  - exfalso. subst. apply N'. rewrite map_app. cbn. apply in_or_app. right. now left.
  - destruct (last_split name_of base x a y x' a' y' G G' N N' E') as (-> & -> & ->). reflexivity.
Qed.
Lemma added_iff l a l' : added name_of rename l a l' <-> l' = append_named name_of rename l a.
Proof.
  unfold added, append_named. split.
  - intros (olds & H & ->). f_equal. eapply last_renamed_fun; [exact H|apply rename_effect].
  - intros ->. eexists. split; [apply rename_effect|reflexivity].
Qed.
End Renaming.
Lemma variable_same a : rename_variable_access (variable_access_name a) a = a.
Proof. destruct a as [i v s]. unfold rename_variable_access, variable_access_name. cbn. now rewrite with_own_name. Qed.
Lemma switch_same a : rename_mode_switch_point (mode_switch_point_name a) a = a.
Proof. destruct a as [i v s]. unfold rename_mode_switch_point, mode_switch_point_name. cbn. now rewrite with_own_name. Qed.
Lemma parameter_same a : rename_parameter_access (parameter_access_name a) a = a.
Proof. destruct a as [i v s t]. unfold rename_parameter_access, parameter_access_name. cbn. now rewrite with_own_name. Qed.
Lemma call_same a : rename_server_call_point (server_call_point_name a) a = a.
Proof. destruct a as [[i b c d]|[i b c d e]]; cbn; now rewrite with_own_name. Qed.

(** The runnable with one more access point. *)
Definition put (r : RunnableEntity) (a : point) : RunnableEntity :=
  match a with
  | DataPoint ReadAccess a => append_data_read_access r a
  | DataPoint ReceiveByArgument a => append_data_receive_point_by_argument r a
  | DataPoint ReceiveByValue a => append_data_receive_point_by_value r a
  | DataPoint WriteAccess a => append_data_write_access r a
  | DataPoint SendPoint a => append_data_send_point r a
  | ModePoint a => append_mode_access_point r a
  | SwitchPoint a => append_mode_switch_point r a
  | ParameterPoint a => append_parameter_access r a
  | CallPoint a => append_server_call_point r a
  end.
Lemma gains_iff r a r' : gains r a r' <-> r' = put r a.
Proof.
  unfold gains, same_rest. split.
  - intros H. destruct r, r', a as [[]?|?|?|?|?]; cbn in H; repeat match goal with H : _ /\ _ |- _ => destruct H end; rewrite ?app_nil_r in *;
    repeat match goal with H : added _ _ _ _ _ |- _ => apply added_iff in H; [|auto using variable_same, switch_same, parameter_same, call_same] end;
    subst; reflexivity.
  - intros ->. destruct r, a as [[]?|?|?|?|?]; cbn; splits; rewrite ?app_nil_r; try reflexivity; (apply added_iff; [auto using variable_same, switch_same, parameter_same, call_same|reflexivity]).
Qed.

(** ** Texts *)
Lemma lstrip_split s : exists a, s = (a ++ lstrip s)%string /\ SLiteral.blank a /\ SLiteral.no_leading_blank (lstrip s).
Proof. apply PLiteral.lstrip_form. Qed.
Lemma lstrip_blank a t : SLiteral.blank a -> SLiteral.no_leading_blank t -> lstrip (a ++ t) = t.
Proof. intros A N. now apply PLiteral.lstrip_skip. Qed.
Definition element_of (n : string) : option string := if String.eqb n "" then None else Some n.
Lemma partition_names t p n : partition_slash t = (p, n) -> names_element t p (element_of n).
Proof.
  intros E. unfold element_of. destruct (mem_char slash t) eqn:M.
  - assert (H : t = (p ++ String slash n)%string /\ mem_char slash p = false).
    { revert p n E M. unfold partition_slash. induction t as [|c t IH]; cbn; intros p n E M; [discriminate|]. destruct (Ascii.eqb c slash) eqn:Ec.
      - injection E as <- <-. apply Ascii.eqb_eq in Ec as ->. auto.
      - destruct (partition_at slash t) as [x y]. injection E as <- <-. destruct (IH x y eq_refl M) as [-> H]. cbn. rewrite Ec. auto. }
    destruct H as [-> H]. destruct (String.eqb_spec n "") as [->|N]; [now apply names_port_only|]. now apply names_both.
  - unfold partition_slash in E. rewrite partition_no in E by assumption. injection E as <- <-. now apply names_port.
Qed.
Lemma names_partition t p o : names_element t p o -> exists n, partition_slash t = (p, n) /\ element_of n = o.
Proof.
  intros [q M|q M|q e M N]; unfold partition_slash, element_of.
  - exists "". rewrite partition_no by assumption. auto.
  - exists "". change "/" with (String slash ""). now rewrite PBase.partition_sep.
  - exists e. change ("/" ++ e)%string with (String slash e). rewrite PBase.partition_sep by assumption. destruct (String.eqb_spec e ""); [contradiction|auto].
Qed.
(** The options of a word. *)
Definition options_of (w : option string) : result access_options :=
  match w with None => Ok default_options | Some s => parse_port_access_prefix s end.
Definition parse_all (text : string) : result (access_options * string * string) :=
  let* (o, rest) := parse_access_text text in let (p, n) := partition_slash rest in Ok (o, p, n).
Lemma parse_sound text o p n : parse_all text = Ok (o, p, n) -> exists w, text_says text w p (element_of n) /\ options_of w = Ok o.
Proof.
  unfold parse_all, parse_access_text. destruct (mem_char colon text) eqn:M.
  - destruct (partition_at colon text) as [w rest] eqn:P. cbn [bind]. destruct (parse_port_access_prefix (upper w)) as [o'|] eqn:O; cbn [bind]; [|discriminate].
    destruct (partition_slash (lstrip rest)) as [p' n'] eqn:Q. intros E. injection E as <- <- <-. apply partition_names in Q.
    assert (H : text = (w ++ String colon rest)%string /\ mem_char colon w = false).
    { clear - P M. revert w rest P M. induction text as [|c t IH]; cbn; intros p n E M; [discriminate|]. destruct (Ascii.eqb c colon) eqn:Ec.
      - injection E as <- <-. apply Ascii.eqb_eq in Ec as ->. auto.
      - destruct (partition_at colon t) as [x y]. injection E as <- <-. destruct (IH x y eq_refl M) as [-> H]. cbn. rewrite Ec. auto. }
    destruct H as [-> H]. destruct (lstrip_split rest) as (a & E & B & N). exists (Some (upper w)). split; [|exact O]. rewrite E at 1.
    change (String colon (a ++ lstrip rest)%string) with (":" ++ a ++ lstrip rest)%string. now apply text_prefixed.
  - cbn [bind]. destruct (partition_slash text) as [p' n'] eqn:Q. intros E. injection E as <- <- <-. apply partition_names in Q. exists None. split; [now apply text_plain|reflexivity].
Qed.
Lemma parse_complete text w p e o : text_says text w p e -> options_of w = Ok o -> exists n, parse_all text = Ok (o, p, n) /\ element_of n = e.
Proof.
  intros T O. unfold parse_all, parse_access_text. destruct T as [t p e M N|v a t p e M B L N].
  - rewrite M. cbn [bind]. apply names_partition in N as (n & -> & <-). injection O as <-. eauto.
  - replace (mem_char colon (v ++ ":" ++ a ++ t)) with true by (rewrite mem_char_app; cbn; now rewrite orb_true_r).
    change (":" ++ a ++ t)%string with (String colon (a ++ t)%string). rewrite PBase.partition_sep by assumption. cbn in O. rewrite O. cbn [bind].
    rewrite lstrip_blank by assumption. apply names_partition in N as (n & -> & <-). eauto.
Qed.
Ltac word_in := let s := fresh in let E := fresh in let I := fresh in
  intros (s & E & I); injection E as <-; cbn in I; repeat (destruct I as [I|I]; [congruence|]); destruct I.
Lemma word_facts w o : options_of w = Ok o -> known w /\
  (ao_access o = Implicit <-> word_of w ["READ"; "WRITE"]) /\ (ao_result o = ByValue <-> word_of w ["VALUE"; "VAL"]) /\
  (ao_mode o = Some Access <-> w = Some "ACCESS") /\ (ao_mode o = Some Switch <-> w = Some "SWITCH") /\ (ao_call o = Async <-> w = Some "ASYNC").
Proof.
  assert (In_word : forall s l, In s l -> word_of (Some s) l) by (intros s l I; exists s; auto).
  destruct w as [s|]; cbn [options_of known].
  - unfold parse_port_access_prefix.
    destruct (String.eqb_spec s "ASYNC"); [|destruct (String.eqb_spec s "SYNC"); [|destruct (String.eqb_spec s "READ"); [|destruct (String.eqb_spec s "WRITE"); [|
    destruct (String.eqb_spec s "ARGUMENT"); [|destruct (String.eqb_spec s "ARG"); [|destruct (String.eqb_spec s "VALUE"); [|destruct (String.eqb_spec s "VAL"); [|
    destruct (String.eqb_spec s "SEND"); [|destruct (String.eqb_spec s "ACCESS"); [|destruct (String.eqb_spec s "SWITCH"); [|discriminate]]]]]]]]]]]; cbn [orb];
    intros E; injection E as <-; subst s; (split; [unfold words; cbn [In]; tauto|]); cbn [ao_access ao_result ao_mode ao_call];
    (splits; split; (reflexivity || discriminate || (intros _; apply In_word; cbn [In]; tauto) || word_in)).
  - intros E; injection E as <-. cbn [ao_access ao_result ao_mode ao_call default_options]. splits; try exact Logic.I; split; try discriminate; intros (s & E & _); discriminate.
Qed.
Lemma known_options w : known w -> exists o, options_of w = Ok o.
Proof.
  destruct w as [s|]; [|eexists; reflexivity]. cbn [known options_of]. unfold words. intros I.
  repeat (destruct I as [<-|I]; [eexists; reflexivity|]). destruct I.
Qed.

(** ** Dicts *)
Lemma assoc_without k j kw : k <> j -> assoc k (without j kw) = assoc k kw.
Proof.
  intros N. induction kw as [|[x v] kw IH]; [reflexivity|].
  change (without j ((x, v) :: kw)) with (if negb (String.eqb x j) then (x, v) :: without j kw else without j kw). destruct (String.eqb_spec x j) as [->|X]; cbn [negb].
  - rewrite IH. cbn. destruct (String.eqb_spec k j); [contradiction|reflexivity].
  - cbn [assoc]. destruct (String.eqb k x); [reflexivity|exact IH].
Qed.
Lemma given_without k j kw : k <> j -> given k (without j kw) = given k kw.
Proof. intros N. unfold given. now rewrite assoc_without. Qed.
Lemma given_set k j a kw : k <> j -> given k (assoc_set j a kw) = given k kw.
Proof. intros N. unfold given. now rewrite assoc_set_other. Qed.
Lemma without_absent j kw : assoc j kw = None -> without j kw = kw.
Proof.
  induction kw as [|[x v] kw IH]; [reflexivity|]. cbn. destruct (String.eqb_spec j x) as [->|N]; [discriminate|]. intros E. destruct (String.eqb_spec x j); [congruence|]. cbn. f_equal. now apply IH.
Qed.
Lemma take_name_spec h args : exists h1, take_name h args = (h1, assoc "name" (dict h args)) /\ further h1 args = without "name" (dict h args) /\
  forall d, args <> Some d -> h1 d = h d.
Proof.
  destruct args as [d|]; cbn [take_name dict further]; [|exists h; auto]. destruct (assoc "name" (h d)) as [a|] eqn:E.
  - eexists. split; [reflexivity|]. unfold update. rewrite Nat.eqb_refl. split; [reflexivity|]. intros e N. destruct (Nat.eqb_spec e d) as [->|]; [now destruct N|reflexivity].
  - exists h. splits; auto. now rewrite without_absent.
Qed.
Lemma point_name_iff s setting port part kw n : point_name s setting port part (assoc "name" kw) = Ok n <-> has_name s setting port part kw n.
Proof.
  split.
  - unfold point_name. intros H. destruct (assoc "name" kw) as [a|] eqn:E.
    + destruct a; try discriminate.
      * unfold get_value in H. destruct (assoc setting s) as [x|] eqn:F.
        -- cbn [bind] in H. injection H as <-. cbn [join]. apply named_default; [unfold given; now rewrite E|exact F].
        -- destruct (existsb _ _); [discriminate|]. destruct (existsb _ _); discriminate.
      * injection H as <-. apply named_given. unfold given. now rewrite E.
    + unfold get_value in H. destruct (assoc setting s) as [x|] eqn:F.
      * cbn [bind] in H. injection H as <-. cbn [join]. apply named_default; [unfold given; now rewrite E|exact F].
      * destruct (existsb _ _); [discriminate|]. destruct (existsb _ _); discriminate.
  - intros [m G|x G F]; unfold given in G; unfold point_name.
    + destruct (assoc "name" kw) as [[]|]; try discriminate. congruence.
    + unfold get_value. rewrite F. destruct (assoc "name" kw) as [[]|]; try discriminate; reflexivity.
Qed.
Lemma only_without names kw : ~ In "name" names -> (only names (without "name" kw) <-> only ("name" :: names) kw).
Proof.
  intros N. unfold only. split; intros H k K.
  - destruct (String.eqb_spec k "name") as [->|X]; [now left|]. right. apply H. apply in_map_iff in K as ((x & v) & <- & K). apply in_map_iff. exists (x, v). split; [reflexivity|].
    apply filter_In. split; [assumption|]. cbn in *. now destruct (String.eqb_spec x "name").
  - apply in_map_iff in K as ((x & v) & <- & K). apply filter_In in K as [K E]. cbn in *. destruct (String.eqb_spec x "name"); [discriminate|]. destruct (H x); [|congruence|assumption].
    apply in_map_iff. exists (x, v). auto.
Qed.
Lemma only_perm names names' kw : (forall k, In k names <-> In k names') -> (only names kw <-> only names' kw).
Proof. intros P. unfold only. split; intros H k K; apply P; auto. Qed.
Lemma holds_ext {A} (M : arg -> A -> Prop) kw kw' k v : given k kw = given k kw' -> (holds M kw k v <-> holds M kw' k v).
Proof. intros E. unfold holds. now rewrite E. Qed.

(** ** Constructors *)
Lemma opt_long_name_iff kw k v : optional (strict (fun o => match o with OLongName e => Some e | _ => None end)) (kwarg k kw) = Ok v <-> holds means_long_name kw k v.
Proof. strict_tac. Qed.
Lemma opt_scope_iff kw k v : optional (strict (fun o => match o with OVariableAccessScope e => Some e | _ => None end)) (kwarg k kw) = Ok v <-> holds means_scope kw k v.
Proof. strict_tac. Qed.
Lemma opt_provision_iff kw k v : opt_return_value_provision (kwarg k kw) = Ok v <-> holds means_provision kw k v.
Proof. strict_tac. Qed.
Lemma opt_text_iff kw k v : optional str_of_arg (kwarg k kw) = Ok v <-> holds means_text kw k v.
Proof.
  apply opt_iff. intros a x _. split.
  - destruct a as [|b|[z|f]|s|l|l|l|o| ]; cbn; try discriminate; try (intros E; injection E as <-; constructor). destruct b; intros E; injection E as <-; constructor.
  - intros []; reflexivity.
Qed.
Lemma opt_description_iff kw k v : optional description (kwarg k kw) = Ok v <-> holds means_description kw k v.
Proof.
  apply opt_iff. intros a x _. split.
  - destruct a as [|b|n|s|l|l|l|o| ]; cbn [description]; try discriminate.
    + intros E; injection E as <-; constructor.
    + destruct l as [|y [|z [|]]]; try discriminate; try (destruct y as [| | | | | | |[]| ]; discriminate).
      * destruct y as [| | | | | | |[]| ]; try discriminate. destruct z; try discriminate. intros E; injection E as <-; constructor.
      * destruct y as [| | | | | | |[]| ]; try discriminate. destruct z; discriminate.
    + destruct o; try discriminate. intros E; injection E as <-; constructor.
  - intros []; reflexivity.
Qed.
Lemma opt_props_iff kw k v : optional props_of_arg (kwarg k kw) = Ok v <-> holds means_props kw k v.
Proof.
  apply opt_iff. intros a x _. split.
  - destruct a as [|b|n|s|l|l|l|o| ]; cbn [props_of_arg]; try discriminate. destruct o; try discriminate; intros E; injection E as <-; constructor.
  - intros []; reflexivity.
Qed.
Lemma opt_area_iff kw k v : opt_nesting_order (kwarg k kw) = Ok v <-> holds means_area kw k v.
Proof.
  apply opt_iff. intros a x _. split.
  - destruct a as [|b|n|s|l|l|l|o| ]; try discriminate.
    + intros E. injection E as <-. constructor.
    + destruct o; try discriminate. unfold check_and_set_reference. cbn [rc_accepted rc_ExclusiveAreaNestingOrderRef]. intros E.
      assert (F : ref_new rc_ExclusiveAreaNestingOrderRef (rf_value r) (Some (rf_dest r)) = Ok x) by (destruct (_ || _); [exact E|discriminate]).
      unfold ref_new in F. cbn [bind] in F. destruct (accepts _ _) eqn:Ac; [|discriminate]. injection F as <-.
      unfold accepts in Ac. cbn [rc_accepted rc_ExclusiveAreaNestingOrderRef existsb] in Ac. rewrite orb_false_r in Ac.
      assert (D : rf_dest r = IdentifiableSubTypes_EXCLUSIVE_AREA_NESTING_ORDER) by now apply dest_eqb_spec.
      destruct r as [rv rd]. cbn in *. subst rd. now constructor.
  - intros [s|c r D]; [reflexivity|]. unfold check_and_set_reference. cbn [rc_accepted rc_ExclusiveAreaNestingOrderRef].
    assert (Ac : accepts rc_ExclusiveAreaNestingOrderRef (rf_dest r) = true) by (rewrite D; reflexivity).
    rewrite Ac, orb_true_r. unfold ref_new. cbn [bind]. rewrite Ac. now destruct r.
Qed.
Definition agree (names : list string) (kw kw' : keyword_args) : Prop := forall k, In k names -> given k kw' = given k kw.
Lemma agree_without names kw : ~ In "name" names -> agree names kw (without "name" kw).
Proof. intros N k K. apply given_without. intros ->. contradiction. Qed.
Lemma agree_incl names names' kw kw' : (forall k, In k names -> In k names') -> agree names' kw kw' -> agree names kw kw'.
Proof. intros I H k K. auto. Qed.
Lemma agree_holds {A} (M : arg -> A -> Prop) names kw kw' k v : agree names kw kw' -> In k names -> (holds M kw' k v <-> holds M kw k v).
Proof. intros H K. apply holds_ext. auto. Qed.
Lemma identity_iff n kw kw' i : agree identifiable_keywords kw kw' -> (new_identifiable n kw' = Ok i <-> identity n kw i).
Proof.
  intros H. unfold identity.
  rewrite <- (agree_holds means_long_name identifiable_keywords kw kw'), <- (agree_holds means_description identifiable_keywords kw kw'), <- !(agree_holds means_text identifiable_keywords kw kw')
    by (assumption || (cbn [In identifiable_keywords]; tauto)).
  rewrite <- opt_long_name_iff, <- opt_description_iff, <- !opt_text_iff. unfold new_identifiable. split.
  - intros E. unbind. cbn. splits; reflexivity || assumption.
  - destruct i as [a b c d e f g u]. cbn. intros (-> & E1 & E2 & E3 & E4 & -> & -> & ->). rewrite E1, E2, E3, E4. reflexivity.
Qed.
Lemma access_point_iff n kw kw' i p : agree access_point_keywords kw kw' ->
  (new_access_point n kw' = Ok (i, p) <-> identity n kw i /\ holds means_provision kw "return_value_provision" p).
Proof.
  intros H. rewrite <- (agree_holds means_provision access_point_keywords kw kw') by (assumption || (cbn [In access_point_keywords]; tauto)).
  rewrite <- (identity_iff n kw kw') by (eapply agree_incl; [|exact H]; intros k K; now right). rewrite <- opt_provision_iff. unfold new_access_point. split.
  - intros E. apply bind_iff in E as (x & E1 & E). apply bind_iff in E as (y & E2 & E). injection E as <- <-. auto.
  - intros (E1 & E2). rewrite E1. cbn [bind]. rewrite E2. reflexivity.
Qed.
Lemma port_ref_assign w p : assign rc_PortPrototypeRef (own_port_ref w p) rc_PortPrototypeRef = Ok (own_port_ref w p).
Proof. unfold own_port_ref. destruct (option_map pl_path (ow_place w)); [|reflexivity]. destruct p; reflexivity. Qed.
Definition variable_of (w : owner) (p : PortPrototypeElement) (path : string) (d : VariableDataPrototype) : AutosarVariableRef :=
  mkAutosarVariableRef None (Some (mkVariableInAtomicSWCTypeInstanceRef (own_port_ref w p) None [] (data_ref path d))) None.
Lemma port_variable_ref_ok w p path d : port_variable_ref (own_port_ref w p) (data_ref path d) = Ok (variable_of w p path d).
Proof. unfold port_variable_ref. rewrite port_ref_assign. reflexivity. Qed.
Ltac not_in := match goal with |- ~ _ => idtac end; let H := fresh in intros H; cbn in H; repeat (destruct H as [H|H]; [discriminate H|]); destruct H.
Ltac perm := let k := fresh in intros k; cbn [In app common access_point_keywords identifiable_keywords]; tauto.
Lemma only_names names names' kw : ~ In "name" names -> (forall k, In k ("name" :: names) <-> In k names') -> (only names (without "name" kw) <-> only names' kw).
Proof. intros N P. rewrite only_without by assumption. now apply only_perm. Qed.
Lemma variable_access_iff n w p path d kw v : new_variable_access n (own_port_ref w p) (data_ref path d) (without "name" kw) = Ok v <->
  identity n kw (VariableAccess_ident v) /\ VariableAccess_accessed_variable v = Some (variable_of w p path d) /\
  holds means_scope kw "scope" (VariableAccess_scope v) /\ only ("scope" :: common) kw.
Proof.
  unfold new_variable_access. rewrite port_variable_ref_ok.
  rewrite <- (identity_iff n kw (without "name" kw)) by (apply agree_without; not_in). rewrite <- (holds_ext means_scope (without "name" kw)) by (apply given_without; discriminate).
  rewrite <- (only_names ("scope" :: identifiable_keywords)) by (not_in || perm). rewrite <- opt_scope_iff. split.
  - intros E. apply bind_iff in E as (u & E1 & E). cbn [bind] in E. apply bind_iff in E as (u' & E2 & E). apply keywords_iff in E2. apply bind_iff in E as (i & E3 & E). apply bind_iff in E as (sc & E4 & E).
    injection E as <-. auto.
  - intros (E1 & E2 & E3 & O). rewrite (only_no_clash _ _ _) with (2 := O) by apart. cbn [bind]. rewrite (proj2 (keywords_iff _ _ tt) O). cbn [bind]. rewrite E1. cbn [bind]. rewrite E3. cbn [bind].
    destruct v. cbn in *. now subst.
Qed.
Lemma mode_ident_iff n kw a : new_mode_access_ident n (without "name" kw) = Ok a <->
  identity n kw (ModeAccessPointIdent_ident a) /\ holds means_provision kw "return_value_provision" (ModeAccessPointIdent_return_value_provision a) /\
  only ("return_value_provision" :: common) kw.
Proof.
  unfold new_mode_access_ident. rewrite <- and_assoc. rewrite <- (access_point_iff n kw (without "name" kw)) by (apply agree_without; not_in).
  rewrite <- (only_names access_point_keywords) by (not_in || perm). split.
  - intros E. apply bind_iff in E as (u & E2 & E). apply keywords_iff in E2. apply bind_iff in E as ((i & q) & E1 & E). injection E as <-. auto.
  - intros (E1 & O). rewrite (proj2 (keywords_iff _ _ tt) O). cbn [bind]. rewrite E1. now destruct a.
Qed.
Lemma switch_point_iff n g kw a : new_mode_switch_point n g (without "name" kw) = Ok a <->
  (identity n kw (ModeSwitchPoint_ident a) /\ holds means_provision kw "return_value_provision" (ModeSwitchPoint_return_value_provision a)) /\
  ModeSwitchPoint_mode_group a = Some g /\ only ("return_value_provision" :: common) kw.
Proof.
  unfold new_mode_switch_point. rewrite <- (access_point_iff n kw (without "name" kw)) by (apply agree_without; not_in).
  rewrite <- (only_names access_point_keywords) by (not_in || perm). split.
  - intros E. apply bind_iff in E as (u & _ & E). apply bind_iff in E as (u' & E2 & E). apply keywords_iff in E2. apply bind_iff in E as ((i & q) & E1 & E). injection E as <-. auto.
  - intros (E1 & G & O). rewrite (only_no_clash _ _ _) with (2 := O) by apart. cbn [bind]. rewrite (proj2 (keywords_iff _ _ tt) O). cbn [bind]. rewrite E1. destruct a. cbn in *. now subst.
Qed.
Lemma parameter_access_iff n iref kw a : new_parameter_access n iref (without "name" kw) = Ok a <->
  (identity n kw (ParameterAccess_ident a) /\ holds means_provision kw "return_value_provision" (ParameterAccess_return_value_provision a)) /\
  ParameterAccess_accessed_parameter a = Some (mkAutosarParameterRef (Some iref) None) /\
  holds means_props kw "sw_data_def_props" (ParameterAccess_sw_data_def_props a) /\ only ("sw_data_def_props" :: "return_value_provision" :: common) kw.
Proof.
  unfold new_parameter_access. rewrite <- (access_point_iff n kw (without "name" kw)) by (apply agree_without; not_in).
  rewrite <- (holds_ext means_props (without "name" kw)) by (apply given_without; discriminate). rewrite <- opt_props_iff.
  rewrite <- (only_names ("sw_data_def_props" :: access_point_keywords)) by (not_in || perm). split.
  - intros E. apply bind_iff in E as (u & _ & E). apply bind_iff in E as (u' & E2 & E). apply keywords_iff in E2. apply bind_iff in E as ((i & q) & E1 & E). apply bind_iff in E as (y & E3 & E). injection E as <-. auto.
  - intros (E1 & G & E3 & O). rewrite (only_no_clash _ _ _) with (2 := O) by apart. cbn [bind]. rewrite (proj2 (keywords_iff _ _ tt) O). cbn [bind]. rewrite E1. cbn [bind]. rewrite E3. destruct a. cbn in *. now subst.
Qed.
Lemma async_iff n iref kw a : new_async_call_point n iref (without "name" kw) = Ok a <->
  (identity n kw (AsynchronousServerCallPoint_ident a) /\ holds means_provision kw "return_value_provision" (AsynchronousServerCallPoint_return_value_provision a)) /\
  AsynchronousServerCallPoint_operation a = Some iref /\
  holds means_float kw "timeout" (AsynchronousServerCallPoint_timeout a) /\ only ("timeout" :: "return_value_provision" :: common) kw.
Proof.
  unfold new_async_call_point. rewrite <- (access_point_iff n kw (without "name" kw)) by (apply agree_without; not_in).
  rewrite <- (holds_ext means_float (without "name" kw)) by (apply given_without; discriminate). rewrite <- opt_float_iff.
  rewrite <- (only_names ("timeout" :: access_point_keywords)) by (not_in || perm). split.
  - intros E. apply bind_iff in E as (u & _ & E). apply bind_iff in E as (u' & E2 & E). apply keywords_iff in E2. apply bind_iff in E as ((i & q) & E1 & E). apply bind_iff in E as (y & E3 & E). injection E as <-. auto.
  - intros (E1 & G & E3 & O). rewrite (only_no_clash _ _ _) with (2 := O) by apart. cbn [bind]. rewrite (proj2 (keywords_iff _ _ tt) O). cbn [bind]. rewrite E1. cbn [bind]. rewrite E3. destruct a. cbn in *. now subst.
Qed.
Lemma keys_set {A} k (a : A) kw : forall x, In x (map fst (assoc_set k a kw)) <-> x = k \/ In x (map fst kw).
Proof.
  induction kw as [|[y v] kw IH]; intros x; cbn; [split; [intros [<-|[]]; auto|intros [->|[]]; auto]|]. destruct (String.eqb_spec k y) as [->|N]; cbn.
  - intuition.
  - rewrite IH. intuition.
Qed.
Lemma sync_iff n iref kw kw' a : agree ("timeout" :: "called_from_within_exclusive_area" :: access_point_keywords) kw kw' ->
  kwarg "operation" kw' = AObj (OROperationInAtomicSwcInstanceRef iref) ->
  (forall k, In k (map fst kw') <-> k = "operation" \/ In k (map fst (without "name" kw))) ->
  (new_sync_call_point n kw' = Ok a <->
  (identity n kw (SynchronousServerCallPoint_ident a) /\ holds means_provision kw "return_value_provision" (SynchronousServerCallPoint_return_value_provision a)) /\
  SynchronousServerCallPoint_operation a = Some iref /\
  holds means_float kw "timeout" (SynchronousServerCallPoint_timeout a) /\
  holds means_area kw "called_from_within_exclusive_area" (SynchronousServerCallPoint_called_from_within_exclusive_area a) /\
  only ("operation" :: "timeout" :: "called_from_within_exclusive_area" :: "return_value_provision" :: common) kw).
Proof.
  intros Ag Op Keys. unfold new_sync_call_point. rewrite Op. cbn [optional strict].
  rewrite <- (access_point_iff n kw kw') by (eapply agree_incl; [|exact Ag]; intros k K; right; right; exact K).
  rewrite <- (holds_ext means_float kw') by (apply Ag; cbn; auto). rewrite <- opt_float_iff. rewrite <- (holds_ext means_area kw') by (apply Ag; cbn; auto). rewrite <- opt_area_iff.
  rewrite <- (only_names ("operation" :: "timeout" :: "called_from_within_exclusive_area" :: access_point_keywords)) by (not_in || perm).
  assert (O' : only ("operation" :: "timeout" :: "called_from_within_exclusive_area" :: access_point_keywords) (without "name" kw) <->
               only ("operation" :: "timeout" :: "called_from_within_exclusive_area" :: access_point_keywords) kw').
  { unfold only. split; intros H k K.
    - apply Keys in K as [->|K]; [now left|auto].
    - apply H. apply Keys. now right. }
  rewrite O'. split.
  - intros E. apply bind_iff in E as (u' & E2 & E). apply keywords_iff in E2. apply bind_iff in E as ((i & q) & E1 & E). cbn [bind] in E. apply bind_iff in E as (y & E3 & E). apply bind_iff in E as (z & E4 & E).
    injection E as <-. auto.
  - intros (E1 & G & E3 & E4 & O). rewrite (proj2 (keywords_iff _ _ tt) O). cbn [bind]. rewrite E1. cbn [bind]. rewrite E3. cbn [bind]. rewrite E4. destruct a. cbn in *. now subst.
Qed.

(** ** One text *)
Lemma pick_iff {A} (g : A -> string) l n a : NoDup (map g l) -> (pick_element g l n = Some a <-> picks g l (element_of n) a).
Proof.
  intros N. unfold pick_element, element_of. destruct (String.eqb_spec n "") as [->|X]; cbn [picks].
  - destruct l as [|x [|y l]]; split; try discriminate; intros E; injection E; intros; subst; reflexivity.
  - split.
    + intros E. apply first_named_in in E as [I <-]. split; [now apply in_rev|reflexivity].
    + intros [I <-]. apply first_named_found; [rewrite map_rev; now apply NoDup_rev|now apply -> in_rev].
Qed.
Lemma pick_sound {A} (g : A -> string) l n a : pick_element g l n = Some a -> picks g l (element_of n) a.
Proof.
  unfold pick_element, element_of. destruct (String.eqb_spec n "") as [->|X]; cbn [picks].
  - destruct l as [|x [|y l]]; try discriminate; intros E; injection E; intros; subst; reflexivity.
  - intros E. apply first_named_in in E as [I <-]. split; [now apply in_rev|reflexivity].
Qed.
Lemma group_iff i n g : pick_group i n = Ok g <-> ModeSwitchInterface_mode_group i = Some g /\ picks group_name [g] (element_of n) g.
Proof.
  unfold pick_group, element_of. destruct (ModeSwitchInterface_mode_group i) as [x|]; [|split; [discriminate|intros [E _]; discriminate]].
  destruct (String.eqb_spec n "") as [->|X]; cbn [orb picks].
  - split; [intros E; injection E as <-; auto|]. intros [E _]. now injection E as ->.
  - destruct (String.eqb_spec n (group_name x)) as [->|Y].
    + split; [intros E; injection E as <-; cbn; auto|]. intros [E _]. now injection E as ->.
    + split; [discriminate|]. intros [E [_ F]]. injection E as ->. congruence.
Qed.
Lemma data_append p w o : options_of w = Ok o ->
  match data_point p o with
  | Ok (setting, append) => exists k, data_kind_for p w k /\ setting = data_prefix k /\ append = (fun r v => put r (DataPoint k v))
  | Err _ => forall k, ~ data_kind_for p w k
  end.
Proof.
  intros O. apply word_facts in O as (K & Im & Va & _). unfold data_point, data_kind_for. destruct p.
  - destruct (ao_access o); [exists SendPoint|exists WriteAccess]; splits; try reflexivity; try (intros W; apply Im in W; discriminate). now apply Im.
  - destruct (ao_access o); [|exists ReadAccess; splits; try reflexivity; now apply Im]. destruct (ao_result o).
    + exists ReceiveByArgument. splits; try reflexivity; intros W; [apply Im in W|apply Va in W]; discriminate.
    + exists ReceiveByValue. splits; try reflexivity. now apply Va.
  - tauto.
Qed.
Lemma data_kind_fun p w k k' : data_kind_for p w k -> data_kind_for p w k' -> k = k'.
Proof.
  assert (D : word_of w ["READ"; "WRITE"] -> word_of w ["VALUE"; "VAL"] -> False).
  { intros (s & -> & I) (s' & E & I'). injection E as <-. cbn in I, I'. intuition congruence. }
  destruct p, k, k'; cbn; tauto.
Qed.
Ltac absurd_in K := cbn in K; repeat (destruct K as [K|K]; [discriminate K|]); destruct K.
Lemma create_item_eq w pl s r h text args : create_item w pl s r h (AccessItem text args) =
  step r h (let* (o, port, name) := parse_all text in
            let* p := or_value_error (first_named port_name port (ow_ports w)) in
            let* (path, f) := get_interface pl p in
            Ok (o, name, p, path, f)) (fun y => let '(o, name, p, path, f) := y in create_access w pl s r h p path f name o args).
Proof.
  cbn [create_item]. unfold parse_all. destruct (parse_access_text text) as [[o rest]|x]; cbn [bind]; [|reflexivity]. now destruct (partition_slash rest) as [port name].
Qed.
Lemma parameter_iref_ok w p path d : new_parameter_iref (own_port_ref w p) (parameter_ref path d) =
  Ok (mkParameterInAtomicSwcTypeInstanceRef (own_port_ref w p) None None (parameter_ref path d)).
Proof. unfold new_parameter_iref. rewrite port_ref_assign. reflexivity. Qed.
Lemma r_operation_ok w p path d : requires p -> new_r_operation (own_port_ref w p) (operation_ref path d) = Ok (mkROperationInAtomicSwcInstanceRef (own_port_ref w p) (operation_ref path d)).
Proof. intros R. unfold new_r_operation, own_port_ref. rewrite assign_required by now apply requires_eq. reflexivity. Qed.
Lemma r_group_ok w pl p path g : requires p -> new_r_mode_group (own_port_ref w p) (group_ref pl path g) = Ok (mkRModeGroupInAtomicSwcInstanceRef (own_port_ref w p) (group_ref pl path g)).
Proof. intros R. unfold new_r_mode_group. unfold own_port_ref at 1. rewrite assign_required by now apply requires_eq. cbn [bind]. rewrite group_ref_assign. reflexivity. Qed.
Lemma p_group_ok w pl p path g : provides p -> new_p_mode_group (own_port_ref w p) (group_ref pl path g) = Ok (mkPModeGroupInAtomicSwcInstanceRef (own_port_ref w p) (group_ref pl path g)).
Proof. intros R. unfold new_p_mode_group. unfold own_port_ref at 1. rewrite assign_provided by now apply provides_eq. cbn [bind]. rewrite group_ref_assign. reflexivity. Qed.
Lemma sync_kw h h1 args iref : further h1 args = without "name" (dict h args) ->
  let kw' := match args with None => [("operation", AObj (OROperationInAtomicSwcInstanceRef iref))] | Some d => put_operation h1 args iref d end in
  agree ("timeout" :: "called_from_within_exclusive_area" :: access_point_keywords) (dict h args) kw' /\
  kwarg "operation" kw' = AObj (OROperationInAtomicSwcInstanceRef iref) /\
  (forall k, In k (map fst kw') <-> k = "operation" \/ In k (map fst (without "name" (dict h args)))).
Proof.
  intros F kw'. destruct args as [d|]; cbn [further dict] in *; subst kw'.
  - cbn [put_operation]. unfold update. rewrite Nat.eqb_refl, F. splits.
    + intros k K. rewrite given_set; [apply given_without|]; intros ->; absurd_in K.
    + unfold kwarg. now rewrite assoc_set_same.
    + intros k. apply keys_set.
  - splits.
    + intros k K. unfold given. cbn [assoc]. destruct (String.eqb_spec k "operation") as [->|]; [absurd_in K|reflexivity].
    + reflexivity.
    + intros k. cbn. intuition.
Qed.
Lemma put_operation_frame h1 args iref : forall d, args <> Some d -> put_operation h1 args iref d = h1 d.
Proof. intros d N. destruct args as [e|]; [|reflexivity]. cbn. unfold update. destruct (Nat.eqb_spec d e) as [->|]; [now destruct N|reflexivity]. Qed.

(** Only the dict that is passed changes. *)
Lemma access_frame w pl s r h p path f name o args r' h' x : create_access w pl s r h p path f name o args = (r', h', x) ->
  forall d, args <> Some d -> h' d = h d.
Proof.
  assert (Step : forall (A : Type) (h1 : heap) (y : result A) k, (forall d, args <> Some d -> h1 d = h d) ->
            (forall a r' h' x, k a = (r', h', x) -> forall d, args <> Some d -> h' d = h d) ->
            forall r' h' x, step r h1 y k = (r', h', x) -> forall d, args <> Some d -> h' d = h d).
  { intros A h1 y k H1 Hk ra ha xa E. destruct y as [a|e]; cbn [step] in E; [eauto|]. injection E as <- <- <-. exact H1. }
  destruct (take_name_spec h args) as (h1 & Tn & _ & Fr). revert r' h' x.
  assert (Done : forall h2 (r1 : RunnableEntity) r' h' x, (forall d, args <> Some d -> h2 d = h d) -> (r1, h2, Ok tt) = (r', h', x) -> forall d, args <> Some d -> h' d = h d).
  { intros h2 r1 ra ha xa H2 E. injection E as <- <- <-. exact H2. }
  unfold create_access. destruct f as [|e| | | | | |]; try (intros r' h' x E; injection E as <- <- <-; reflexivity).
  destruct e as [e|e|e|e|e|e|e|e|e|e|e|e|e|e|e|e|e|e|e|e|e]; try (intros r' h' x E; injection E as <- <- <-; reflexivity).
  - unfold create_data_access. apply Step; [reflexivity|]. intros a. rewrite Tn. apply Step; [exact Fr|]. intros [ap v] ra ha xa. apply Done. exact Fr.
  - unfold create_parameter_access. apply Step; [reflexivity|]. intros [a iref]. rewrite Tn. apply Step; [exact Fr|]. intros v ra ha xa. apply Done. exact Fr.
  - unfold create_data_access. apply Step; [reflexivity|]. intros a. rewrite Tn. apply Step; [exact Fr|]. intros [ap v] ra ha xa. apply Done. exact Fr.
  - unfold create_call_access. apply Step; [reflexivity|]. intros a. rewrite Tn. destruct p.
    + intros ra ha xa. apply Done. exact Fr.
    + apply Step; [exact Fr|]. intros [n iref]. destruct (ao_call o); [apply Step; [exact Fr|]; intros b ra ha xa; apply Done; exact Fr|].
      assert (Fr' : forall d, args <> Some d -> put_operation h1 args iref d = h d) by (intros d N; rewrite put_operation_frame by assumption; auto).
      apply Step; [exact Fr'|]. intros b ra ha xa. apply Done. exact Fr'.
    + apply Step; [exact Fr|]. intros [n iref]. destruct (ao_call o); [apply Step; [exact Fr|]; intros b ra ha xa; apply Done; exact Fr|].
      assert (Fr' : forall d, args <> Some d -> put_operation h1 args iref d = h d) by (intros d N; rewrite put_operation_frame by assumption; auto).
      apply Step; [exact Fr'|]. intros b ra ha xa. apply Done. exact Fr'.
  - unfold create_mode_access. apply Step; [reflexivity|]. intros a. rewrite Tn. destruct p.
    + apply Step; [exact Fr|]. intros v. destruct (ao_mode o) as [[]|]; (apply Step; [exact Fr|]; intros b ra ha xa; apply Done; exact Fr).
    + apply Step; [exact Fr|]. intros v. destruct (ao_mode o) as [[]|]; try (apply Step; [exact Fr|]; intros b ra ha xa; apply Done; exact Fr). intros ra ha xa. apply Done. exact Fr.
    + intros ra ha xa. apply Done. exact Fr.
Qed.
Lemma item_frame w pl s r h text args r' h' x : create_item w pl s r h (AccessItem text args) = (r', h', x) -> forall d, args <> Some d -> h' d = h d.
Proof.
  rewrite create_item_eq. destruct (bind _ _) as [[[[[o n] p] path] f]|e]; cbn [step]; [apply access_frame|]. intros E. now injection E as <- <- <-.
Qed.
(** A text that fails leaves the runnable as it is. *)
Lemma access_fail w pl s r h p path f name o args r' h' x : create_access w pl s r h p path f name o args = (r', h', Err x) -> r' = r.
Proof.
  assert (Step : forall (A : Type) (h1 : heap) (y : result A) k, (forall a r' h' x, k a = (r', h', Err x) -> r' = r) ->
            forall r' h' x, step r h1 y k = (r', h', Err x) -> r' = r).
  { intros A h1 y k Hk ra ha xa E. destruct y as [a|e]; cbn [step] in E; [eauto|]. now injection E as <- <- <-. }
  destruct (take_name_spec h args) as (h1 & Tn & _). revert r' h' x.
  unfold create_access. destruct f as [|e| | | | | |]; try (intros r' h' x E; injection E as <- <- <-; reflexivity).
  destruct e as [e|e|e|e|e|e|e|e|e|e|e|e|e|e|e|e|e|e|e|e|e]; try (intros r' h' x E; injection E as <- <- <-; reflexivity).
  - unfold create_data_access. apply Step. intros a. rewrite Tn. apply Step. intros [ap v] ra ha xa. discriminate.
  - unfold create_parameter_access. apply Step. intros [a iref]. rewrite Tn. apply Step. intros v ra ha xa. discriminate.
  - unfold create_data_access. apply Step. intros a. rewrite Tn. apply Step. intros [ap v] ra ha xa. discriminate.
  - unfold create_call_access. apply Step. intros a. rewrite Tn. destruct p; try (apply Step; intros [n iref]; destruct (ao_call o); apply Step; intros b ra ha xa; discriminate). intros ra ha xa; discriminate.
  - unfold create_mode_access. apply Step. intros a. rewrite Tn. destruct p; try (apply Step; intros v; destruct (ao_mode o) as [[]|]; try (apply Step; intros b ra ha xa; discriminate)); intros ra ha xa; discriminate.
Qed.
Lemma item_fail w pl s r h y r' h' x : create_item w pl s r h y = (r', h', Err x) -> r' = r.
Proof.
  destruct y as [text args|e]; [|intros E; now injection E as <- <- <-].
  rewrite create_item_eq. destruct (bind _ _) as [[[[[o n] p] path] f]|e]; cbn [step]; [apply access_fail|]. intros E. now injection E as <- <- <-.
Qed.

Section One.
Context (w : owner) (pl : place) (self : list string) (s : settings) (Stands : stands_at w pl self).
Notation Grants := (grants pl self (ow_ports w) s).
Notation Nothing := (grants_nothing pl (ow_ports w)).
Lemma variable_of_at p ns d : ns <> [] -> variable_of w p (path_string ns) d =
  mkAutosarVariableRef None (Some (mkVariableInAtomicSWCTypeInstanceRef (Some (ref_to_port self p)) None [] (ref_inside ns (data_name d) IdentifiableSubTypes_VARIABLE_DATA_PROTOTYPE))) None.
Proof. intros N. unfold variable_of, data_ref, ref_inside. rewrite (own_port_ref_at w pl self) by exact Stands. now rewrite path_below by exact N. Qed.
Lemma operation_of_at p ns d : ns <> [] -> mkROperationInAtomicSwcInstanceRef (own_port_ref w p) (operation_ref (path_string ns) d) =
  mkROperationInAtomicSwcInstanceRef (Some (ref_to_port self p)) (ref_inside ns (operation_name d) IdentifiableSubTypes_CLIENT_SERVER_OPERATION).
Proof. intros N. unfold operation_ref, ref_inside. rewrite (own_port_ref_at w pl self) by exact Stands. now rewrite path_below by exact N. Qed.
Lemma parameter_of_at p ns d : ns <> [] -> mkParameterInAtomicSwcTypeInstanceRef (own_port_ref w p) None None (parameter_ref (path_string ns) d) =
  mkParameterInAtomicSwcTypeInstanceRef (Some (ref_to_port self p)) None None (ref_inside ns (parameter_name d) IdentifiableSubTypes_PARAMETER_DATA_PROTOTYPE).
Proof. intros N. unfold parameter_ref, ref_inside. rewrite (own_port_ref_at w pl self) by exact Stands. now rewrite path_below by exact N. Qed.

Lemma data_sound r h p ns e ds text wd name o args r' h' u : text_says text wd (port_name p) (element_of name) -> options_of wd = Ok o -> In p (ow_ports w) ->
  leads_to (pl_packages pl) (port_interface_ref p) ns e -> data_interface e ds ->
  create_data_access w s r h p (path_string ns) ds name o args = (r', h', Ok u) -> exists a, Grants text (dict h args) a /\ r' = put r a.
Proof.
  intros T O I L D. unfold create_data_access. destruct (pick_element data_name ds name) as [d|] eqn:Pk; cbn [or_runtime_error step]; [|discriminate].
  destruct (take_name_spec h args) as (h1 & -> & Fu & _). rewrite Fu. pose proof (data_append p wd o O) as Da. destruct (data_point p o) as [[setting append]|]; cbn [bind step]; [|discriminate].
  destruct Da as (k & K & -> & ->). destruct (point_name _ _ _ _ _) as [n|] eqn:Pn; cbn [bind step]; [|discriminate]. apply point_name_iff in Pn.
  destruct (new_variable_access _ _ _ _) as [v|] eqn:V; cbn [bind step]; [|discriminate]. apply variable_access_iff in V as (V1 & V2 & V3 & V4). intros E. injection E as <- _ _.
  exists (DataPoint k v). split; [|reflexivity]. rewrite variable_of_at in V2 by eauto using leads_nonempty. apply word_facts in O as [Kn _]. apply pick_sound in Pk. econstructor; eauto.
Qed.
Lemma call_sound r h p ns i text wd name o args r' h' u : text_says text wd (port_name p) (element_of name) -> options_of wd = Ok o -> In p (ow_ports w) ->
  leads_to (pl_packages pl) (port_interface_ref p) ns (AR_ClientServerInterface i) ->
  create_call_access w s r h p (path_string ns) (ClientServerInterface_operations i) name o args = (r', h', Ok u) ->
  (exists a, Grants text (dict h args) a /\ r' = put r a) \/ (Nothing text /\ r' = r).
Proof.
  intros T O I L. unfold create_call_access. destruct (pick_element operation_name _ name) as [d|] eqn:Pk; cbn [or_runtime_error step]; [|discriminate].
  destruct (take_name_spec h args) as (h1 & -> & Fu & _). apply pick_sound in Pk. pose proof (word_facts _ _ O) as (Kn & _ & _ & _ & _ & As).
  assert (R : requires p \/ exists q, p = PortPrototypeElement_P q) by (destruct p; cbn; eauto).
  destruct R as [R|[q ->]]; [left|].
  2: { intros E. injection E as <- _ _. right. split; [|reflexivity]. econstructor; eassumption. }
  assert (E : step r h1 (let* n := point_name s "server_call_point_prefix" (port_name p) (operation_name d) (assoc "name" (dict h args)) in
                let* iref := new_r_operation (own_port_ref w p) (operation_ref (path_string ns) d) in Ok (n, iref)) (fun x => let (n, iref) := x in
      match ao_call o with
      | Async => step r h1 (new_async_call_point n iref (further h1 args)) (fun a => (append_server_call_point r (ServerCallPointElement_Async a), h1, Ok tt))
      | Sync =>
          let h := put_operation h1 args iref in
          let kw := match args with None => [("operation", AObj (OROperationInAtomicSwcInstanceRef iref))] | Some d => h d end in
          step r h (new_sync_call_point n kw) (fun a => (append_server_call_point r (ServerCallPointElement_Sync a), h, Ok tt))
      end) = (r', h', Ok u)) by (destruct p; [destruct R| |]; assumption).
  clear H. rewrite r_operation_ok, operation_of_at in E by eauto using leads_nonempty. destruct (point_name _ _ _ _ _) as [n|] eqn:Pn; cbn [bind step] in E; [|discriminate].
  apply point_name_iff in Pn. destruct (ao_call o).
  - rewrite Fu in E. destruct (new_async_call_point _ _ _) as [a|] eqn:V; cbn [step] in E; [|discriminate]. apply async_iff in V as ((V1 & V2) & V3 & V4 & V5). injection E as <- _ _.
    exists (CallPoint (ServerCallPointElement_Async a)). split; [|reflexivity]. eapply grants_async; eauto. now apply As.
  - cbv zeta in E. destruct (new_sync_call_point _ _) as [a|] eqn:V; cbn [step] in E; [|discriminate]. destruct (sync_kw h h1 args (mkROperationInAtomicSwcInstanceRef (Some (ref_to_port self p)) (ref_inside ns (operation_name d) IdentifiableSubTypes_CLIENT_SERVER_OPERATION)) Fu) as (A1 & A2 & A3).
    apply (sync_iff _ _ _ _ _ A1 A2 A3) in V as ((V1 & V2) & V3 & V4 & V5 & V6). injection E as <- _ _.
    exists (CallPoint (ServerCallPointElement_Sync a)). split; [|reflexivity]. eapply grants_sync; eauto. intros W. apply As in W. discriminate.
Qed.
Lemma parameter_sound r h p ns i text wd name o args r' h' u : text_says text wd (port_name p) (element_of name) -> options_of wd = Ok o -> In p (ow_ports w) ->
  leads_to (pl_packages pl) (port_interface_ref p) ns (AR_ParameterInterface i) ->
  create_parameter_access w s r h p (path_string ns) (ParameterInterface_parameters i) name args = (r', h', Ok u) -> exists a, Grants text (dict h args) a /\ r' = put r a.
Proof.
  intros T O I L. unfold create_parameter_access, pick_parameter. unfold element_of in T. destruct (String.eqb name "").
  { destruct (ParameterInterface_parameters i) as [|x [|y l]]; discriminate. }
  destruct (first_named parameter_name name _) as [d|] eqn:Pk; cbn [or_runtime_error bind step]; [|discriminate]. apply first_named_in in Pk as [Id <-]. apply in_rev in Id.
  rewrite parameter_iref_ok, parameter_of_at by eauto using leads_nonempty. cbn [bind step]. destruct (take_name_spec h args) as (h1 & -> & Fu & _). rewrite Fu.
  destruct (point_name _ _ _ _ _) as [n|] eqn:Pn; cbn [bind step]; [|discriminate]. apply point_name_iff in Pn.
  destruct (new_parameter_access _ _ _) as [a|] eqn:V; cbn [step]; [|discriminate]. apply parameter_access_iff in V as ((V1 & V2) & V3 & V4 & V5). intros E. injection E as <- _ _.
  exists (ParameterPoint a). split; [|reflexivity]. apply word_facts in O as [Kn _]. eapply grants_parameter; eauto.
Qed.
Lemma mode_access_sound r h h1 p ns i g group text wd o name m args r' h' u : text_says text wd (port_name p) (element_of name) -> options_of wd = Ok o -> In p (ow_ports w) ->
  leads_to (pl_packages pl) (port_interface_ref p) ns (AR_ModeSwitchInterface i) -> ModeSwitchInterface_mode_group i = Some g -> picks group_name [g] (element_of name) g ->
  ao_mode o = m -> m <> Some Switch -> further h1 args = without "name" (dict h args) ->
  match p with
  | PortPrototypeElement_R _ => group = ModeGroup_R (mkRModeGroupInAtomicSwcInstanceRef (Some (ref_to_port self p)) (ref_to_group pl ns g))
  | PortPrototypeElement_P _ => group = ModeGroup_P (mkPModeGroupInAtomicSwcInstanceRef (Some (ref_to_port self p)) (ref_to_group pl ns g))
  | PortPrototypeElement_PR _ => False
  end ->
  step r h1 (new_mode_access s p g group m (assoc "name" (dict h args)) (further h1 args)) (fun a => (append_mode_access_point r a, h1, Ok tt)) = (r', h', Ok u) ->
  exists a, Grants text (dict h args) a /\ r' = put r a.
Proof.
  intros T O I L G Pk Em Ns Fu Gr. rewrite Fu. pose proof (word_facts _ _ O) as (Kn & _ & _ & Ac & Sw & _). unfold new_mode_access. destruct m as [m|]; cbn [step].
  - destruct m; [|congruence]. destruct (point_name _ _ _ _ _) as [n|] eqn:Pn; cbn [bind step]; [|discriminate]. apply point_name_iff in Pn.
    destruct (new_mode_access_ident _ _) as [a|] eqn:V; cbn [bind step]; [|discriminate]. apply mode_ident_iff in V as (V1 & V2 & V3). intros E. injection E as <- _ _.
    exists (ModePoint (mkModeAccessPoint (Some a) (Some group))). split; [|reflexivity]. eapply grants_mode_named; eauto. now apply Ac.
  - intros E. injection E as <- _ _. exists (ModePoint (mkModeAccessPoint None (Some group))). split; [|reflexivity]. eapply grants_mode; eauto.
    intros (x & -> & [<-|[<-|[]]]); [destruct Ac as [_ Ac]; rewrite Em in Ac; discriminate (Ac eq_refl)|destruct Sw as [_ Sw]; rewrite Em in Sw; discriminate (Sw eq_refl)].
Qed.
Lemma mode_access_point_sound r h p ns i text wd name o args r' h' u : text_says text wd (port_name p) (element_of name) -> options_of wd = Ok o -> In p (ow_ports w) ->
  leads_to (pl_packages pl) (port_interface_ref p) ns (AR_ModeSwitchInterface i) ->
  create_mode_access w pl s r h p (path_string ns) i name o args = (r', h', Ok u) -> (exists a, Grants text (dict h args) a /\ r' = put r a) \/ (Nothing text /\ r' = r).
Proof.
  intros T O I L. unfold create_mode_access. destruct (pick_group i name) as [g|] eqn:Pk; cbn [step]; [|discriminate]. apply group_iff in Pk as [G Pk].
  destruct (take_name_spec h args) as (h1 & -> & Fu & _). pose proof (word_facts _ _ O) as (Kn & _ & _ & Ac & Sw & _). destruct p as [q|q|q].
  - rewrite p_group_ok by exact Logic.I. cbn [step]. rewrite (own_port_ref_at w pl self) by exact Stands. rewrite group_ref_at by eauto using leads_nonempty.
    destruct (ao_mode o) as [[]|] eqn:Em.
    + intros E. left. eapply mode_access_sound in E; eauto; (discriminate || reflexivity).
    + destruct (point_name _ _ _ _ _) as [n|] eqn:Pn; cbn [bind step]; [|discriminate]. apply point_name_iff in Pn.
      rewrite Fu. destruct (new_mode_switch_point _ _ _) as [a|] eqn:V; cbn [step]; [|discriminate]. apply switch_point_iff in V as ((V1 & V2) & V3 & V4). intros E. injection E as <- _ _. left.
      exists (SwitchPoint a). split; [|reflexivity]. eapply grants_switch; eauto. now apply Sw.
    + intros E. left. eapply mode_access_sound in E; eauto; (discriminate || reflexivity).
  - rewrite r_group_ok by exact Logic.I. cbn [step]. rewrite (own_port_ref_at w pl self) by exact Stands. rewrite group_ref_at by eauto using leads_nonempty.
    destruct (ao_mode o) as [[]|] eqn:Em.
    + intros E. left. eapply mode_access_sound in E; eauto; (discriminate || reflexivity).
    + intros E. injection E as <- _ _. right. split; [|reflexivity]. eapply no_switch; eauto. now apply Sw.
    + intros E. left. eapply mode_access_sound in E; eauto; (discriminate || reflexivity).
  - intros E. injection E as <- _ _. right. split; [|reflexivity]. eapply no_mode; eauto.
Qed.
Lemma item_sound r h text args r' h' u : create_item w pl s r h (AccessItem text args) = (r', h', Ok u) ->
  (exists a, Grants text (dict h args) a /\ r' = put r a) \/ (Nothing text /\ r' = r).
Proof.
  rewrite create_item_eq. destruct (parse_all text) as [[[o port] name]|] eqn:T; cbn [bind step]; [|discriminate]. apply parse_sound in T as (wd & T & O).
  destruct (first_named port_name port (ow_ports w)) as [p|] eqn:F; cbn [or_value_error bind step]; [|discriminate]. apply first_named_in in F as [I <-].
  destruct (get_interface pl p) as [[path f]|] eqn:G; cbn [bind step]; [|discriminate]. unfold create_access.
  destruct f as [|e| | | | | |]; try discriminate. apply get_interface_leads in G as (ns & -> & L).
  destruct e as [e|e|e|e|e|e|e|e|e|e|e|e|e|e|e|e|e|e|e|e|e]; try discriminate; intros E.
  - left. eapply data_sound in E; eauto. right. eauto.
  - left. eapply parameter_sound in E; eauto.
  - left. eapply data_sound in E; eauto. left. eauto.
  - eapply call_sound in E; eauto.
  - eapply mode_access_point_sound in E; eauto.
Qed.
End One.

Section Complete.
Context (w : owner) (pl : place) (self : list string) (s : settings) (Stands : stands_at w pl self) (Distinct : distinct w pl).
Notation Grants := (grants pl self (ow_ports w) s).
Notation Nothing := (grants_nothing pl (ow_ports w)).
Lemma item_start r h text args wd p o ns e : text_says text wd (port_name p) o -> known wd -> In p (ow_ports w) -> leads_to (pl_packages pl) (port_interface_ref p) ns e ->
  exists op n, options_of wd = Ok op /\ element_of n = o /\
    create_item w pl s r h (AccessItem text args) = create_access w pl s r h p (path_string ns) (FElement e) n op args.
Proof.
  intros T K I L. destruct (known_options wd K) as [op O]. destruct (parse_complete _ _ _ _ _ T O) as (n & P & E). exists op, n. splits; auto.
  rewrite create_item_eq, P. cbn [bind]. rewrite first_named_found by (exact I || apply Distinct). cbn [or_value_error bind]. rewrite (leads_interface _ _ _ _ L). reflexivity.
Qed.
Lemma names_of ns e p : leads_to (pl_packages pl) (port_interface_ref p) ns e -> NoDup (part_names e).
Proof. intros (x & _ & _ & A). destruct Distinct as [_ D]. exact (D _ _ A). Qed.
Lemma data_complete r h p ns ds name o wd k args d v : options_of wd = Ok o -> ns <> [] -> NoDup (map data_name ds) -> picks data_name ds (element_of name) d -> data_kind_for p wd k ->
  (exists n, has_name s (data_prefix k) (port_name p) (data_name d) (dict h args) n /\ identity n (dict h args) (VariableAccess_ident v)) ->
  VariableAccess_accessed_variable v = Some (mkAutosarVariableRef None
      (Some (mkVariableInAtomicSWCTypeInstanceRef (Some (ref_to_port self p)) None []
               (ref_inside ns (data_name d) IdentifiableSubTypes_VARIABLE_DATA_PROTOTYPE))) None) ->
  holds means_scope (dict h args) "scope" (VariableAccess_scope v) -> only ("scope" :: common) (dict h args) ->
  exists h', create_data_access w s r h p (path_string ns) ds name o args = (put r (DataPoint k v), h', Ok tt).
Proof.
  intros O N D Pk K (n & Nm & Id) V S On. unfold create_data_access. apply pick_iff in Pk; [|exact D]. rewrite Pk. cbn [or_runtime_error step].
  destruct (take_name_spec h args) as (h1 & -> & Fu & _). rewrite Fu. pose proof (data_append p wd o O) as Da. destruct (data_point p o) as [[setting append]|]; [|now apply Da in K].
  destruct Da as (k' & K' & -> & ->). rewrite <- (data_kind_fun _ _ _ _ K K'). cbn [bind]. rewrite (proj2 (point_name_iff _ _ _ _ _ _) Nm). cbn [bind].
  rewrite <- (variable_of_at w pl self) in V by assumption. rewrite (proj2 (variable_access_iff n w p (path_string ns) d (dict h args) v)) by auto. cbn [bind step]. eauto.
Qed.
Lemma item_complete r h text args a : Grants text (dict h args) a -> exists h', create_item w pl s r h (AccessItem text args) = (put r a, h', Ok tt).
Proof.
  intros G. remember (dict h args) as kw eqn:Ekw. destruct G as
   [text wd p o ns e ds d k kw v T K I L Di Pk Dk Nm V Sc On|text wd p o ns i g kw group T K I L Mg Pk Wd Gr|text wd p o ns i g kw group x T I L Mg Pk Wd Gr Nm Pr On|
    text wd p o ns i g kw x T I L Mg Pk Wd Nm Gr Pr On|text wd p n ns i d kw x T K I L Id Nd Nm Ac Pr Pp On|text wd p o ns i d kw x T I R L Pk Wd (n & Nm & Idn) Op Pr Ti On|
    text wd p o ns i d kw x T K I R L Pk Wd (n & Nm & Idn) Op Pr Ti Ar On]; subst kw.
  - destruct (item_start r h text args wd p o ns e T K I L) as (op & nm & O & <- & ->). pose proof (names_of _ _ _ L) as Nd. apply leads_nonempty in L.
    destruct Di as [(i & -> & ->)|(i & -> & ->)]; cbn [create_access part_names] in *; eapply data_complete; eauto.
  - destruct (item_start r h text args wd p o ns _ T K I L) as (op & nm & O & <- & ->). cbn [create_access]. unfold create_mode_access.
    rewrite (proj2 (group_iff i nm g)) by auto. cbn [step]. destruct (take_name_spec h args) as (h1 & -> & Fu & _). pose proof (word_facts _ _ O) as (_ & _ & _ & Ac & Sw & _).
    assert (M : ao_mode op = None).
    { destruct (ao_mode op) as [[]|]; [| |reflexivity]; destruct Wd; [exists "ACCESS"|exists "SWITCH"]; cbn; split; auto; [now apply Ac|now apply Sw]. }
    destruct p as [q|q|q]; [| |destruct Gr].
    + rewrite p_group_ok by exact Logic.I. cbn [step]. rewrite M. cbn [new_mode_access step]. rewrite (own_port_ref_at w pl self) by exact Stands. rewrite group_ref_at by eauto using leads_nonempty. subst group. cbn [put]. eauto.
    + rewrite r_group_ok by exact Logic.I. cbn [step]. rewrite M. cbn [new_mode_access step]. rewrite (own_port_ref_at w pl self) by exact Stands. rewrite group_ref_at by eauto using leads_nonempty. subst group. cbn [put]. eauto.
  - destruct (item_start r h text args wd p o ns _ T (ltac:(subst wd; cbn; tauto)) I L) as (op & nm & O & <- & ->). cbn [create_access]. unfold create_mode_access.
    rewrite (proj2 (group_iff i nm g)) by auto. cbn [step]. destruct (take_name_spec h args) as (h1 & -> & Fu & _). pose proof (word_facts _ _ O) as (_ & _ & _ & Ac & Sw & _).
    apply Ac in Wd. destruct Nm as (n & Nm & Idn). rewrite Wd. unfold new_mode_access. rewrite Fu. rewrite (proj2 (point_name_iff _ _ _ _ _ _) Nm). cbn [bind]. rewrite (proj2 (mode_ident_iff _ _ _) (conj Idn (conj Pr On))). cbn [bind].
    destruct p as [q|q|q]; [| |destruct Gr].
    + rewrite p_group_ok by exact Logic.I. cbn [step]. rewrite (own_port_ref_at w pl self) by exact Stands. rewrite group_ref_at by eauto using leads_nonempty. subst group. cbn [put]. eauto.
    + rewrite r_group_ok by exact Logic.I. cbn [step]. rewrite (own_port_ref_at w pl self) by exact Stands. rewrite group_ref_at by eauto using leads_nonempty. subst group. cbn [put]. eauto.
  - destruct (item_start r h text args wd _ o ns _ T (ltac:(subst wd; cbn; tauto)) I L) as (op & nm & O & <- & ->). cbn [create_access]. unfold create_mode_access.
    rewrite (proj2 (group_iff i nm g)) by auto. cbn [step]. destruct (take_name_spec h args) as (h1 & -> & Fu & _). pose proof (word_facts _ _ O) as (_ & _ & _ & Ac & Sw & _).
    apply Sw in Wd. destruct Nm as (n & Nm & Idn). rewrite Wd. rewrite Fu. rewrite (proj2 (point_name_iff _ _ _ _ _ _) Nm). cbn [bind].
    rewrite p_group_ok by exact Logic.I. cbn [step]. rewrite (own_port_ref_at w pl self) by exact Stands. rewrite group_ref_at by eauto using leads_nonempty.
    rewrite (proj2 (switch_point_iff _ _ _ _) (conj (conj Idn Pr) (conj Gr On))). cbn [step put]. eauto.
  - destruct (item_start r h text args wd _ _ ns _ T K I L) as (op & nm & O & En & ->). cbn [create_access]. unfold create_parameter_access, pick_parameter, element_of in *.
    destruct (String.eqb nm ""); [discriminate|]. injection En as ->. pose proof (names_of _ _ _ L) as Ndp. cbn [part_names] in Ndp. subst n.
    rewrite first_named_found by (rewrite ?map_rev; (now apply NoDup_rev) || (now apply -> in_rev)). cbn [or_runtime_error bind]. rewrite parameter_iref_ok, (parameter_of_at w pl self) by eauto using leads_nonempty.
    cbn [bind step]. destruct (take_name_spec h args) as (h1 & -> & Fu & _). rewrite Fu. destruct Nm as (n & Nm & Idn). rewrite (proj2 (point_name_iff _ _ _ _ _ _) Nm). cbn [bind].
    rewrite (proj2 (parameter_access_iff _ _ _ _) (conj (conj Idn Pr) (conj Ac (conj Pp On)))). cbn [step put]. eauto.
  - destruct (item_start r h text args wd _ o ns _ T (ltac:(subst wd; cbn; tauto)) I L) as (op & nm & O & <- & ->). cbn [create_access]. unfold create_call_access.
    pose proof (names_of _ _ _ L) as Nd. cbn [part_names] in Nd. apply pick_iff in Pk; [|exact Nd]. rewrite Pk. cbn [or_runtime_error step].
    destruct (take_name_spec h args) as (h1 & -> & Fu & _). pose proof (word_facts _ _ O) as (_ & _ & _ & _ & _ & As). apply As in Wd. rewrite Wd. rewrite (proj2 (point_name_iff _ _ _ _ _ _) Nm). cbn [bind].
    rewrite r_operation_ok, (operation_of_at w pl self) by eauto using leads_nonempty. cbn [bind step]. rewrite Fu. rewrite (proj2 (async_iff _ _ _ _) (conj (conj Idn Pr) (conj Op (conj Ti On)))). cbn [step put].
    destruct p; [destruct R| |]; eauto.
  - destruct (item_start r h text args wd _ o ns _ T K I L) as (op & nm & O & <- & ->). cbn [create_access]. unfold create_call_access.
    pose proof (names_of _ _ _ L) as Nd. cbn [part_names] in Nd. apply pick_iff in Pk; [|exact Nd]. rewrite Pk. cbn [or_runtime_error step].
    destruct (take_name_spec h args) as (h1 & -> & Fu & _). pose proof (word_facts _ _ O) as (_ & _ & _ & _ & _ & As). 
    assert (M : ao_call op = Sync) by (destruct (ao_call op); [destruct Wd; now apply As|reflexivity]). rewrite M. rewrite (proj2 (point_name_iff _ _ _ _ _ _) Nm). cbn [bind].
    rewrite r_operation_ok, (operation_of_at w pl self) by eauto using leads_nonempty. cbn [bind step]. cbv zeta.
    destruct (sync_kw h h1 args (mkROperationInAtomicSwcInstanceRef (Some (ref_to_port self p)) (ref_inside ns (operation_name d) IdentifiableSubTypes_CLIENT_SERVER_OPERATION)) Fu) as (A1 & A2 & A3).
    rewrite (proj2 (sync_iff _ _ _ _ _ A1 A2 A3) (conj (conj Idn Pr) (conj Op (conj Ti (conj Ar On))))). cbn [step put].
    destruct p; [destruct R| |]; eauto.
Qed.
Lemma nothing_complete r h text args : Nothing text -> exists h', create_item w pl s r h (AccessItem text args) = (r, h', Ok tt).
Proof.
  intros [t wd p o ns i g T I L Mg Pk Wd|t wd p o ns i g T K I L Mg Pk|t wd p o ns i d T K I L Pk].
  - destruct (item_start r h t args wd _ o ns _ T (ltac:(subst wd; cbn; tauto)) I L) as (op & nm & O & <- & ->). cbn [create_access]. unfold create_mode_access.
    rewrite (proj2 (group_iff i nm g)) by auto. cbn [step]. destruct (take_name_spec h args) as (h1 & -> & Fu & _). pose proof (word_facts _ _ O) as (_ & _ & _ & Ac & Sw & _).
    apply Sw in Wd. rewrite Wd. rewrite r_group_ok by exact Logic.I. cbn [step]. eauto.
  - destruct (item_start r h t args wd _ o ns _ T K I L) as (op & nm & O & <- & ->). cbn [create_access]. unfold create_mode_access.
    rewrite (proj2 (group_iff i nm g)) by auto. cbn [step]. destruct (take_name_spec h args) as (h1 & -> & Fu & _). eauto.
  - destruct (item_start r h t args wd _ o ns _ T K I L) as (op & nm & O & <- & ->). cbn [create_access]. unfold create_call_access.
    pose proof (names_of _ _ _ L) as Nd. cbn [part_names] in Nd. apply pick_iff in Pk; [|exact Nd]. rewrite Pk. cbn [or_runtime_error step].
    destruct (take_name_spec h args) as (h1 & -> & Fu & _). eauto.
Qed.
End Complete.

(** ** Several texts *)
Lemma dict_frame h h' args : (forall d, args = Some d -> h' d = h d) -> dict h' args = dict h args.
Proof. destruct args as [d|]; cbn; auto. Qed.
Lemma in_dicts text d l : In (AccessItem text (Some d)) l -> In d (dicts l).
Proof. intros I. unfold dicts. apply in_flat_map. eexists. split; [exact I|]. now left. Qed.
Lemma all_granted_ext pl self ports s h h' l r r' : (forall d, In d (dicts l) -> h' d = h d) -> all_granted pl self ports s h l r r' -> all_granted pl self ports s h' l r r'.
Proof.
  intros H G. induction G as [r|text args a l r r1 r2 G1 G2 G IH|text args l r r2 G1 G IH].
  - constructor.
  - eapply all_point; [|exact G2|apply IH; intros d D; apply H; cbn; apply in_or_app; now right].
    rewrite (dict_frame h h' args); [exact G1|]. intros d ->. apply H. now left.
  - apply all_nothing; [exact G1|]. apply IH; intros d D; apply H; cbn; apply in_or_app; now right.
Qed.
Lemma items_sound w pl self s r h l r' h' u : stands_at w pl self -> NoDup (dicts l) -> create_items w pl s r h l = (r', h', Ok u) ->
  all_granted pl self (ow_ports w) s h l r r'.
Proof.
  intros St. revert r h. induction l as [|x l IH]; intros r h N E; cbn [create_items] in E.
  - injection E as <- <- <-. constructor.
  - destruct (create_item w pl s r h x) as [[r1 h1] [u1|e]] eqn:I; [|discriminate]. destruct x as [text args|e]; [|discriminate].
    assert (N' : NoDup (dicts l)) by (cbn in N; destruct args; [now inversion N|exact N]).
    apply IH in E; [|exact N']. assert (G : all_granted pl self (ow_ports w) s h l r1 r').
    { eapply all_granted_ext; [|exact E]. intros d D. symmetry. eapply item_frame; [exact I|]. intros ->. cbn in N. now inversion N. }
    apply (item_sound w pl self s St) in I as [(a & Ga & ->)|(Ga & ->)]; [eapply all_point; eauto; now apply gains_iff|now apply all_nothing].
Qed.
Lemma items_complete w pl self s r h l r' : stands_at w pl self -> distinct w pl -> NoDup (dicts l) -> all_granted pl self (ow_ports w) s h l r r' ->
  exists h', create_items w pl s r h l = (r', h', Ok tt).
Proof.
  intros St Di N G. revert h N G. revert r r'. induction l as [|x l IH]; intros r r' h N G.
  - inversion G. subst. cbn. eauto.
  - assert (K : exists text args r1 h1, x = AccessItem text args /\ create_item w pl s r h x = (r1, h1, Ok tt) /\ all_granted pl self (ow_ports w) s h l r1 r').
    { inversion G as [|text args a l' ra r1 r2 G1 G2 G3|text args l' ra r2 G1 G3]; subst.
      - destruct (item_complete w pl self s St Di r h text args a G1) as [h1 E]. apply gains_iff in G2 as ->. do 4 eexists. splits; [reflexivity|exact E|exact G3].
      - destruct (nothing_complete w pl s Di r h text args G1) as [h1 E]. do 4 eexists. splits; [reflexivity|exact E|exact G3]. }
    destruct K as (text & args & r1 & h1 & -> & E & G'). cbn [create_items]. rewrite E.
    assert (N' : NoDup (dicts l)) by (cbn in N; destruct args; [now inversion N|exact N]).
    apply IH; [exact N'|]. eapply all_granted_ext; [|exact G']. intros d D. eapply item_frame; [exact E|]. intros ->. cbn in N. now inversion N.
Qed.
(** An exception: what came before it stays. *)
Lemma items_fail w pl s r h l r' h' e : create_items w pl s r h l = (r', h', Err e) ->
  exists l1 x l2 h1, l = l1 ++ x :: l2 /\ create_items w pl s r h l1 = (r', h1, Ok tt).
Proof.
  revert r h. induction l as [|x l IH]; intros r h E; cbn [create_items] in E; [discriminate|]. destruct (create_item w pl s r h x) as [[r1 h1] [[]|y]] eqn:I.
  - apply IH in E as (l1 & y & l2 & h2 & -> & E). exists (x :: l1), y, l2, h2. split; [reflexivity|]. cbn [create_items]. now rewrite I.
  - injection E as <- <- <-. apply item_fail in I as ->. exists [], x, l, h. split; reflexivity.
Qed.

(** ** The rest of the runnable *)
Lemma same_refl r : same_rest r r.
Proof. unfold same_rest. splits; reflexivity. Qed.
Lemma same_trans r r1 r2 : same_rest r r1 -> same_rest r1 r2 -> same_rest r r2.
Proof. unfold same_rest. intros H H'. repeat match goal with H : _ /\ _ |- _ => destruct H end. splits; congruence. Qed.
Lemma put_same r a : same_rest r (put r a).
Proof. destruct (proj2 (gains_iff r a (put r a)) eq_refl) as [H _]. exact H. Qed.
Lemma rename_all_length {A} (rename : string -> A -> A) names l : List.length (rename_all rename names l) = List.length l.
Proof. revert l. induction names as [|n names IH]; intros [|a l]; cbn; auto. Qed.
Lemma put_points r a : points (put r a) = S (points r).
Proof.
  destruct a as [[]?|?|?|?|?]; cbn [put]; unfold points, append_data_read_access, append_data_receive_point_by_argument, append_data_receive_point_by_value, append_data_write_access, append_data_send_point,
    append_mode_access_point, append_mode_switch_point, append_parameter_access, append_server_call_point, append_named; cbn; rewrite app_length, ?rename_all_length; cbn; lia.
Qed.
Lemma gains_all_app r l r1 l' r2 : gains_all r l r1 -> gains_all r1 l' r2 -> gains_all r (l ++ l') r2.
Proof. induction 1; cbn [app]; [auto|]. intros G. econstructor; eauto. Qed.
Lemma gains_all_count r l r' : gains_all r l r' -> same_rest r r' /\ points r' = (points r + List.length l)%nat.
Proof.
  induction 1 as [r|r a r1 l r2 G1 G2 [IH1 IH2]]; [split; [apply same_refl|cbn; lia]|]. apply gains_iff in G1 as ->. split; [eapply same_trans; [apply put_same|exact IH1]|].
  rewrite IH2, put_points. cbn. lia.
Qed.
Lemma item_gains w pl s r h x r' h' u : create_item w pl s r h x = (r', h', Ok u) -> exists l, gains_all r l r' /\ (List.length l <= 1)%nat.
Proof.
  destruct x as [text args|]; [|discriminate]. rewrite create_item_eq. destruct (bind _ _) as [[[[[o n] p] path] f]|e]; cbn [step]; [|discriminate].
  assert (One : forall (h1 : heap) (a : point), (put r a, h1, Ok tt) = (r', h', Ok u) -> exists l, gains_all r l r' /\ (List.length l <= 1)%nat).
  { intros h1 a E. injection E as <- _ _. exists [a]. split; [|cbn; lia]. econstructor; [now apply gains_iff|constructor]. }
  assert (None_ : forall (h1 : heap), (r, h1, Ok tt) = (r', h', Ok u) -> exists l, gains_all r l r' /\ (List.length l <= 1)%nat).
  { intros h1 E. injection E as <- _ _. exists []. split; [constructor|cbn; lia]. }
  assert (Step : forall (A : Type) (h1 : heap) (y : result A) (k : A -> outcome), (forall a, k a = (r', h', Ok u) -> exists l, gains_all r l r' /\ (List.length l <= 1)%nat) ->
            step r h1 y k = (r', h', Ok u) -> exists l, gains_all r l r' /\ (List.length l <= 1)%nat).
  { intros A h1 [a|e] k Hk E; cbn [step] in E; [eauto|discriminate]. }
  destruct (take_name_spec h args) as (h1 & Tn & _).
  unfold create_access. destruct f as [|e| | | | | |]; try discriminate.
  destruct e as [e|e|e|e|e|e|e|e|e|e|e|e|e|e|e|e|e|e|e|e|e]; try discriminate.
  - unfold create_data_access. apply Step. intros a. rewrite Tn. unfold data_point. destruct p; [|destruct (ao_access o); [destruct (ao_result o)|]|discriminate]; try destruct (ao_access o); cbn [bind];
      (destruct (point_name _ _ _ _ _); cbn [bind step]; [|discriminate]); (destruct (new_variable_access _ _ _ _) as [v|]; cbn [bind step]; [|discriminate]);
      first [apply (One h1 (DataPoint SendPoint v))|apply (One h1 (DataPoint WriteAccess v))|apply (One h1 (DataPoint ReceiveByArgument v))|
             apply (One h1 (DataPoint ReceiveByValue v))|apply (One h1 (DataPoint ReadAccess v))].
  - unfold create_parameter_access. apply Step. intros [a iref]. rewrite Tn. apply Step. intros v. apply (One h1 (ParameterPoint v)).
  - unfold create_data_access. apply Step. intros a. rewrite Tn. unfold data_point. destruct p; [|destruct (ao_access o); [destruct (ao_result o)|]|discriminate]; try destruct (ao_access o); cbn [bind];
      (destruct (point_name _ _ _ _ _); cbn [bind step]; [|discriminate]); (destruct (new_variable_access _ _ _ _) as [v|]; cbn [bind step]; [|discriminate]);
      first [apply (One h1 (DataPoint SendPoint v))|apply (One h1 (DataPoint WriteAccess v))|apply (One h1 (DataPoint ReceiveByArgument v))|
             apply (One h1 (DataPoint ReceiveByValue v))|apply (One h1 (DataPoint ReadAccess v))].
  - unfold create_call_access. apply Step. intros a. rewrite Tn. destruct p; [apply None_| |]; apply Step; intros [m iref]; destruct (ao_call o); apply Step; intros v;
      first [apply (One h1 (CallPoint (ServerCallPointElement_Async v)))|apply (One (put_operation h1 args iref) (CallPoint (ServerCallPointElement_Sync v)))].
  - unfold create_mode_access. apply Step. intros a. rewrite Tn. destruct p; [| |apply None_]; apply Step; intros g; destruct (ao_mode o) as [[]|]; try apply None_; apply Step; intros v;
      first [apply (One h1 (SwitchPoint v))|apply (One h1 (ModePoint v))].
Qed.
Lemma items_gains w pl s r h l : exists pts, gains_all r pts (fst (fst (create_items w pl s r h l))) /\ (List.length pts <= List.length l)%nat.
Proof.
  revert r h. induction l as [|x l IH]; intros r h; cbn [create_items]; [exists []; split; [constructor|cbn; lia]|]. destruct (create_item w pl s r h x) as [[r1 h1] [u|e]] eqn:E.
  - apply item_gains in E as (p1 & G & L). destruct (IH r1 h1) as (p2 & G2 & L2). exists (p1 ++ p2). split; [eapply gains_all_app; eauto|]. rewrite app_length. cbn. lia.
  - apply item_fail in E as ->. exists []. split; [constructor|cbn; lia].
Qed.
Lemma create_gains o r h l : exists pts, gains_all r pts (fst (fst (create_port_access o r h l))) /\ (List.length pts <= List.length l)%nat.
Proof.
  assert (Z : exists pts, gains_all r pts r /\ (List.length pts <= List.length l)%nat) by (exists []; split; [constructor|cbn; lia]).
  unfold create_port_access. destruct o as [w|]; [|exact Z]. destruct (ow_place w) as [pl|]; [|exact Z]. destruct (pl_settings pl) as [s|]; [|exact Z]. apply items_gains.
Qed.
Lemma calls_gains o calls : forall r, exists pts, gains_all r pts (calls_on o r calls) /\ (List.length pts <= List.length (List.concat (map snd calls)))%nat.
Proof.
  induction calls as [|[h l] calls IH]; intros r; cbn [calls_on fold_left fst snd map List.concat]; [exists []; split; [constructor|cbn; lia]|].
  destruct (create_gains o r h l) as (p1 & G1 & L1). destruct (IH (fst (fst (create_port_access o r h l)))) as (p2 & G2 & L2). exists (p1 ++ p2).
  split; [eapply gains_all_app; eauto|]. rewrite !app_length. lia.
Qed.
