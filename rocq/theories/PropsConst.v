(** C56: calibration values, value specifications and constants hold what is given. *)
From Verif Require Import Base PBase MNum MXml MEnum MRefTab MRef PRef MCodec MElem0 MElem1 MElemA MElemB MElemC MElem2 MElemD MElem3 MElem4 MElemE MElem5 MElemF MArxml MFind MStr SXml PXml2 SCodec PCodec SElem SElemA SElemB SElem1 SElem2 PElem2 PSame PropsArxml PropsElem MValue SValue PValue MEvent MPort SPort PPort MAccess SAccess PAccess MRunnable SRunnable PRunnable MIface SIface PIface MData SFormat SData PData MConst SConst PConst PropsValue.
Open Scope list_scope.
Ltac splits := repeat match goal with |- _ /\ _ => split end.

(** A ValueList holds the numbers given, alone, in a list or in a tuple, and nothing else makes one. *)
Theorem C56_value_list a l : make_value_list a = Ok (mkValueList l) <-> means_numbers a l.
Proof. exact (value_list_iff a l). Qed.
Theorem C56_value_list_append v a w : append_number v a = Ok w <-> exists x, means_any_number a x /\ ValueList_values w = ValueList_values v ++ [x].
Proof.
  unfold append_number. rewrite bind_iff. split.
  - intros (x & E & H). injection H as <-. exists x. split; [now apply number_of_iff|reflexivity].
  - intros (x & E & H). exists x. split; [now apply number_of_iff|]. destruct w. cbn in H. now subst.
Qed.
(** SwValues: texts, numbers and groups. *)
Theorem C56_values a l : make_sw_values a = Ok (mkSwValues l) <-> means_if_any means_sw_value a l.
Proof. exact (sw_values_iff a l). Qed.
Theorem C56_values_append v a w : append_sw_value v a = Ok w <-> exists x, means_sw_value a x /\ SwValues_values w = SwValues_values v ++ [x].
Proof.
  unfold append_sw_value. rewrite bind_iff. split.
  - intros (x & E & H). injection H as <-. exists x. split; [now apply sw_value_iff|reflexivity].
  - intros (x & E & H). exists x. split; [now apply sw_value_iff|]. destruct w. cbn in H. now subst.
Qed.
Theorem C56_value_group kw label values : new_value_group kw = Ok (label, values) <-> describes_group kw label values.
Proof. exact (new_group_iff kw label values). Qed.
(** The documented way to label a group with a text does not work. *)
Theorem C56_text_label_refuted s kw : given "label" kw = Some (AStr s) -> exists e, new_value_group kw = Err e.
Proof.
  intros G. destruct (new_value_group kw) as [[l v]|e] eqn:E; [|eauto]. apply C56_value_group in E as (_ & H & _). unfold holds in H. rewrite G in H.
  destruct l as [l|]; [|destruct H]. inversion H.
Qed.
(** Whatever is given in a tuple is ignored without an error. *)
Theorem C56_tuple_ignored l : make_sw_values (ATuple l) = Ok (mkSwValues []) /\
  (forall label, new_array_value label (ATuple l) = Ok (ArrayValueSpecification label [])) /\
  (forall label, new_record_value label (ATuple l) = Ok (RecordValueSpecification label [])).
Proof. splits; reflexivity. Qed.
(** Containers of calibration values. *)
Theorem C56_axis kw c : new_axis_cont kw = Ok c <-> describes_axis kw c.
Proof. exact (new_axis_iff kw c). Qed.
Theorem C56_value_container kw c : new_value_cont kw = Ok c <-> describes_value_cont kw c.
Proof. exact (new_value_cont_iff kw c). Qed.
(** Value specifications. *)
Theorem C56_text_value label a e : new_text_value label a = Ok e <->
  exists s, e = TextValueSpecification label s /\ match s with None => a = ANone | Some s => a <> ANone /\ means_text a s end.
Proof.
  assert (K : forall s, opt_text a = Ok s <-> match s with None => a = ANone | Some s => a <> ANone /\ means_text a s end).
  { intros s. pose proof (opt_text_iff [("k", a)] "k" s) as H. unfold holds in H. cbn in H. change (kwarg "k" [("k", a)]) with a in H.
    unfold opt_text. rewrite H. destruct a, s; split; intros X; try contradiction; try discriminate; try (destruct X; contradiction); try exact I; try reflexivity; try (split; [discriminate|exact X]); exact (proj2 X). }
  unfold new_text_value. rewrite bind_iff. split.
  - intros (s & E & H). injection H as <-. exists s. split; [reflexivity|]. now apply K.
  - intros (s & -> & H). exists s. split; [now apply K|reflexivity].
Qed.
Theorem C56_array label a e : new_array_value label a = Ok e <-> exists l, e = ArrayValueSpecification label l /\ means_if_any means_value_specification a l.
Proof.
  unfold new_array_value. rewrite bind_iff. split.
  - intros (l & E & H). injection H as <-. exists l. split; [reflexivity|]. now apply elements_iff.
  - intros (l & -> & H). exists l. split; [now apply elements_iff|reflexivity].
Qed.
Theorem C56_record label a e : new_record_value label a = Ok e <-> exists l, e = RecordValueSpecification label l /\ means_if_any means_value_specification a l.
Proof.
  unfold new_record_value. rewrite bind_iff. split.
  - intros (l & E & H). injection H as <-. exists l. split; [reflexivity|]. now apply elements_iff.
  - intros (l & -> & H). exists l. split; [now apply elements_iff|reflexivity].
Qed.
(** Appending puts the value at the end of an array or record and changes nothing else. *)
Theorem C56_append e a e' : append_value e a = Ok e' <->
  exists x, a = AObj (OValueSpecification x) /\
    ((exists label l, e = ArrayValueSpecification label l /\ e' = ArrayValueSpecification label (l ++ [x])) \/
     (exists label l, e = RecordValueSpecification label l /\ e' = RecordValueSpecification label (l ++ [x]))).
Proof.
  split.
  - destruct e; try discriminate; intros H; cbn [append_value] in H; apply bind_iff in H as (x & E & H); apply specification_iff in E; injection H as <-; exists x; split; eauto.
  - intros (x & -> & [(label & l & -> & ->)|(label & l & -> & ->)]); reflexivity.
Qed.
Theorem C56_application label kw e : new_application_value label kw = Ok e <->
  exists category axes value, e = ApplicationValueSpecification label category axes value /\ describes_application kw category axes value.
Proof. exact (new_application_iff label kw e). Qed.
Theorem C56_constant_reference label a e : new_constant_reference label a = Ok e <-> exists r, e = ConstantReference label r /\ means_constant a r.
Proof. exact (constant_reference_iff label a e). Qed.
(** Constants. *)
Theorem C56_constant name kw c : new_constant name kw = Ok c <-> describes_constant name kw c.
Proof. exact (new_constant_iff name kw c). Qed.
(** make_constant accepts exactly the data make_value accepts (C19), and the constant holds its value. *)
Theorem C56_make_constant name data kw c : make_constant name data kw = Ok c <->
  only common_arguments kw /\ identity name kw (ConstantSpecification_ident c) /\
  exists m e, make_value (data_of_arg data) = Ok m /\ spec_of (storable m) = Some e /\ ConstantSpecification_value c = Some e.
Proof.
  assert (NC : only common_arguments kw -> no_clash ["cls"; "name"; "value"] kw = Ok tt).
  { intros O. unfold no_clash. destruct (existsb _ (map fst kw)) eqn:E; [|reflexivity]. apply existsb_exists in E as (k & I & E). apply O in I.
    cbn in E. destruct I as [<-|[<-|[<-|[<-|[<-|[]]]]]]; discriminate. }
  unfold make_constant. split.
  - intros H. apply bind_iff in H as (u & _ & H). apply bind_iff in H as (m & M & H). apply bind_iff in H as (w & K & H). apply keywords_iff in K.
    apply bind_iff in H as (i & E & H). apply identifiable_iff in E. injection H as <-. cbn [ConstantSpecification_ident ConstantSpecification_value stored_value].
    destruct (proper_storable m) as [e P]; [exact (proj1 (C19_mirrors _ _ M))|]. rewrite P. splits; [exact K|exact E|]. exists m, e. auto.
  - intros (K & E & m & e & M & P & V). apply bind_iff. exists tt. split; [now apply NC|]. apply bind_iff. exists m. split; [exact M|].
    apply bind_iff. exists tt. split; [now apply keywords_iff|]. apply bind_iff. eexists. split; [apply identifiable_iff; exact E|]. cbn [stored_value]. rewrite P. destruct c as [i v]. cbn in V |- *. now subst.
Qed.
Theorem C56_make_constant_accepts name data kw : (exists c, make_constant name data kw = Ok c) <->
  only common_arguments kw /\ (exists i, identity name kw i) /\ acceptable (data_of_arg data).
Proof.
  split.
  - intros (c & H). apply C56_make_constant in H as (K & E & m & e & M & _). splits; [exact K|eauto|]. apply C19_accepts. eauto.
  - intros (K & (i & E) & A). apply C19_accepts in A as (m & M). destruct (proper_storable m) as [e P]; [exact (proj1 (C19_mirrors _ _ M))|].
    exists (mkConstantSpecification i (Some e)). apply C56_make_constant. splits; [exact K|exact E|]. exists m, e. auto.
Qed.
Lemma storable_spec m : forall e, spec_of m = Some e -> spec_of (storable m) = Some e.
Proof.
  assert (L : forall es, (forall a, In a es -> forall e, spec_of a = Some e -> spec_of (storable a) = Some e) -> forall r,
    (fix all l := match l with [] => Some [] | a :: r => match spec_of a, all r with Some b, Some s => Some (b :: s) | _, _ => None end end) es = Some r ->
    (fix all l := match l with [] => Some [] | a :: r => match spec_of a, all r with Some b, Some s => Some (b :: s) | _, _ => None end end) (map storable es) = Some r).
  { induction es as [|a es IH]; intros H r R; [exact R|]. cbn [map]. destruct (spec_of a) as [b|] eqn:B; [|discriminate].
    rewrite (H a (or_introl eq_refl) b B). match type of R with match ?t with _ => _ end = _ => destruct t as [s|] eqn:S; [|discriminate] end.
    rewrite (IH (fun x I => H x (or_intror I)) s eq_refl). exact R. }
  induction m as [l s|l d|l d|l es IH|l es IH] using made_ind2; intros e; cbn [storable].
  - auto.
  - destruct d; try discriminate; auto.
  - destruct d as [[z|f]| | | | | | ]; try discriminate; auto.
  - cbn [spec_of]. match goal with |- option_map _ ?t = _ -> _ => destruct t as [r|] eqn:R; [|discriminate] end. apply L in R; [|exact IH]. intros E. now rewrite R.
  - cbn [spec_of]. match goal with |- option_map _ ?t = _ -> _ => destruct t as [r|] eqn:R; [|discriminate] end. apply L in R; [|exact IH]. intros E. now rewrite R.
Qed.
(** A constant made from data that can be written is reloaded with an equal value (C25 says what equal
    means). *)
Theorem C56_make_constant_reloads v name data kw c : make_constant name data kw = Ok c -> writable_data (data_of_arg data) -> good_ident (ConstantSpecification_ident c) ->
  exists c', reloads_as (write_constant_specification v) (read_constant_specification v) c c' /\
    ConstantSpecification_ident c' = ConstantSpecification_ident c /\
    opt_rel same_value_spec (ConstantSpecification_value c) (ConstantSpecification_value c').
Proof.
  intros H W G. apply C56_make_constant in H as (_ & _ & m & e & M & P & V). destruct (proj1 (specified_deep _) W m M) as (e0 & Es & Ge).
  rewrite (storable_spec _ _ Es) in P. injection P as <-.
  assert (Gc : good_ConstantSpecification c) by (split; [exact G|rewrite V; exact Ge]). exists (norm_ConstantSpecification c). splits.
  - exact (carries_reloads _ _ _ _ _ (rt_ConstantSpecification v c Gc)).
  - reflexivity.
  - cbn [norm_ConstantSpecification ConstantSpecification_value]. rewrite V. cbn. apply same_norm_spec.
Qed.

(** Non-vacuity. *)
Example ex_lists : make_value_list (AList [ANum (NInt 3); ABool true; AObj (ONumericalValue (mkNum (NInt 31) FMT_HEXADECIMAL))]) =
    Ok (mkValueList [Bare (NInt 3); Bare (NInt 1); Wrapped (mkNum (NInt 31) FMT_HEXADECIMAL)]) /\
  make_value_list (AObj (ONumericalValue (mkNum (NInt 31) FMT_HEXADECIMAL))) = Err TypeError /\
  make_sw_values (AObj (ONumericalValue (mkNum (NInt 31) FMT_HEXADECIMAL))) = Ok (mkSwValues [SwNumber (Wrapped (mkNum (NInt 31) FMT_HEXADECIMAL))]) /\
  make_sw_values (AList [AStr "on"; AObj (OValueGroup None [SwText (Some "x")])]) = Ok (mkSwValues [SwText (Some "on"); SwGroup None [SwText (Some "x")]]).
Proof. splits; reflexivity. Qed.
Example ex_axis : new_axis_cont [("sw_axis_index", ANum (NInt 1)); ("unit_ref", AObj (ORef rc_UnitRef (mkRef "/Units/Rpm" IdentifiableSubTypes_UNIT)));
    ("sw_values_phys", AObj (OValueGroup (Some [mkLang Language_EN [PText "map"]]) [SwNumber (Bare (NInt 5))]))] =
  Ok (mkSwAxisCont None (Some (mkRef "/Units/Rpm" IdentifiableSubTypes_UNIT)) None (Some (IInt 1)) None (Some (mkSwValues [SwNumber (Bare (NInt 5))]))) /\
  new_axis_cont [("unit_ref", AStr "/Units/Rpm")] = Err TypeError.
Proof. split; reflexivity. Qed.
Example ex_group_label : new_value_group [("label", ATuple [AObj (OLanguage Language_EN); AStr "map"]); ("values", ANum (NInt 5))] =
  Ok (Some [mkLang Language_EN [PText "map"]], [SwNumber (Bare (NInt 5))]).
Proof. reflexivity. Qed.
Definition ex_constant_data : arg := ATuple [AStr "Init"; AList [AStr "R"; ANum (NInt (-5)); AList [AStr "a"; AStr "text"; ANone]]].
Definition ex_made_constant : ConstantSpecification :=
  mkConstantSpecification (mkIdent "Zero" None None (Some "VALUE") None None None None)
    (Some (RecordValueSpecification (Some "Init") [NumericalValueSpecification None (Some (Bare (NInt (-5))));
       ArrayValueSpecification None [TextValueSpecification None (Some "text"); NotAvailableValueSpecification None None]])).
Example ex_make_constant : make_constant "Zero" ex_constant_data [("category", AStr "VALUE")] = Ok ex_made_constant /\
  writable_data (data_of_arg ex_constant_data) /\ good_ident (ConstantSpecification_ident ex_made_constant).
Proof. splits; try reflexivity; try exact I; try good. all: cbn; splits; try exact I; try reflexivity; try good. Qed.

Print Assumptions C56_value_list.
Print Assumptions C56_value_list_append.
Print Assumptions C56_values.
Print Assumptions C56_values_append.
Print Assumptions C56_value_group.
Print Assumptions C56_text_label_refuted.
Print Assumptions C56_tuple_ignored.
Print Assumptions C56_axis.
Print Assumptions C56_value_container.
Print Assumptions C56_text_value.
Print Assumptions C56_array.
Print Assumptions C56_record.
Print Assumptions C56_append.
Print Assumptions C56_application.
Print Assumptions C56_constant_reference.
Print Assumptions C56_constant.
Print Assumptions C56_make_constant.
Print Assumptions C56_make_constant_accepts.
Print Assumptions C56_make_constant_reloads.
