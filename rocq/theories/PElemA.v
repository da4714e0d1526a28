(** Elements modelled by hand: round trips. *)
From Verif Require Import Base PBase MNames PNames MNum SNum PNum PNum3 PNum4 PropsNum MXml SXml PXml PXml2 MEnum PEnum MRefTab MRef SEnum PRef MCodec SCodec PCodec PPiece PIdent MElem0 PElem0 PElemRef MElemA SElemA.
Open Scope list_scope.

(** ** Numbers *)
Lemma dec_str_new d n : read_number (dec_str d) = Ok n -> nv_new (AText (dec_str d)) FMT_DEFAULT = Ok (mkNum n FMT_DEFAULT).
Proof.
  intros R. unfold nv_new. rewrite dec_str_nv, R. cbn [bind]. do 2 f_equal.
  assert (X : forall y, mem_char y (dec_str d) = false -> starts_with (String "0" (String y "")) (dec_str d) = false).
  { intros y Y. unfold starts_with. destruct (strip_prefix (String "0" (String y "")) (dec_str d)) as [r|] eqn:SP; [|reflexivity].
    apply strip_prefix_spec in SP. cbn [append] in SP. rewrite SP in Y. cbn [mem_char] in Y. rewrite Ascii.eqb_refl in Y.
    rewrite !orb_true_r in Y. discriminate. }
  rewrite (X "x"%char), (X "b"%char); auto; apply dec_str_mem; auto; discriminate.
Qed.
Lemma numval_text n : good_number n -> exists t, format_number n = Ok t /\ t <> "" /\ calm t /\
  nv_new (AText t) FMT_DEFAULT = Ok (mkNum (reread n) FMT_DEFAULT).
Proof.
  destruct n as [z|f]; intros G.
  - exists (zstr z). splits; [reflexivity|apply zstr_ne|apply zstr_calm|]. apply C16_decimal_literals.
  - destruct G as (f' & E & P & B). injection E as <-. destruct f as [neg| |neg c e].
    + exists (if neg then "-INF" else "INF"). destruct neg; splits; try discriminate; try reflexivity; now apply calmb_sound.
    + exists "NaN". splits; try discriminate; try reflexivity; now apply calmb_sound.
    + destruct (format_float_fin neg c e P B) as (d & F & C & R). exists (dec_str d).
      splits; auto; [apply dec_str_ne|apply dec_str_calm|]. apply dec_str_new. rewrite dec_str_read. now rewrite R.
Qed.
Lemma xchar_calm d : (d < 16)%N -> calm_char (xchar d).
Proof.
  intros H. assert (E : calm (String (xchar d) "")); [|apply E]. apply calmb_sound.
  assert (I : In d [0; 1; 2; 3; 4; 5; 6; 7; 8; 9; 10; 11; 12; 13; 14; 15]%N) by (cbn; lia).
  cbn in I. repeat (destruct I as [<-|I]; [reflexivity|]). destruct I.
Qed.
Lemma base_calm b z : (2 <= b <= 16)%N -> (0 <= z)%Z -> calm (base_str b z).
Proof.
  intros B Z0. unfold base_str. replace (z <? 0)%Z with false by (symmetry; now apply Z.ltb_ge). cbn [append].
  generalize (Z.to_N (Z.abs z)) as n. intros n. generalize (S (N.to_nat (N.log2 n))) as f.
  assert (H : forall f n tail, calm tail -> calm (base_digits f b n tail)); [|intros f; apply H; exact I].
  induction f as [|f IH]; intros m tail C; [exact C|]. cbn [base_digits]. cbv zeta.
  assert (C' : calm (String (xchar (m mod b)) tail)).
  { split; [|exact C]. apply xchar_calm. pose proof (N.mod_lt m b). lia. }
  destruct (m / b =? 0)%N; [exact C'|]. now apply IH.
Qed.
Lemma value_text n : good_value n -> exists t m, format_any n = Ok t /\ t <> "" /\ calm t /\ nv_new (AText t) FMT_DEFAULT = Ok m /\
  match nv_format m with
  | FMT_HEXADECIMAL | FMT_BINARY | FMT_SCIENTIFIC => Wrapped m
  | FMT_DEFAULT | FMT_DECIMAL => Bare (nv_value m)
  end = norm_value n.
Proof.
  assert (D : forall n, good_number n -> exists t m, format_number n = Ok t /\ t <> "" /\ calm t /\ nv_new (AText t) FMT_DEFAULT = Ok m /\
    match nv_format m with
    | FMT_HEXADECIMAL | FMT_BINARY | FMT_SCIENTIFIC => Wrapped m
    | FMT_DEFAULT | FMT_DECIMAL => Bare (nv_value m)
    end = Bare (reread n)).
  { intros m G. destruct (numval_text m G) as (t & F & N & C & R). exists t, (mkNum (reread m) FMT_DEFAULT). auto. }
  destruct n as [n|[n f]]; cbn [good_value norm_value nv_format nv_value format_any]; intros G; [now apply D|].
  assert (H : forall p b z, (b = 16%N /\ f = FMT_HEXADECIMAL /\ p = "0x") \/ (b = 2%N /\ f = FMT_BINARY /\ p = "0b") -> n = NInt z -> (0 <= z)%Z ->
    format_numval (mkNum n f) = Ok (p ++ base_str b z)%string -> exists t m, format_numval (mkNum n f) = Ok t /\ t <> "" /\ calm t /\ nv_new (AText t) FMT_DEFAULT = Ok m /\
    match nv_format m with
    | FMT_HEXADECIMAL | FMT_BINARY | FMT_SCIENTIFIC => Wrapped m
    | FMT_DEFAULT | FMT_DECIMAL => Bare (nv_value m)
    end = Wrapped (mkNum n f)).
  { intros p b z PB -> Z0 E. destruct (C16_format_round_trip z f Z0) as (t & T & R); [destruct PB as [(_ & -> & _)|(_ & -> & _)]; auto|].
    assert (t = (p ++ base_str b z)%string) by congruence. subst t. exists (p ++ base_str b z)%string, (mkNum (NInt z) f). splits; auto.
    - destruct PB as [(_ & _ & ->)|(_ & _ & ->)]; discriminate.
    - apply calm_app. split; [destruct PB as [(_ & _ & ->)|(_ & _ & ->)]; now apply calmb_sound|].
      apply base_calm; auto. destruct PB as [(-> & _)|(-> & _)]; lia.
    - destruct PB as [(_ & -> & _)|(_ & -> & _)]; reflexivity. }
  destruct f; try (now apply D); try contradiction; destruct G as (z & -> & Z0).
  - apply (H "0x" 16%N z); auto.
  - apply (H "0b" 2%N z); auto.
Qed.
Lemma c_value tag n : name_okb tag = true -> good_value n -> carries tag (content tag (format_any n)) rd_value (norm_value n).
Proof.
  intros N G. destruct (value_text n G) as (t & m & W & NE & C & R & E). unfold content. rewrite W.
  apply e_leaf; auto using attrs_ok_nil, calm_safe. unfold rd_value, rd_numval. rewrite text_opt_ne by assumption. rewrite R. cbn [bind]. now rewrite E.
Qed.
Lemma c_numval tag n : name_okb tag = true -> good_number n ->
  carries tag (content tag (format_number n)) (fun y => let* m := rd_numval y in Ok (nv_value m)) (reread n).
Proof.
  intros N G. destruct (numval_text n G) as (t & W & NE & C & R). unfold content. rewrite W.
  apply e_leaf; auto using attrs_ok_nil, calm_safe. unfold rd_numval. rewrite text_opt_ne by assumption. rewrite R. reflexivity.
Qed.

(** ** Limits *)
Lemma c_limit tag n ty : name_okb tag = true -> good_number n -> carries tag (write_limit tag (SNum n) ty) read_limit (reread n, ty).
Proof.
  intros N G. destruct (number_text n G) as (t & W & NE & C & R). destruct (ok_IntervalType ty) as (a & WA & RA & _ & _ & SA).
  unfold write_limit. rewrite WA. cbn [bind]. rewrite W. cbn [bind].
  apply e_leaf; auto using calm_safe. { now apply attrs_ok_one. }
  unfold read_limit. cbn [x_attrs assoc String.eqb Ascii.eqb Bool.eqb]. rewrite RA. cbn [bind]. unfold rd_number. rewrite text_opt_ne by assumption.
  rewrite R. reflexivity.
Qed.
Lemma p_limit tag o ty : name_okb tag = true -> limit_ok good_number o ty ->
  piece [tag] (if_set o (fun a => write_limit tag (SNum a) ty)) (fun k => child tag k read_limit = Ok (option_map (fun a => (reread a, ty)) o)).
Proof. intros N G. apply (p_child tag _ _ _ (fun a => (reread a, ty))). intros a ->. now apply c_limit. Qed.
Definition scalar_num (a : scalar) : pynum := match a with SNum n => n | SText _ => NInt 0 end.
Lemma p_limit_scalar tag o ty : name_okb tag = true -> limit_ok good_numeric o ty ->
  piece [tag] (if_set o (fun a => write_limit tag a ty)) (fun k => child tag k read_limit = Ok (option_map (fun a => (reread (scalar_num a), ty)) o)).
Proof.
  intros N G. apply (p_child tag _ _ _ (fun a => (reread (scalar_num a), ty))). intros a ->. cbn in G. destruct a as [n|s]; [|destruct G]. now apply c_limit.
Qed.
Lemma limit_back o ty : limit_ok good_number o ty -> limit_of (option_map (fun a => (reread a, ty)) o) = option_map reread o /\
  limit_type_of (option_map (fun a => (reread a, ty)) o) = ty.
Proof. destruct o as [a|]; cbn; auto. Qed.
Lemma limit_back_scalar o ty : limit_ok good_numeric o ty ->
  option_map SNum (limit_of (option_map (fun a => (reread (scalar_num a), ty)) o)) = option_map reread_scalar o /\
  limit_type_of (option_map (fun a => (reread (scalar_num a), ty)) o) = ty.
Proof. destruct o as [[n|s]|]; cbn; tauto || auto. Qed.

(** One element among children that may carry other tags *)
Lemma piece_among {A} T tag m (rd : xml -> result A) a (P : list xml -> Prop) : carries tag m rd a -> In tag T ->
  (forall k x, findall tag k = [x] -> rd x = Ok a -> (forall t, In t T -> t <> tag -> findall t k = []) -> P k) -> piece T m P.
Proof.
  intros (w & -> & E & S & R) I H. exists [w]. split; [reflexivity|]. split.
  - constructor; [|constructor]. split; auto. now rewrite E.
  - intros step d kids G. apply (H _ (element step d w)); auto.
    + rewrite (G tag I). cbn. rewrite x_tag_element, E, String.eqb_refl. reflexivity.
    + intros t J N. rewrite (G t J). cbn. rewrite x_tag_element, E. destruct (String.eqb_spec t tag) as [Y|Y]; [contradiction|reflexivity].
Qed.

(** ** Computations *)
Lemma c_text tag s : name_okb tag = true -> good_text s -> carries tag (content tag (Ok s)) rd_text (Some s).
Proof. intros N [NE SF]. apply e_leaf; auto using attrs_ok_nil. unfold rd_text. now rewrite text_opt_ne. Qed.
Lemma rt_CompuConst v tag e : name_okb tag = true -> good_CompuConst e -> carries tag (write_compu_const v tag e) (read_compu_const v) (norm_CompuConst e).
Proof.
  intros NT G. destruct e as [[[n|s]|]]; unfold good_CompuConst in G; cbn in G; [| |destruct G]; unfold write_compu_const, norm_CompuConst; cbn [CompuConst_value option_map reread_scalar].
  - eapply e_node; [apply (piece_among ["V"; "VT"] "V" _ _ _ (fun k => read_compu_const v (Elem "" [] "" k []) = Ok (mkCompuConst (Some (SNum (reread n))))) (c_number "V" n eq_refl G) (or_introl eq_refl))| exact NT|exact attrs_ok_nil|].
    + intros k x F R O. unfold read_compu_const. cbn [x_kids]. rewrite !get_findall, F, (O "VT") by (cbn; auto; discriminate). cbn [hd_error]. now rewrite R.
    + intros t k ktl H. exact H.
  - eapply e_node; [apply (piece_among ["V"; "VT"] "VT" _ _ _ (fun k => read_compu_const v (Elem "" [] "" k []) = Ok (mkCompuConst (Some (SText s)))) (c_text "VT" s eq_refl G) (or_intror (or_introl eq_refl)))| exact NT|exact attrs_ok_nil|].
    + intros k x F R O. unfold read_compu_const. cbn [x_kids]. rewrite !get_findall, F, (O "V") by (cbn; auto; discriminate). cbn [hd_error].
      unfold rd_text in R. now injection R as ->.
    + intros t k ktl H. exact H.
Qed.
Lemma rt_CompuRational v e : good_CompuRational e -> carries "COMPU-RATIONAL-COEFFS" (write_compu_rational v e) (read_compu_rational v) (norm_CompuRational e).
Proof.
  intros (N & Gn & Gd). unfold write_compu_rational. destruct (CompuRational_numerator e) as [l|] eqn:El; [|congruence]. cbn [unset andb]. rewrite <- El in *.
  assert (C : forall tag l, name_okb tag = true -> all_ok good_number l ->
    carries tag (node tag [] (write_numerator_denominator_values l)) read_compu_numerator_denominator_values (map reread l)).
  { intros tag l' NT A. unfold write_numerator_denominator_values, read_compu_numerator_denominator_values. apply c_list; auto. intros a I. apply c_numval; [reflexivity|]. eapply all_in; eauto. }
  eapply e_node; [|reflexivity|exact attrs_ok_nil|].
  { eapply piece_cons.
    { exact (p_child "COMPU-NUMERATOR" _ _ _ (map reread) (fun a E => C "COMPU-NUMERATOR" a eq_refl (opt_in _ _ a Gn E))). }
    { eapply piece_cat1. exact (p_child "COMPU-DENOMINATOR" _ _ _ (map reread) (fun a E => C "COMPU-DENOMINATOR" a eq_refl (opt_in _ _ a Gd E))). }
    reflexivity. }
  intros t k ktl H. cbv beta in H. unand H. unfold read_compu_rational. cbn [x_kids]. use_facts. unfold norm_CompuRational. rewrite El. reflexivity.
Qed.
Lemma p_scale_content v o : opt_ok good_CompuScaleContent o -> piece ["COMPU-CONST"; "COMPU-RATIONAL-COEFFS"]
  (if_set o (fun a => match a with ScaleConst c => write_compu_const v "COMPU-CONST" c | ScaleRational r => write_compu_rational v r end))
  (fun k => read_scale_content v k = Ok (option_map norm_CompuScaleContent o)).
Proof.
  intros G. destruct o as [[c|r]|]; cbn [if_set option_map norm_CompuScaleContent].
  - eapply piece_among; [exact (rt_CompuConst v "COMPU-CONST" c eq_refl G)|now left|]. intros k x F R O. unfold read_scale_content.
    rewrite !get_findall, F, (O "COMPU-RATIONAL-COEFFS") by (cbn; auto; discriminate). cbn [hd_error]. now rewrite R.
  - eapply piece_among; [exact (rt_CompuRational v r G)|right; now left|]. intros k x F R O. unfold read_scale_content.
    rewrite !get_findall, F, (O "COMPU-CONST") by (cbn; auto; discriminate). cbn [hd_error]. now rewrite R.
  - apply piece_none. intros k O. unfold read_scale_content. rewrite !get_findall, !O by (cbn; auto). reflexivity.
Qed.
Lemma rt_CompuScale v e : good_CompuScale e -> carries "COMPU-SCALE" (write_compu_scale v e) (read_compu_scale v) (norm_CompuScale e).
Proof.
  intros (Gc & Gl & Gu & Glab & Gsym & Gdesc & Ginv). unfold write_compu_scale. eapply e_node; [|reflexivity|exact attrs_ok_nil|].
  { eapply piece_cons; [exact (p_text "SHORT-LABEL" _ eq_refl Glab)| |].
    eapply piece_cons; [exact (p_text "SYMBOL" _ eq_refl Gsym)| |].
    eapply piece_cons; [exact (p_child_id "DESC" _ _ _ (fun a E => c_langs "DESC" "L-2" a eq_refl eq_refl (opt_in _ _ a Gdesc E)))| |].
    eapply piece_cons; [exact (p_child_id "MASK" _ _ _ (fun a E => c_int "MASK" a eq_refl))| |].
    eapply piece_cons; [exact (p_limit_scalar "LOWER-LIMIT" _ _ eq_refl Gl)| |].
    eapply piece_cons; [exact (p_limit_scalar "UPPER-LIMIT" _ _ eq_refl Gu)| |].
    eapply piece_cons; [exact (p_child "COMPU-INVERSE-VALUE" _ _ _ norm_CompuConst (fun a E => rt_CompuConst v "COMPU-INVERSE-VALUE" a eq_refl (opt_in _ _ a Ginv E)))| |].
    eapply piece_cat1. exact (p_scale_content v _ Gc). all: reflexivity. }
  intros t k ktl H. cbv beta in H. unand H. unfold read_compu_scale. cbn [x_kids]. use_facts.
  destruct (limit_back_scalar _ _ Gl) as (-> & ->), (limit_back_scalar _ _ Gu) as (-> & ->). reflexivity.
Qed.
Lemma rt_Computation v tag e : name_okb tag = true -> good_Computation e -> carries tag (write_computation v tag e) (read_computation v) (norm_Computation e).
Proof.
  intros NT (Gs & Gd). unfold write_computation. eapply e_node; [|exact NT|exact attrs_ok_nil|].
  { eapply piece_cons; [refine (p_child "COMPU-SCALES" _ _ (read_compu_scales v) (map norm_CompuScale) (fun a E => c_list "COMPU-SCALES" "COMPU-SCALE" a _ (read_compu_scale v) norm_CompuScale eq_refl _))| |].
    { intros b I. apply rt_CompuScale. eapply all_in; [|exact I]. exact (opt_in _ _ a Gs E). }
    eapply piece_cat1. exact (p_child "COMPU-DEFAULT-VALUE" _ _ _ norm_CompuConst (fun a E => rt_CompuConst v "COMPU-DEFAULT-VALUE" a eq_refl (opt_in _ _ a Gd E))).
    all: reflexivity. }
  intros t k ktl H. cbv beta in H. unand H. unfold read_computation. cbn [x_kids]. use_facts. reflexivity.
Qed.
Lemma rt_CompuMethod v e : good_CompuMethod e -> carries "COMPU-METHOD" (write_compu_method v e) (read_compu_method v) (norm_CompuMethod e).
Proof.
  intros (Gi & Gip & Gpi & Gu & Gd). unfold write_compu_method. eapply e_node; [|reflexivity|exact (ident_attrs _ Gi)|].
  { eapply p_ident; [exact Gi| |].
    { eapply piece_cons; [exact (p_text "DISPLAY-FORMAT" _ eq_refl Gd)| |].
      eapply piece_cons; [exact (p_child_id "UNIT-REF" _ _ _ (fun a E => k_UnitRef v "UNIT-REF" a eq_refl (opt_in _ _ a Gu E)))| |].
      eapply piece_cons; [exact (p_child "COMPU-INTERNAL-TO-PHYS" _ _ _ norm_Computation (fun a E => rt_Computation v "COMPU-INTERNAL-TO-PHYS" a eq_refl (opt_in _ _ a Gip E)))| |].
      eapply piece_cat1. exact (p_child "COMPU-PHYS-TO-INTERNAL" _ _ _ norm_Computation (fun a E => rt_Computation v "COMPU-PHYS-TO-INTERNAL" a eq_refl (opt_in _ _ a Gpi E))).
      all: reflexivity. }
    reflexivity. }
  intros t k ktl H. cbv beta in H. unand H. unfold read_compu_method. cbn [x_attrs x_kids].
  match goal with H : ident_read _ k |- _ => rewrite (H _ (with_uuid _ Gi)); clear H end. cbn [bind]. use_facts. rewrite new_ident by assumption. reflexivity.
Qed.

(** ** Constraints *)
Lemma rt_ScaleConstraint v e : good_ScaleConstraint e -> carries "SCALE-CONSTR" (write_scale_constraint v e) (read_scale_constraint v) (norm_ScaleConstraint e).
Proof.
  intros (Gl & Gu & Glab & Gdesc). unfold write_scale_constraint.
  assert (A : exists attr, match ScaleConstraint_validity e with
               | None => Ok []
               | Some a => let* t := enum_text em_ScaleConstraintValidity a in Ok [("VALIDITY", t)]
               end = Ok attr /\ attrs_ok attr).
  { destruct (ScaleConstraint_validity e) as [a|]; [|eauto using attrs_ok_nil]. destruct (ok_ScaleConstraintValidity a) as (t & W & _ & _ & _ & SA).
    rewrite W. cbn [bind]. eexists. split; [reflexivity|]. now apply attrs_ok_one. }
  destruct A as (attr & -> & AO). cbn [bind].
  destruct (ScaleConstraint_is_empty e) eqn:E.
  { unfold ScaleConstraint_is_empty in E. apply e_leaf; auto; [apply calm_safe; exact I|]. destruct e as [lo hi lt ht lab desc va]. cbn in *. emptied E. subst. cbn in Gl, Gu. subst. reflexivity. }
  eapply e_node; [|reflexivity|exact AO|].
  { eapply piece_cons; [exact (p_text "SHORT-LABEL" _ eq_refl Glab)| |].
    eapply piece_cons; [exact (p_child_id "DESC" _ _ _ (fun a E => c_langs "DESC" "L-2" a eq_refl eq_refl (opt_in _ _ a Gdesc E)))| |].
    eapply piece_cons; [exact (p_limit "LOWER-LIMIT" _ _ eq_refl Gl)| |].
    eapply piece_cat1. exact (p_limit "UPPER-LIMIT" _ _ eq_refl Gu). all: reflexivity. }
  intros t k ktl H. cbv beta in H. unand H. unfold read_scale_constraint. cbn [x_kids]. use_facts.
  destruct (limit_back _ _ Gl) as (-> & ->), (limit_back _ _ Gu) as (-> & ->). reflexivity.
Qed.
Definition constraint_tags := ["LOWER-LIMIT"; "UPPER-LIMIT"; "SCALE-CONSTRS"; "MAX-GRADIENT"; "MAX-DIFF"; "MONOTONY"].
Lemma p_constraint_base v e : good_ConstraintBase e -> piece constraint_tags (write_constraint_base v e)
  (fun k => read_constraint_base v k = Ok (norm_ConstraintBase e)).
Proof.
  intros (Gl & Gu & Gs & Gg & Gd). unfold write_constraint_base, constraint_tags. eapply piece_imp.
  { change ["LOWER-LIMIT"; "UPPER-LIMIT"; "SCALE-CONSTRS"; "MAX-GRADIENT"; "MAX-DIFF"; "MONOTONY"] with
      (["LOWER-LIMIT"] ++ ["UPPER-LIMIT"] ++ ["SCALE-CONSTRS"] ++ ["MAX-GRADIENT"] ++ ["MAX-DIFF"] ++ ["MONOTONY"]).
    eapply piece_cons; [exact (p_limit "LOWER-LIMIT" _ _ eq_refl Gl)| |].
    eapply piece_cons; [exact (p_limit "UPPER-LIMIT" _ _ eq_refl Gu)| |].
    eapply piece_cons; [exact (p_children "SCALE-CONSTRS" "SCALE-CONSTR" _ _ _ norm_ScaleConstraint eq_refl (fun a I => rt_ScaleConstraint v a (all_in _ _ a Gs I)))| |].
    eapply piece_cons; [exact (p_child "MAX-GRADIENT" _ _ _ reread (fun a E => c_number "MAX-GRADIENT" a eq_refl (opt_in _ _ a Gg E)))| |].
    eapply piece_cons; [exact (p_child "MAX-DIFF" _ _ _ reread (fun a E => c_number "MAX-DIFF" a eq_refl (opt_in _ _ a Gd E)))| |].
    eapply piece_cat1. exact (p_child_id "MONOTONY" _ _ _ (fun a E => c_enum em_Monotony "MONOTONY" a ok_Monotony eq_refl)).
    all: reflexivity. }
  intros k H. cbv beta in H. unand H. unfold read_constraint_base. use_facts.
  destruct (limit_back _ _ Gl) as (-> & ->), (limit_back _ _ Gu) as (-> & ->). reflexivity.
Qed.
Lemma constraint_empty e : ConstraintBase_is_empty e = true -> good_ConstraintBase e -> read_constraint_base 0 [] = Ok (norm_ConstraintBase e).
Proof.
  intros E (Gl & Gu & _). unfold ConstraintBase_is_empty in E. destruct e as [lo hi lt ht sc g dd m]. cbn in *. emptied E. subst. cbn in Gl, Gu. subst. reflexivity.
Qed.
Lemma rt_InternalConstraint v e : good_InternalConstraint e -> carries "INTERNAL-CONSTRS" (write_internal_constraint v e) (read_internal_constraint v) (norm_InternalConstraint e).
Proof.
  intros G. unfold write_internal_constraint. destruct (ConstraintBase_is_empty _) eqn:E.
  { apply e_empty; [reflexivity|]. unfold read_internal_constraint. cbn [x_kids]. change (read_constraint_base v []) with (read_constraint_base 0 []). rewrite (constraint_empty _ E G). reflexivity. }
  eapply e_node; [exact (p_constraint_base v _ G)|reflexivity|exact attrs_ok_nil|].
  intros t k ktl H. cbv beta in H. unfold read_internal_constraint. cbn [x_kids]. use_facts. reflexivity.
Qed.
Lemma rt_PhysicalConstraint v e : good_PhysicalConstraint e -> carries "PHYS-CONSTRS" (write_physical_constraint v e) (read_physical_constraint v) (norm_PhysicalConstraint e).
Proof.
  intros (G & Gu). unfold write_physical_constraint. destruct (ConstraintBase_is_empty _ && _) eqn:E.
  { apply e_empty; [reflexivity|]. apply andb_true_iff in E. destruct E as [E U]. apply unset_none in U.
    unfold read_physical_constraint. cbn [x_kids]. change (read_constraint_base v []) with (read_constraint_base 0 []). rewrite (constraint_empty _ E G).
    unfold norm_PhysicalConstraint. rewrite U. reflexivity. }
  eapply e_node; [|reflexivity|exact attrs_ok_nil|].
  { eapply piece_cons; [exact (p_constraint_base v _ G)| |].
    eapply piece_cat1. exact (p_child_id "UNIT-REF" _ _ _ (fun a E => k_UnitRef v "UNIT-REF" a eq_refl (opt_in _ _ a Gu E))). all: reflexivity. }
  intros t k ktl H. cbv beta in H. unand H. unfold read_physical_constraint. cbn [x_kids]. use_facts. reflexivity.
Qed.
Lemma rt_DataConstraintRule v e : good_DataConstraintRule e -> carries "DATA-CONSTR-RULE" (write_data_constraint_rule v e) (read_data_constraint_rule v) (norm_DataConstraintRule e).
Proof.
  intros (Gi & Gp). unfold write_data_constraint_rule. destruct (_ && _) eqn:E.
  { apply e_empty; [reflexivity|]. destruct e. cbn in E. emptied E. subst. reflexivity. }
  eapply e_node; [|reflexivity|exact attrs_ok_nil|].
  { eapply piece_cons; [exact (p_child_id "CONSTR-LEVEL" _ _ _ (fun a E => c_int "CONSTR-LEVEL" a eq_refl))| |].
    eapply piece_cons; [exact (p_child "PHYS-CONSTRS" _ _ _ norm_PhysicalConstraint (fun a E => rt_PhysicalConstraint v a (opt_in _ _ a Gp E)))| |].
    eapply piece_cat1. exact (p_child "INTERNAL-CONSTRS" _ _ _ norm_InternalConstraint (fun a E => rt_InternalConstraint v a (opt_in _ _ a Gi E))). all: reflexivity. }
  intros t k ktl H. cbv beta in H. unand H. unfold read_data_constraint_rule. cbn [x_kids]. use_facts. reflexivity.
Qed.
Lemma rt_DataConstraint v e : good_DataConstraint e -> carries "DATA-CONSTR" (write_data_constraint v e) (read_data_constraint v) (norm_DataConstraint e).
Proof.
  intros (Gi & Gr). unfold write_data_constraint. eapply e_node; [|reflexivity|exact (ident_attrs _ Gi)|].
  { eapply p_ident; [exact Gi| |].
    { eapply piece_cat1. exact (p_children "DATA-CONSTR-RULES" "DATA-CONSTR-RULE" _ _ _ norm_DataConstraintRule eq_refl (fun a I => rt_DataConstraintRule v a (all_in _ _ a Gr I))). }
    reflexivity. }
  intros t k ktl H. cbv beta in H. unand H. unfold read_data_constraint. cbn [x_attrs x_kids].
  match goal with H : ident_read _ k |- _ => rewrite (H _ (with_uuid _ Gi)); clear H end. cbn [bind]. use_facts. rewrite new_ident by assumption. reflexivity.
Qed.

(** ** Values *)
Lemma rt_ValueList v e : good_ValueList e -> carries "SW-ARRAYSIZE" (write_value_list v e) (read_value_list v) (norm_ValueList e).
Proof.
  intros G. unfold write_value_list. destruct (no_items _) eqn:E.
  { apply e_empty; [reflexivity|]. apply no_items_nil in E. unfold norm_ValueList. rewrite E. reflexivity. }
  eapply carries_as; [exact (c_list "SW-ARRAYSIZE" "V" (ValueList_values e) _ rd_value norm_value eq_refl (fun a I => c_value "V" a eq_refl (all_in _ _ a G I)))|].
  intros x T R. unfold read_value_list. rewrite R. reflexivity.
Qed.
Fixpoint sw_value_ind2 (P : sw_value -> Prop) (Ht : forall s, P (SwText s)) (Hn : forall n, P (SwNumber n))
  (Hg : forall l vs, (forall a, In a vs -> P a) -> P (SwGroup l vs)) (e : sw_value) {struct e} : P e :=
  match e with
  | SwText s => Ht s
  | SwNumber n => Hn n
  | SwGroup l vs => Hg l vs ((fix all vs : forall a, In a vs -> P a :=
      match vs with
      | [] => fun a (I : In a []) => match I with end
      | b :: r => fun a (I : In a (b :: r)) => match I with
                                               | or_introl E => eq_ind b P (sw_value_ind2 P Ht Hn Hg b) a E
                                               | or_intror J => all r a J
                                               end
      end) vs)
  end.
Lemma new_sw_values_ok l : all_ok good_sw_value l -> new_sw_values (map norm_sw_value l) = Ok (map norm_sw_value l).
Proof.
  induction l as [|a l IH]; intros G; [reflexivity|]. destruct G as [G Gl]. cbn [map new_sw_values].
  destruct a as [[s|]|n|lab vs]; cbn [norm_sw_value]; [|destruct G| |]; now rewrite (IH Gl).
Qed.
Definition sw_value_ok (a : sw_value) : Prop :=
  exists tag, tag <> "LABEL" /\ carries tag (write_sw_value a) read_sw_value (Some (norm_sw_value a)).
Lemma sw_values_ok l : (forall a, In a l -> sw_value_ok a) ->
  exists L, for_each l write_sw_value = Ok L /\ Forall (fun w => w_tag w <> "LABEL" /\ safe w) L /\ (l <> [] -> L <> []) /\
    forall step d, collect read_sw_value (map (element step d) L) = Ok (map norm_sw_value l).
Proof.
  induction l as [|a l IH]; intros H.
  - exists []. splits; auto.
  - destruct (H a (or_introl eq_refl)) as (tag & NL & w & W & T & SF & R). destruct IH as (L & E & F & _ & M); [intros; apply H; now right|].
    exists (w :: L). unfold for_each in *. cbn [map cat]. rewrite W, E. cbn. splits; auto; try discriminate.
    + constructor; auto. split; auto. congruence.
    + intros step d. rewrite R. cbn [bind]. rewrite M. reflexivity.
Qed.
Lemma rt_sw_value e : good_sw_value e -> sw_value_ok e.
Proof.
  induction e as [s|n|l vs IH] using sw_value_ind2; intros G.
  - destruct s as [s|]; [|destruct G]. exists "VT". split; [discriminate|]. cbn [write_sw_value]. destruct G as [NE SF].
    apply e_leaf; auto using attrs_ok_nil. cbn [read_sw_value String.eqb Ascii.eqb Bool.eqb]. rewrite text_opt_ne by assumption. reflexivity.
  - exists "V". split; [discriminate|]. cbn [write_sw_value]. eapply carries_as; [exact (c_value "V" n eq_refl G)|].
    intros [tag a t k] T R. cbn in T. subst tag. cbn [read_sw_value String.eqb Ascii.eqb Bool.eqb]. rewrite R. reflexivity.
  - exists "VG". split; [discriminate|]. cbn [good_sw_value] in G. destruct G as [Gl Gv]. cbn [write_sw_value].
    destruct (unset l && no_items vs) eqn:E.
    { apply andb_true_iff in E. destruct E as [E1 E2]. apply unset_none in E1. apply no_items_nil in E2. subst. now apply e_empty. }
    destruct (sw_values_ok vs) as (L & W & F & NE & C). { intros a I. apply IH; auto. eapply all_in; eauto. }
    cbn [cat]. rewrite W. destruct l as [l|]; cbn [if_set].
    + destruct (c_langs "LABEL" "L-4" l eq_refl eq_refl Gl) as (w & WL & TL & SL & RL). rewrite WL. cbn [andthen bind].
      rewrite app_nil_r. apply (c_node _ _ _ _ _ (w :: L)); auto using attrs_ok_nil.
      * constructor; auto. eapply Forall_impl; [|exact F]. intros b []. auto.
      * intros step d. cbn [element map]. destruct (element step (S d) w) as [lt la ltx lk] eqn:Ew.
        assert (lt = "LABEL"). { pose proof (x_tag_element step (S d) w) as X. rewrite Ew, TL in X. exact X. } subst lt.
        cbn [read_sw_value String.eqb Ascii.eqb Bool.eqb]. rewrite <- Ew, RL. cbn [bind]. rewrite C. cbn [bind]. rewrite new_sw_values_ok by assumption. reflexivity.
    + cbn [andthen bind]. apply (c_node _ _ _ _ _ L); auto using attrs_ok_nil.
      * cbn. now rewrite app_nil_r.
      * eapply Forall_impl; [|exact F]. intros b []. auto.
      * intros step d. cbn [element]. specialize (C step (S d)). destruct L as [|w L].
        { destruct vs; [discriminate|]. exfalso. now apply NE. }
        cbn [map] in *. destruct (element step (S d) w) as [lt la ltx lk] eqn:Ew.
        assert (X : lt = w_tag w). { pose proof (x_tag_element step (S d) w) as X. now rewrite Ew in X. }
        inversion F as [|? ? [NL _] _]. subst. cbn [read_sw_value String.eqb Ascii.eqb Bool.eqb].
        destruct (String.eqb_spec (w_tag w) "LABEL") as [Y|Y]; [congruence|]. rewrite C. cbn [bind]. rewrite new_sw_values_ok by assumption. reflexivity.
Qed.
Lemma rt_SwValues v e : good_SwValues e -> carries "SW-VALUES-PHYS" (write_sw_values v e) (read_sw_values v) (norm_SwValues e).
Proof.
  intros G. unfold write_sw_values. destruct (no_items _) eqn:E.
  { apply e_empty; [reflexivity|]. apply no_items_nil in E. unfold norm_SwValues. rewrite E. reflexivity. }
  destruct (sw_values_ok (SwValues_values e)) as (L & W & F & NE & C). { intros a I. apply rt_sw_value. eapply all_in; eauto. }
  apply (c_node _ _ _ _ _ L); auto using attrs_ok_nil.
  - eapply Forall_impl; [|exact F]. intros b []. auto.
  - intros step d. unfold read_sw_values. cbn [element x_kids]. rewrite C. cbn [bind]. rewrite new_sw_values_ok by exact G. reflexivity.
Qed.
Lemma c_index tag i : name_okb tag = true -> good_index i -> carries tag (content tag (Ok (index_text i))) rd_index i.
Proof.
  intros N G. destruct i as [z|s]; cbn [index_text].
  - apply e_leaf; auto using attrs_ok_nil, calm_safe, zstr_calm. unfold rd_index. rewrite text_opt_ne by apply zstr_ne. now rewrite int10_zstr.
  - destruct G as [[NE SF] I]. apply e_leaf; auto using attrs_ok_nil. unfold rd_index. rewrite text_opt_ne by assumption. now rewrite I.
Qed.
Lemma rt_SwAxisCont v e : good_SwAxisCont e -> carries "SW-AXIS-CONT" (write_sw_axis_cont v e) (read_sw_axis_cont v) (norm_SwAxisCont e).
Proof.
  intros (Gu & Gn & Gi & Ga & Gv). unfold write_sw_axis_cont. destruct (SwAxisCont_is_empty e) eqn:E.
  { unfold SwAxisCont_is_empty in E. apply e_empty; [reflexivity|]. destruct e. cbn in E. emptied E. subst. reflexivity. }
  eapply e_node; [|reflexivity|exact attrs_ok_nil|].
  { eapply piece_cons; [exact (p_child_id "CATEGORY" _ _ _ (fun a E => c_enum em_CalibrationAxisCategory "CATEGORY" a ok_CalibrationAxisCategory eq_refl))| |].
    eapply piece_cons; [exact (p_child_id "UNIT-REF" _ _ _ (fun a E => k_UnitRef v "UNIT-REF" a eq_refl (opt_in _ _ a Gu E)))| |].
    eapply piece_cons; [exact (p_child "UNIT-DISPLAY-NAME" _ _ _ merged (fun a E => c_unit_names "UNIT-DISPLAY-NAME" a eq_refl (opt_in _ _ a Gn E)))| |].
    eapply piece_cons; [exact (p_child_id "SW-AXIS-INDEX" _ _ _ (fun a E => c_index "SW-AXIS-INDEX" a eq_refl (opt_in _ _ a Gi E)))| |].
    eapply piece_cons; [exact (p_child "SW-ARRAYSIZE" _ _ _ norm_ValueList (fun a E => rt_ValueList v a (opt_in _ _ a Ga E)))| |].
    eapply piece_cat1. exact (p_child "SW-VALUES-PHYS" _ _ _ norm_SwValues (fun a E => rt_SwValues v a (opt_in _ _ a Gv E))). all: reflexivity. }
  intros t k ktl H. cbv beta in H. unand H. unfold read_sw_axis_cont. cbn [x_kids]. use_facts. reflexivity.
Qed.
Lemma rt_SwAddrMethod v e : good_SwAddrMethod e -> carries "SW-ADDR-METHOD" (write_sw_addr_method v e) (read_sw_addr_method v) e.
Proof.
  intros Gi. unfold good_SwAddrMethod in Gi. unfold write_sw_addr_method. eapply e_node; [exact (p_ident0 _ Gi)|reflexivity|exact (ident_attrs _ Gi)|].
  intros t k ktl H. unfold read_sw_addr_method. cbn [x_attrs x_kids]. rewrite (H _ (with_uuid _ Gi)). cbn [bind]. rewrite new_ident by assumption. now destruct e.
Qed.
