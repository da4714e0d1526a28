(** What the constructors make of arguments that XML can carry: lemmas about the ways an argument is
    converted, and the tactic that goes through a constructor. *)
From Coq Require Import QArith.
From Verif Require Import Base MNames MNum SNum PNum PNum2 PLiteral2 PRef MXml SXml PXml2 MEnum MRefTab MRef SEnum PEnum MCodec SCodec PCodec MElem0 PElem0 MElem1 MElemA MElemB MElemC MElem2 MElemD MElem3 MElem4 MElemE MElem5 MElemF MArxml
  SElem1 SElemA SElemB SElemC SElem2 SElemD SElem3 SElem4 SElemE SElem5 SElemF MFind MValue MEvent MPort MAccess MRunnable MIface MData MConst MParts MPoint MOccur MComp SFit PArxml PInline.

Local Ltac splits := repeat match goal with |- _ /\ _ => split end.
Definition gives {A} (P : A -> Prop) (r : result A) : Prop := forall x, r = Ok x -> P x.
Lemma gives_bind {A B} (P : A -> Prop) (Q : B -> Prop) m (k : A -> result B) : gives P m -> (forall x, P x -> gives Q (k x)) -> gives Q (bind m k).
Proof. intros H K. destruct m as [x|e]; cbn; [apply K, H; reflexivity|discriminate]. Qed.
Lemma gives_any {A} (r : result A) : gives (fun _ => True) r.
Proof. intros x _. exact I. Qed.
Lemma gives_ok {A} (P : A -> Prop) x : P x -> gives P (Ok x).
Proof. intros H y [= <-]. exact H. Qed.
Lemma gives_err {A} (P : A -> Prop) e : gives P (Err e).
Proof. intros x [=]. Qed.
Lemma gives_weaken {A} (P Q : A -> Prop) r : (forall x, P x -> Q x) -> gives P r -> gives Q r.
Proof. intros H K x E. apply H, K, E. Qed.

(** ** Texts *)
Lemma fit_good s : fit_text s -> good_text s. Proof. now intros []. Qed.
Lemma zstr_fit z : fit_text (zstr z).
Proof.
  split; [split; [apply zstr_ne|apply calm_safe, zstr_calm]|]. unfold zstr. destruct (z <? 0)%Z; [|apply safe_attr_digits, alld_dec].
  apply safe_attr_app; [apply safe_attrb_sound; reflexivity|apply safe_attr_digits, alld_dec].
Qed.
Lemma truth_fit (b : bool) : fit_text (if b then "True" else "False").
Proof. destruct b; (split; [split; [discriminate|apply safe_textb_sound; reflexivity]|apply safe_attrb_sound; reflexivity]). Qed.
Lemma str_of_arg_fit v a : fit_arg v a -> gives fit_text (str_of_arg a).
Proof.
  intros H. destruct a as [|b|[z|f]|s|l|l|l|o|]; try apply gives_err; apply gives_ok; [apply truth_fit|apply zstr_fit|exact H].
Qed.

(** ** Numbers *)
Lemma strip_spec fuel : forall c e c' e', strip_zeros fuel c e = (c', e') -> (c <> 0)%N -> (c < 10 ^ N.of_nat fuel)%N -> (c' <= c)%N /\ (c' mod 10 <> 0)%N.
Proof.
  induction fuel as [|fuel IH]; intros c e c' e' E C L; [cbn in L; lia|]. cbn [strip_zeros] in E.
  destruct (N.eqb_spec (c mod 10) 0) as [M|M].
  - assert (Q : (c = 10 * (c / 10))%N) by (pose proof (N.div_mod c 10 ltac:(lia)); lia).
    destruct (IH _ _ _ _ E) as [A B]; [lia| |split; [lia|exact B]]. rewrite Nat2N.inj_succ, N.pow_succ_r' in L. lia.
  - injection E as <- <-. split; [lia|exact M].
Qed.
Lemma ten28 z : (Z.abs z < 10 ^ 15)%Z -> Qlt (- inject_Z (10 ^ 28)) (inject_Z z) /\ Qlt (inject_Z z) (inject_Z (10 ^ 28)).
Proof.
  intros H. change (- inject_Z (10 ^ 28))%Q with (inject_Z (- 10 ^ 28)). rewrite <- !Zlt_Qlt. assert (K : (10 ^ 15 < 10 ^ 28)%Z) by (vm_compute; reflexivity).
  generalize dependent (10 ^ 15)%Z. generalize (10 ^ 28)%Z. intros a b H K. lia.
Qed.
Lemma int_real z : (Z.abs z < 10 ^ 15)%Z -> good_real (as_float (NInt z)).
Proof.
  intros H. unfold as_float, to_float. set (c := Z.to_N (Z.abs z)).
  assert (C : (c < 10 ^ 17)%N).
  { assert (K : (Z.of_N (10 ^ 17) = 100 * 10 ^ 15)%Z) by (vm_compute; reflexivity). unfold c. generalize dependent (10 ^ 15)%Z. generalize (10 ^ 17)%N. intros a b H K. lia. }
  destruct (canon_meaning (z <? 0)%Z c 0) as (q & M & Q).
  assert (B : below_1e28 (NFloat (canon (z <? 0)%Z c 0))).
  { unfold below_1e28. rewrite M. assert (E : (q == inject_Z z)%Q).
    { rewrite Q. unfold qv. change ((10 # 1) ^ 0)%Q with 1%Q. rewrite Qmult_1_r. replace (if (z <? 0)%Z then (- Z.of_N c)%Z else Z.of_N c) with z; [reflexivity|].
      unfold c. destruct (Z.ltb_spec z 0); lia. }
    rewrite E. apply ten28, H. }
  assert (S : forall c' e', strip_zeros (String.length (dec c)) c 0 = (c', e') -> (c <> 0)%N -> (c' <= c)%N /\ (c' mod 10 <> 0)%N) by (intros c' e' E N0; eapply strip_spec; [exact E|exact N0|apply dec_bound]).
  split.
  - eexists. split; [reflexivity|]. split; [|exact B]. unfold canon. destruct (N.eqb_spec c 0) as [C0|N0].
    + unfold python_float. split; [rewrite C0 in C; exact C|]. split; [reflexivity|]. intros F. now destruct F.
    + destruct (strip_zeros _ c 0) as [c' e'] eqn:E. destruct (S _ _ eq_refl N0) as [L M']. unfold python_float.
      split; [eapply N.le_lt_trans; [exact L|exact C]|]. split; [|intros _; exact M']. intros F. rewrite F in M'. now destruct M'.
  - intros E. unfold canon in E. destruct (N.eqb_spec c 0) as [C0|N0].
    + injection E as F. apply Z.ltb_lt in F. unfold c in C0. lia.
    + destruct (strip_zeros _ c 0) as [c' e'] eqn:K. injection E as _ -> _. destruct (S _ _ eq_refl N0) as [_ M']. now destruct M'.
Qed.
Lemma to_float_fit a : fit_real a -> gives good_real (to_float_arg a).
Proof.
  intros H. destruct a as [|b|[z|f]|s|l|l|l|o|]; try apply gives_err.
  - apply gives_ok, int_real. destruct b; reflexivity.
  - apply gives_ok, int_real, H.
  - apply gives_ok, H.
  - cbn. cbn in H. destruct (float_of s) as [f|]; [apply gives_ok, H; reflexivity|apply gives_err].
Qed.
Lemma real_float n : good_real n -> good_float n. Proof. now intros []. Qed.

(** ** Optional arguments *)
Lemma gives_optional {A} (P : A -> Prop) conv a : gives P (conv a) -> gives (opt_ok P) (optional conv a).
Proof.
  intros H. unfold optional. assert (K : gives (opt_ok P) (let* x := conv a in Ok (Some x))) by (eapply gives_bind; [exact H|intros x K; apply gives_ok; exact K]).
  destruct a; try exact K. apply gives_ok. exact I.
Qed.
Lemma opt_float_fit a : fit_real a -> gives (opt_ok good_real) (opt_float a).
Proof. intros H. apply gives_optional, to_float_fit, H. Qed.
Lemma opt_text_fit v a : fit_arg v a -> gives (opt_ok fit_text) (opt_text a).
Proof. intros H. apply gives_optional. eapply str_of_arg_fit; exact H. Qed.
Lemma opt_text_strict_fit v a : fit_arg v a -> gives (opt_ok fit_text) (opt_text_strict a).
Proof. intros H. apply gives_optional. destruct a; try apply gives_err. apply gives_ok. exact H. Qed.
Lemma opt_count_fit a : gives (opt_ok (fun z => 0 <= z)%Z) (opt_count a).
Proof.
  apply gives_optional. destruct a as [|b|[z|f]|s|l|l|l|o|]; try apply gives_err.
  - apply gives_ok. destruct b; lia.
  - cbn. destruct (Z.ltb_spec z 0); [apply gives_err|apply gives_ok; lia].
Qed.
Lemma strict_fit {A} v (P : A -> Prop) pick a : (forall o x, pick o = Some x -> fit_object v o -> P x) -> fit_arg v a -> gives P (strict pick a).
Proof.
  intros K H. destruct a; try apply gives_err. cbn. destruct (pick o) as [x|] eqn:E; [apply gives_ok; eapply K; [exact E|exact H]|apply gives_err].
Qed.
Lemma opt_strict_fit {A} v (P : A -> Prop) pick a : (forall o x, pick o = Some x -> fit_object v o -> P x) -> fit_arg v a -> gives (opt_ok P) (optional (strict pick) a).
Proof. intros K H. apply gives_optional. eapply strict_fit; [exact K|exact H]. Qed.

(** ** References *)
Lemma in_name_nodup (l : list ref_class) c c' : NoDup (map rc_name l) -> In c l -> In c' l -> rc_name c = rc_name c' -> c = c'.
Proof.
  induction l as [|x l IH]; cbn; [intros _ []|]. intros N [->|H] [->|H'] E; inversion N as [|? ? N1 N2]; subst; [reflexivity| | |auto].
  - destruct N1. rewrite E. now apply in_map.
  - destruct N1. rewrite <- E. now apply in_map.
Qed.
Lemma names_differ c c' : In c all_ref_classes -> In c' all_ref_classes -> rc_name c = rc_name c' -> c = c'.
Proof.
  apply in_name_nodup. assert (K : nodup string_dec (map rc_name all_ref_classes) = map rc_name all_ref_classes) by (vm_compute; reflexivity).
  rewrite <- K. apply NoDup_nodup.
Qed.
Lemma ref_new_fit c s d : safe_text s -> gives (good_ref c) (ref_new c s d).
Proof.
  intros H. unfold ref_new. eapply gives_bind; [apply gives_any|]. intros d' _. destruct (accepts c d') eqn:A; [|apply gives_err].
  apply gives_ok. split; [apply accepts_spec, A|exact H].
Qed.
Lemma check_ref_fit c r : match r with RefStr s => safe_text s | RefObj _ r => safe_text (rf_value r) | RefOther => True end -> gives (good_ref c) (check_and_set_reference r c).
Proof.
  intros H. unfold check_and_set_reference. destruct (rc_accepted c) as [|d l]; [apply gives_err|].
  destruct r as [s|c' r|]; [destruct l; [apply ref_new_fit, H|apply gives_err]| |apply gives_err].
  destruct (_ || _)%bool; [apply ref_new_fit, H|apply gives_err].
Qed.
Lemma opt_ref_fit v c a : fit_arg v a -> gives (opt_ok (good_ref c)) (opt_ref c a).
Proof.
  intros H. apply gives_optional. destruct a as [|b|n|s|l|l|l|o|]; try apply gives_err; [apply check_ref_fit; apply H|].
  destruct o; try apply gives_err. apply check_ref_fit. apply H.
Qed.
Lemma as_ref_fit v c a : In c all_ref_classes -> fit_arg v a -> opt_ok (good_ref c) (as_ref c a).
Proof.
  intros C H. destruct a as [|b|n|s|l|l|l|o|]; try exact I. destruct o; try exact I. cbn. destruct (String.eqb_spec (rc_name c0) (rc_name c)) as [E|]; [|exact I].
  destruct H as [C' G]. rewrite <- (names_differ _ _ C' C E). exact G.
Qed.
Lemma own_ref_fit v c a : In c all_ref_classes -> fit_arg v a -> gives (good_ref c) (match as_ref c a with Some r => Ok r | None => Err TypeError end).
Proof. intros C H. pose proof (as_ref_fit v c a C H) as K. destruct (as_ref c a); [apply gives_ok, K|apply gives_err]. Qed.
Lemma opt_ref_strict_fit v c a : In c all_ref_classes -> fit_arg v a -> gives (opt_ok (good_ref c)) (opt_ref_strict c a).
Proof. intros C H. apply gives_optional. eapply own_ref_fit; [exact C|exact H]. Qed.
Ltac member := unfold all_ref_classes; repeat (first [left; reflexivity|right]).

(** ** Lists *)
Lemma gives_mapM {A B} (P : B -> Prop) (f : A -> result B) l : (forall x, In x l -> gives P (f x)) -> gives (all_ok P) (mapM f l).
Proof.
  induction l as [|a l IH]; intros H; [apply gives_ok; exact I|]. cbn [mapM]. eapply gives_bind; [apply H; left; reflexivity|]. intros x X.
  eapply gives_bind; [apply IH; intros y Y; apply H; right; exact Y|]. intros y Y. apply gives_ok. split; assumption.
Qed.
Lemma all_ok_in {A} (P : A -> Prop) l x : all_ok P l -> In x l -> P x.
Proof. induction l as [|a l IH]; cbn; [intros _ []|intros [H H'] [->|K]; auto]. Qed.
Lemma iterable_fit v a l x : fit_arg v a -> iterable a = Some l -> In x l -> fit_arg v x \/ exists s, x = AStr s.
Proof.
  intros H E X. destruct a as [|b|n|s|l0|l0|l0|o|]; try discriminate; cbn in E.
  - injection E as <-. apply in_map_iff in X as (c & <- & _). right. eexists. reflexivity.
  - injection E as ->. left. eapply all_ok_in; [exact H|exact X].
  - injection E as ->. left. eapply all_ok_in; [exact H|exact X].
  - injection E as <-. apply in_map_iff in X as (c & <- & _). right. eexists. reflexivity.
  - destruct o; try discriminate. injection E as <-. apply in_map_iff in X as (c & <- & K). left. change (good_SwDataDefPropsConditional c). change (good_SwDataDefProps e) in H. destruct e as [l0]. cbn in H, K. eapply all_ok_in; [exact H|exact K].
Qed.
Lemma mapM_iterable_fit {A} v (P : A -> Prop) pick a l : (forall o x, pick o = Some x -> fit_object v o -> P x) -> fit_arg v a -> iterable a = Some l ->
  gives (all_ok P) (mapM (strict pick) l).
Proof.
  intros K H E. apply gives_mapM. intros x X. destruct (iterable_fit _ _ _ _ H E X) as [F|[s ->]]; [eapply strict_fit; [exact K|exact F]|apply gives_err].
Qed.
Lemma objects_fit {A} v (P : A -> Prop) pick a : (forall o x, pick o = Some x -> fit_object v o -> P x) -> fit_arg v a -> gives (all_ok P) (objects pick a).
Proof.
  intros K H. assert (G : gives (all_ok P) (mapM (strict pick) match iterable a with Some l => l | None => [a] end)).
  { destruct (iterable a) as [l|] eqn:E; [eapply mapM_iterable_fit; [exact K|exact H|exact E]|].
    apply gives_mapM. intros x [<-|[]]. eapply strict_fit; [exact K|exact H]. }
  unfold objects. destruct a; try exact G. apply gives_ok. exact I.
Qed.
Lemma each_of_fit {A} v (P : A -> Prop) pick a : (forall o x, pick o = Some x -> fit_object v o -> P x) -> fit_arg v a -> gives (all_ok P) (each_of pick a).
Proof.
  intros K H. assert (G : gives (all_ok P) match iterable a with Some l => mapM (strict pick) l | None => Err TypeError end).
  { destruct (iterable a) as [l|] eqn:E; [eapply mapM_iterable_fit; [exact K|exact H|exact E]|apply gives_err]. }
  unfold each_of. destruct a; try exact G. apply gives_ok. exact I.
Qed.
Lemma one_or_list_fit {A} v (P : A -> Prop) conv a : (forall x, fit_arg v x -> gives P (conv x)) -> fit_arg v a -> gives (all_ok P) (one_or_list conv a).
Proof.
  intros K H. assert (G : gives (all_ok P) (let* x := conv a in Ok [x])).
  { eapply gives_bind; [apply K, H|]. intros x X. apply gives_ok. split; [exact X|exact I]. }
  unfold one_or_list. destruct a; try exact G; [apply gives_ok; exact I|]. apply gives_mapM. intros x X. apply K. eapply all_ok_in; [exact H|exact X].
Qed.
Lemma lenient_fit {A} v (P : A -> Prop) conv a : (forall x, fit_arg v x -> gives P (conv x)) -> fit_arg v a -> gives (all_ok P) (lenient conv a).
Proof.
  intros K H. assert (G : gives (all_ok P) match conv a with Ok x => Ok [x] | Err _ => Ok [] end).
  { pose proof (K a H) as L. destruct (conv a) as [x|e]; apply gives_ok; [split; [apply L; reflexivity|exact I]|exact I]. }
  unfold lenient. destruct a; try exact G. apply gives_mapM. intros x X. apply K. eapply all_ok_in; [exact H|exact X].
Qed.
Lemma one_or_several_fit {A} v (P : A -> Prop) pick a : (forall o x, pick o = Some x -> fit_object v o -> P x) -> fit_arg v a -> gives (all_ok P) (one_or_several pick a).
Proof.
  intros K H. assert (G : gives (all_ok P) (let* x := strict pick a in Ok [x])).
  { eapply gives_bind; [eapply strict_fit; [exact K|exact H]|]. intros x X. apply gives_ok. split; [exact X|exact I]. }
  unfold one_or_several. destruct a; try exact G; try (apply gives_ok; exact I);
    (apply gives_mapM; intros x X; eapply strict_fit; [exact K|eapply all_ok_in; [exact H|exact X]]).
Qed.

(** ** Keyword arguments *)
Lemma kwarg_keyword v k kw : fit_keywords v kw -> fit_keyword v (k, kwarg k kw).
Proof.
  intros H. unfold kwarg. induction H as [|[k' a] l F _ IH]; cbn [assoc].
  - repeat split; try exact I; intros; exact I.
  - destruct (String.eqb_spec k k') as [->|]; [exact F|exact IH].
Qed.
Lemma kwarg_fit v k kw : fit_keywords v kw -> fit_arg v (kwarg k kw).
Proof. intros H. apply (kwarg_keyword v k kw H). Qed.
Lemma kwarg_real v k kw : fit_keywords v kw -> In k real_keywords -> fit_real (kwarg k kw).
Proof. intros H. apply (kwarg_keyword v k kw H). Qed.

(** ** Texts in languages, identifiables *)
Lemma plain_lang g s : fit_text s -> good_lang (mkLang g [PText s]).
Proof.
  intros [[N S] _]. exists s, []. split; [|split; [exact S|constructor]]. unfold pieces. cbn. destruct s; [now destruct N|reflexivity].
Qed.
Lemma description_fit v a : fit_arg v a -> gives (all_ok good_lang) (description a).
Proof.
  intros H. destruct a as [|b|n|s|l|l|l|o|]; try apply gives_err.
  - apply gives_ok. split; [apply plain_lang, H|exact I].
  - destruct l as [|[| | | | | | |o|] [|[| | |s| | | | |] [|]]]; try apply gives_err; destruct o; try apply gives_err. apply gives_ok.
    destruct H as (_ & H & _). split; [apply plain_lang, H|exact I].
  - destruct o; try apply gives_err. apply gives_ok. exact H.
Qed.
Lemma opt_weaken {A} (P Q : A -> Prop) o : (forall x, P x -> Q x) -> opt_ok P o -> opt_ok Q o.
Proof. destruct o; cbn; auto. Qed.
Lemma opt_never {A} (o : option A) : opt_ok (fun _ => False) o -> o = None.
Proof. destruct o; [intros []|reflexivity]. Qed.
Lemma ident_fit v name kw : fit_text name -> fit_keywords v kw -> gives (fun i => good_ident i /\ (no_uuid kw -> good_ident_no_uuid i)) (new_identifiable name kw).
Proof.
  intros N H. unfold new_identifiable.
  eapply gives_bind; [eapply (opt_strict_fit v (all_ok good_lang)); [|apply kwarg_fit, H]; intros o x; destruct o; try discriminate; intros [= <-] G; exact G|]. intros ln LN.
  eapply gives_bind; [apply gives_optional; eapply description_fit, kwarg_fit, H|]. intros d D.
  eapply gives_bind; [apply gives_optional; eapply str_of_arg_fit, kwarg_fit, H|]. intros c C.
  assert (U : gives (fun u => opt_ok fit_text u /\ (no_uuid kw -> u = None)) (optional str_of_arg (kwarg "uuid" kw))).
  { pose proof (gives_optional _ _ _ (str_of_arg_fit v _ (kwarg_fit v "uuid" kw H))) as G. intros u E. split; [apply G, E|]. unfold no_uuid. intros K. rewrite K in E. cbn in E. congruence. }
  eapply gives_bind; [exact U|]. intros u (U1 & U2). apply gives_ok.
  assert (G : good_ident (mkIdent name ln d c None None None u)).
  { unfold good_ident. cbn [id_name id_long_name id_desc id_category id_admin_data id_introduction id_annotations id_uuid]. splits; try assumption; try reflexivity; [apply N|eapply opt_weaken; [|exact C]; apply fit_good|eapply opt_weaken; [|exact U1]; now intros ? []]. }
  split; [exact G|]. intros K. split; [exact G|apply U2, K].
Qed.

(** ** Single arguments *)
Lemma opt_text_good v a : fit_arg v a -> gives (opt_ok good_text) (opt_text a).
Proof. intros H. eapply gives_weaken; [|eapply opt_text_fit, H]. intros o. apply opt_weaken, fit_good. Qed.
Lemma opt_text_strict_good v a : fit_arg v a -> gives (opt_ok good_text) (opt_text_strict a).
Proof. intros H. eapply gives_weaken; [|eapply opt_text_strict_fit, H]. intros o. apply opt_weaken, fit_good. Qed.
Lemma props_fit v a : fit_arg v a -> gives good_SwDataDefProps (props_of_arg a).
Proof.
  intros H. destruct a as [|b|n|s|l|l|l|o|]; try apply gives_err. destruct o; try apply gives_err; apply gives_ok; [exact H|split; [exact H|exact I]].
Qed.
Lemma alignment_fit v a : fit_arg v a -> fit_index int0 a -> gives good_alignment (alignment_of a).
Proof.
  intros H K. destruct a as [|b|[z|f]|s|l|l|l|o|]; try apply gives_err; [destruct K|apply gives_ok; exact I|].
  cbn. destruct (alignment_ok s) eqn:E; [apply gives_ok|apply gives_err]. repeat split; try apply H; assumption.
Qed.
Lemma axis_index_fit v a : fit_arg v a -> fit_index int10 a -> gives good_index (axis_index a).
Proof.
  intros H K. destruct a as [|b|[z|f]|s|l|l|l|o|]; try apply gives_err; [destruct K|apply gives_ok; exact I|].
  apply gives_ok. split; [apply H|assumption].
Qed.
Lemma format_fit v a : fit_arg v a -> gives good_display_format (format_of a).
Proof.
  intros H. destruct a as [|b|[z|f]|s|l|l|l|o|]; try apply gives_err. cbn. destruct (display_format_ok s) eqn:E; [apply gives_ok|apply gives_err]. split; [apply H|exact E].
Qed.
Lemma resolution_fit v a : fit_arg v a -> gives good_number (resolution_of a).
Proof. intros H. destruct a as [|b|n|s|l|l|l|o|]; try apply gives_err; apply gives_ok; [exact I|exact H]. Qed.
Lemma number_fit v a : fit_arg v a -> gives good_value (number_of a).
Proof.
  intros H. destruct a as [|b|n|s|l|l|l|o|]; try apply gives_err; [apply gives_ok; exact I|apply gives_ok; exact H|]. destruct o; try apply gives_err. apply gives_ok. exact H.
Qed.
Lemma sw_value_fit v a : fit_arg v a -> gives good_sw_value (sw_value_of a).
Proof.
  intros H. destruct a as [|b|n|s|l|l|l|o|]; try apply gives_err; try (apply gives_ok; first [exact I|exact H|apply H]). destruct o; try apply gives_err; apply gives_ok; exact H.
Qed.
Lemma group_label_fit v a : fit_arg v a -> gives (all_ok good_lang) (group_label a).
Proof.
  intros H. destruct a as [|b|n|s|l|l|l|o|]; try apply gives_err.
  - destruct l as [|[| | | | | | |o|] [|x l]]; try apply gives_err; destruct o; try apply gives_err.
    destruct x as [| | |s| | | | |]; try apply gives_err; apply gives_ok; (split; [|exact I]).
    + exists "", []. split; [reflexivity|]. split; [apply safe_textb_sound; reflexivity|constructor].
    + apply plain_lang. apply H.
  - destruct o; try apply gives_err; apply gives_ok; [exact H|split; [exact H|exact I]].
Qed.
Lemma ack_fit a v : fit_arg v a -> fit_real a -> gives good_TransmissionAcknowledgementRequest (transmission_acknowledge a).
Proof.
  intros H K. pose proof (to_float_fit a K) as F. destruct a as [|b|n|s|l|l|l|o|]; try apply gives_err.
  - eapply gives_bind; [exact F|]. intros t T. apply gives_ok. exact T.
  - eapply gives_bind; [exact F|]. intros t T. apply gives_ok. exact T.
  - destruct o; try apply gives_err. apply gives_ok. exact H.
Qed.
Lemma switched_ack_fit a v : fit_arg v a -> fit_real a -> gives good_ModeSwitchedAckRequest (mode_switched_ack a).
Proof.
  intros H K. pose proof (to_float_fit a K) as F. destruct a as [|b|n|s|l|l|l|o|]; try apply gives_err.
  - eapply gives_bind; [exact F|]. intros t T. apply gives_ok. exact T.
  - eapply gives_bind; [exact F|]. intros t T. apply gives_ok. exact T.
  - destruct o; try apply gives_err. apply gives_ok. exact H.
Qed.
Lemma transformation_fit v a : fit_arg v a -> gives (all_ok good_EndToEndTransformationComSpecProps) (transformation_props a).
Proof.
  intros H. change (gives (all_ok good_EndToEndTransformationComSpecProps) (one_or_list (strict (fun o => match o with OEndToEndTransformationComSpecProps e => Some e | _ => None end)) a)).
  eapply one_or_list_fit; [|exact H]. intros x X. eapply strict_fit; [|exact X]. intros o y; destruct o; try discriminate; intros [= <-] G; exact G.
Qed.
Lemma data_element_fit v a : fit_arg v a -> gives (good_ref rc_AutosarDataPrototypeRef) (data_element_of a).
Proof.
  intros H. unfold data_element_of. pose proof (as_ref_fit v rc_AutosarDataPrototypeRef a ltac:(member) H) as K. destruct (as_ref rc_AutosarDataPrototypeRef a); [apply gives_ok, K|].
  pose proof (as_ref_fit v rc_VariableDataPrototypeRef a ltac:(member) H) as L. destruct (as_ref rc_VariableDataPrototypeRef a); [apply ref_new_fit, L|apply gives_err].
Qed.
Lemma error_refs_fit v a : fit_arg v a -> gives (all_ok (good_ref rc_ApplicationErrorRef)) (error_refs a).
Proof.
  intros H. unfold error_refs. pose proof (as_ref_fit v rc_ApplicationErrorRef a ltac:(member) H) as K. destruct (as_ref rc_ApplicationErrorRef a); [apply gives_ok; split; [exact K|exact I]|].
  destruct a as [|b|n|s|l|l|l|o|]; try apply gives_err; [apply gives_ok; exact I| |].
  - eapply gives_bind; [apply (ref_new_fit rc_ApplicationErrorRef); apply H|]. intros r R. apply gives_ok. split; [exact R|exact I].
  - apply gives_mapM. intros x X. eapply own_ref_fit; [member|eapply all_ok_in; [exact H|exact X]].
Qed.
Lemma nesting_fit v a : fit_arg v a -> gives (all_ok (good_ref rc_ExclusiveAreaNestingOrderRef)) (nesting_orders a).
Proof.
  intros H. unfold nesting_orders. pose proof (as_ref_fit v rc_ExclusiveAreaNestingOrderRef a ltac:(member) H) as K.
  destruct (as_ref rc_ExclusiveAreaNestingOrderRef a); [apply gives_ok; split; [exact K|exact I]|].
  destruct a as [|b|n|s|l|l|l|o|]; try (apply gives_ok; exact I). apply gives_mapM. intros x X. eapply own_ref_fit; [member|eapply all_ok_in; [exact H|exact X]].
Qed.
Definition fit_area (v : N) (e : ExclusiveAreaRefConditional) : Prop := good_ExclusiveAreaRefConditional e /\ ((v < 50)%N -> ExclusiveAreaRefConditional_exclusive_area e <> None).
Lemma area_fit v a : fit_arg v a -> gives (fit_area v) (exclusive_area a).
Proof.
  intros H. unfold exclusive_area.
  assert (G : gives (fit_area v) match as_ref rc_ExclusiveAreaRef a with
         | Some r => let* r := check_and_set_reference (RefObj rc_ExclusiveAreaRef r) rc_ExclusiveAreaRef in Ok (mkExclusiveAreaRefConditional (Some r))
         | None => Err TypeError end).
  { pose proof (as_ref_fit v rc_ExclusiveAreaRef a ltac:(member) H) as K. destruct (as_ref rc_ExclusiveAreaRef a); [|apply gives_err].
    eapply gives_bind; [apply (check_ref_fit rc_ExclusiveAreaRef (RefObj _ r)); apply K|]. intros x X. apply gives_ok. split; [exact X|discriminate]. }
  destruct a as [|b|n|s|l|l|l|o|]; try exact G.
  - eapply gives_bind; [apply (check_ref_fit rc_ExclusiveAreaRef (RefStr s)); apply H|]. intros x X. apply gives_ok. split; [exact X|discriminate].
  - destruct o; try exact G. apply gives_ok. exact H.
Qed.
Lemma areas_good v l : all_ok (fit_area v) l -> good_areas v l.
Proof. unfold good_areas. induction l as [|a l IH]; cbn; [auto|]. intros [[A B] C]. destruct (IH C). auto 6. Qed.
Lemma mapping_sets_fit v a : fit_arg v a -> gives (all_ok (good_ref rc_DataTypeMappingSetRef)) (mapping_sets a).
Proof.
  intros H. unfold mapping_sets. cbv zeta.
  assert (G : gives (all_ok (good_ref rc_DataTypeMappingSetRef)) (mapM (fun x => match as_ref rc_DataTypeMappingSetRef x with Some r => Ok r | None => Err TypeError end) match iterable a with Some l => l | None => [a] end)).
  { apply gives_mapM. intros x X. destruct (iterable a) as [l|] eqn:E.
    - destruct (iterable_fit _ _ _ _ H E X) as [F|[s ->]]; [eapply own_ref_fit; [member|exact F]|apply gives_err].
    - destruct X as [<-|[]]. eapply own_ref_fit; [member|exact H]. }
  destruct a as [|b|n|s|l|l|l|o|]; try exact G; [apply gives_ok; exact I|].
  eapply gives_bind; [apply (ref_new_fit rc_DataTypeMappingSetRef); apply H|]. intros r R. apply gives_ok. split; [exact R|exact I].
Qed.
Lemma unit_names_fit v a : fit_arg v a -> gives good_names (unit_names_of_arg a).
Proof.
  intros H. destruct a as [|b|n|s|l|l|l|o|]; try apply gives_err.
  - cbn [unit_names_of_arg]. rewrite new_str. apply gives_ok. unfold good_names. rewrite merged_chars. destruct H as [[N S] _]. exists s, []. split; [|split; [exact S|constructor]].
    unfold pieces. cbn. destruct s; [now destruct N|reflexivity].
  - destruct o; try apply gives_err; apply gives_ok; exact H.
Qed.
Lemma variable_list_fit v a : fit_arg v a -> gives (all_ok good_VariableDataPrototype) (sender_receiver_elements a).
Proof.
  intros H. destruct a as [|b|n|s|l|l|l|o|]; try apply gives_err; [apply gives_ok; exact I| |].
  - apply gives_mapM. intros x X. eapply strict_fit; [|eapply all_ok_in; [exact H|exact X]]. intros o y; destruct o; try discriminate; intros [= <-] G; exact G.
  - destruct o; try apply gives_err; apply gives_ok. split; [exact H|exact I].
Qed.
Lemma errors_fit v a : fit_arg v a -> gives (all_ok good_ApplicationError) (possible_errors a).
Proof.
  intros H. destruct a as [|b|n|s|l|l|l|o|]; try apply gives_err; [apply gives_ok; exact I|].
  apply gives_mapM. intros x X. eapply strict_fit; [|eapply all_ok_in; [exact H|exact X]]. intros o y; destruct o; try discriminate; intros [= <-] G; exact G.
Qed.
Lemma record_elements_fit v a : fit_arg v a -> gives (all_ok good_ApplicationRecordElement) (record_elements a).
Proof.
  intros H. destruct a as [|b|n|s|l|l|l|o|]; try (apply gives_ok; exact I).
  - apply gives_mapM. intros x X. eapply strict_fit; [|eapply all_ok_in; [exact H|exact X]]. intros o y; destruct o; try discriminate; intros [= <-] G; exact G.
  - destruct o; try (apply gives_ok; exact I); apply gives_ok. split; [exact H|exact I].
Qed.

Lemma switch_mode_fit v a : fit_arg v a -> gives (fun m => match m with
                   | OneMode a => good_RModeInAtomicSwcInstanceRef a
                   | TwoModes a b => good_RModeInAtomicSwcInstanceRef a /\ good_RModeInAtomicSwcInstanceRef b
                   end) (switch_mode_of a).
Proof.
  assert (S : forall x, fit_arg v x -> gives good_RModeInAtomicSwcInstanceRef (strict RModeInAtomicSwcInstanceRef_object x)).
  { intros x X. eapply strict_fit; [|exact X]. intros o y E G; destruct o; try discriminate E; injection E as <-; exact G. }
  intros H. destruct a as [|b|n|s|l|l|l|o|]; try apply gives_err.
  - destruct l as [|x [|y l]]; [apply gives_err|eapply gives_bind; [apply gives_any|intros; apply gives_err]|].
    eapply gives_bind; [apply S, H|]. intros m M. eapply gives_bind; [apply S, H|]. intros m' M'. apply gives_ok. split; assumption.
  - destruct o; try apply gives_err. apply gives_ok. exact H.
Qed.
Lemma mode_item_fit v a : fit_arg v a -> gives good_ModeDeclaration (mode_item a).
Proof.
  assert (S : forall s kw, fit_text s -> fit_keywords v kw -> no_uuid kw -> gives good_ModeDeclaration (new_mode s kw)).
  { intros s kw F K U. unfold new_mode. eapply gives_bind; [apply gives_any|]. intros _ _. eapply gives_bind; [eapply ident_fit; [exact F|exact K]|]. intros i (_ & G).
    eapply gives_bind; [apply opt_count_fit|]. intros z Z. apply gives_ok. split; [apply G, U|exact Z]. }
  intros H. destruct a as [|b|n|s|l|l|l|o|]; try apply gives_err.
  - apply S; [exact H|constructor|reflexivity].
  - destruct l as [|[| | |s| | | | |] l]; try apply gives_err. destruct l as [|x [|]]; try apply gives_err.
    + apply S; [apply H|constructor|reflexivity].
    + apply S; [apply H| |reflexivity]. constructor; [|constructor]. split; [apply H|]. cbn. repeat split; [|discriminate|discriminate]. intros K. exfalso. clear -K. repeat (destruct K as [K|K]; [discriminate|]). exact K.
  - destruct o; try apply gives_err. apply gives_ok. exact H.
Qed.
Lemma mode_items_fit v a : fit_arg v a -> gives (all_ok good_ModeDeclaration) (mode_items a).
Proof.
  intros H. destruct a as [|b|n|s|l|l|l|o|]; try apply gives_err; [apply gives_ok; exact I| |].
  - apply gives_mapM. intros x X. apply (mode_item_fit v). eapply all_ok_in; [exact H|exact X].
  - destruct o; try apply gives_err; apply gives_ok. split; [exact H|exact I].
Qed.

Definition fit_ident (kw : keyword_args) (i : identifiable) : Prop := good_ident i /\ (no_uuid kw -> good_ident_no_uuid i).
Lemma props_kw_fit v kw : fit_keywords v kw -> gives (opt_ok good_SwDataDefProps) (optional props_of_arg (kwarg "sw_data_def_props" kw)).
Proof. intros H. eapply gives_optional, props_fit, kwarg_fit, H. Qed.
Lemma new_type_fit v name kw : fit_text name -> fit_keywords v kw -> gives (fun p => fit_ident kw (fst p) /\ opt_ok good_SwDataDefProps (snd p)) (new_type name kw).
Proof.
  intros N H. unfold new_type. eapply gives_bind; [eapply ident_fit; [exact N|exact H]|]. intros i J. eapply gives_bind; [apply (props_kw_fit v), H|]. intros q Q. apply gives_ok. split; [exact J|exact Q].
Qed.
Lemma new_composite_element_fit v name kw : fit_text name -> fit_keywords v kw ->
  gives (fun p => (fit_ident kw (fst (fst p)) /\ opt_ok good_SwDataDefProps (snd (fst p))) /\ opt_ok (good_ref rc_ApplicationDataTypeRef) (snd p)) (new_composite_element name kw).
Proof.
  intros N H. unfold new_composite_element. eapply gives_bind; [eapply ident_fit; [exact N|exact H]|]. intros i J. eapply gives_bind; [apply (props_kw_fit v), H|]. intros q Q.
  eapply gives_bind; [eapply opt_ref_strict_fit; [member|apply kwarg_fit, H]|]. intros r R. apply gives_ok. split; [split; [exact J|exact Q]|exact R].
Qed.
Lemma new_data_fit v name kw : fit_text name -> fit_keywords v kw ->
  gives (fun p => (fit_ident kw (fst (fst p)) /\ opt_ok good_SwDataDefProps (snd (fst p))) /\ opt_ok (good_ref rc_AutosarDataTypeRef) (snd p)) (new_data name kw).
Proof.
  intros N H. unfold new_data. eapply gives_bind; [eapply ident_fit; [exact N|exact H]|]. intros i J. eapply gives_bind; [apply (props_kw_fit v), H|]. intros q Q.
  eapply gives_bind; [eapply opt_ref_fit, kwarg_fit, H|]. intros r R. apply gives_ok. split; [split; [exact J|exact Q]|exact R].
Qed.
Lemma new_interface_fit v name kw : fit_text name -> fit_keywords v kw ->
  gives (fun p => fit_ident kw (fst (fst p)) /\ snd p = None) (new_interface name kw).
Proof.
  intros N H. unfold new_interface. eapply gives_bind; [eapply ident_fit; [exact N|exact H]|]. intros i J. eapply gives_bind; [apply gives_any|]. intros b _.
  eapply gives_bind; [eapply (opt_strict_fit v (fun _ => False)); [|apply kwarg_fit, H]; intros o x E G; destruct o; try discriminate E; exact G|]. intros k K. apply gives_ok. split; [exact J|apply opt_never, K].
Qed.
Lemma new_access_point_fit v name kw : fit_text name -> fit_keywords v kw -> gives (fun p => fit_ident kw (fst p) /\ True) (new_access_point name kw).
Proof.
  intros N H. unfold new_access_point. eapply gives_bind; [eapply ident_fit; [exact N|exact H]|]. intros i J. eapply gives_bind; [apply gives_any|]. intros q _. apply gives_ok. split; [exact J|exact I].
Qed.

(** ** Going through a constructor *)
Ltac picked := let o := fresh "o" in let x := fresh "x" in let E := fresh "E" in let G := fresh "G" in
  intros o x E G; destruct o; try discriminate E;
  first [injection E as <-; exact G
        |match type of G with fit_object _ (OModeGroupInAtomicSwcInstanceRef ?e) => destruct e; try discriminate E; injection E as <-; exact G end].
Ltac source H :=
  lazymatch goal with
  | |- gives _ (check_keywords _ _) => apply gives_any
  | |- gives _ (no_clash _ _) => apply gives_any
  | |- gives _ (opt_bool _) => apply gives_any
  | |- gives _ (opt_bool_strict _) => apply gives_any
  | |- gives _ (opt_int _) => apply gives_any
  | |- gives _ (opt_int_strict _) => apply gives_any
  | |- gives _ (opt_ref _ _) => eapply opt_ref_fit, kwarg_fit, H
  | |- gives _ (opt_ref_strict _ _) => eapply opt_ref_strict_fit; [member|apply kwarg_fit, H]
  | |- gives _ (opt_float _) => eapply opt_float_fit, kwarg_real; [exact H|cbn; tauto]
  | |- gives _ (opt_text _) => eapply opt_text_good, kwarg_fit, H
  | |- gives _ (opt_text_strict _) => eapply opt_text_strict_good, kwarg_fit, H
  | |- gives _ (opt_count _) => apply opt_count_fit
  | |- gives _ (opt_value_specification _) => eapply (opt_strict_fit _ good_ValueSpecificationElement); [picked|apply kwarg_fit, H]
  | |- gives _ (opt_return_value_provision _) => apply gives_any
  | |- gives _ (optional (strict sw_values_of) _) =>
      eapply (opt_strict_fit _ good_SwValues);
        [let o := fresh in let x := fresh in let E := fresh in let G := fresh in intros o x E G; destruct o; try discriminate E; injection E as <-; first [exact G|apply G]|apply kwarg_fit, H]
  | |- gives _ (optional (strict direction_of) _) => apply gives_any
  | |- gives _ (optional (strict _) _) => eapply opt_strict_fit; [picked|apply kwarg_fit, H]
  | |- gives _ (optional description _) => eapply gives_optional, description_fit, kwarg_fit, H
  | |- gives _ (optional props_of_arg _) => eapply gives_optional, props_fit, kwarg_fit, H
  | |- gives _ (optional alignment_of _) => eapply gives_optional, alignment_fit; [apply kwarg_fit, H|apply (kwarg_keyword _ _ _ H); reflexivity]
  | |- gives _ (optional axis_index _) => eapply gives_optional, axis_index_fit; [apply kwarg_fit, H|apply (kwarg_keyword _ _ _ H); reflexivity]
  | |- gives _ (optional format_of _) => eapply gives_optional, format_fit, kwarg_fit, H
  | |- gives _ (optional resolution_of _) => eapply gives_optional, resolution_fit, kwarg_fit, H
  | |- gives _ (optional group_label _) => eapply gives_optional, group_label_fit, kwarg_fit, H
  | |- gives _ (optional data_element_of _) => eapply gives_optional, data_element_fit, kwarg_fit, H
  | |- gives _ (optional unit_names_of_arg _) => eapply gives_optional, unit_names_fit, kwarg_fit, H
  | |- gives _ (optional transmission_acknowledge _) => eapply gives_optional, ack_fit; [apply kwarg_fit, H|eapply kwarg_real; [exact H|cbn; tauto]]
  | |- gives _ (optional mode_switched_ack _) => eapply gives_optional, switched_ack_fit; [apply kwarg_fit, H|eapply kwarg_real; [exact H|cbn; tauto]]
  | |- gives _ (optional switch_mode_of _) => eapply gives_optional, switch_mode_fit, kwarg_fit, H
  | |- gives _ (transformation_props _) => eapply transformation_fit, kwarg_fit, H
  | |- gives _ (error_refs _) => eapply error_refs_fit, kwarg_fit, H
  | |- gives _ (nesting_orders _) => eapply nesting_fit, kwarg_fit, H
  | |- gives _ (mapping_sets _) => eapply mapping_sets_fit, kwarg_fit, H
  | |- gives _ (mode_items _) => eapply mode_items_fit, kwarg_fit, H
  | |- gives _ (sender_receiver_elements _) => eapply variable_list_fit, kwarg_fit, H
  | |- gives _ (possible_errors _) => eapply errors_fit, kwarg_fit, H
  | |- gives _ (record_elements _) => eapply record_elements_fit, kwarg_fit, H
  | |- gives _ (MAccess.new_identifiable _ _) => eapply ident_fit; [eassumption|exact H]
  | |- gives _ (new_type _ _) => eapply new_type_fit; [eassumption|exact H]
  | |- gives _ (new_composite_element _ _) => eapply new_composite_element_fit; [eassumption|exact H]
  | |- gives _ (new_data _ _) => eapply new_data_fit; [eassumption|exact H]
  | |- gives _ (new_interface _ _) => eapply new_interface_fit; [eassumption|exact H]
  | |- gives _ (new_access_point _ _) => eapply new_access_point_fit; [eassumption|exact H]
  | |- gives _ (objects _ _) => eapply objects_fit; [picked|apply kwarg_fit, H]
  | |- gives _ (MData.annotations_of _) => eapply objects_fit; [picked|apply kwarg_fit, H]
  | |- gives _ (each_of _ _) => eapply each_of_fit; [picked|apply kwarg_fit, H]
  | |- gives _ (one_or_several _ _) => eapply one_or_several_fit; [picked|apply kwarg_fit, H]
  | |- gives _ (one_or_list exclusive_area _) => eapply one_or_list_fit; [apply area_fit|apply kwarg_fit, H]
  | |- gives _ (one_or_list (strict _) _) => eapply one_or_list_fit; [intros ? ?; eapply strict_fit; [picked|eassumption]|apply kwarg_fit, H]
  | |- gives _ (lenient (strict _) _) => eapply lenient_fit; [intros ? ?; eapply strict_fit; [picked|eassumption]|apply kwarg_fit, H]
  | |- gives _ (lenient (own_ref _) _) => eapply lenient_fit; [intros ? ?; eapply own_ref_fit; [member|eassumption]|apply kwarg_fit, H]
  end.
Ltac conj X := lazymatch type of X with
  | _ /\ _ => let A := fresh "A" in let B := fresh "B" in destruct X as [A B]; conj A; conj B
  | fit_ident _ _ => destruct X
  | _ => idtac
  end.
Ltac unpair x := lazymatch type of x with
  | prod _ _ => let a := fresh "x" in let b := fresh "x" in destruct x as [a b]; cbn [fst snd] in *; unpair a
  | _ => idtac
  end.
Ltac step H := eapply gives_bind; [source H|let x := fresh "x" in let X := fresh "X" in intros x X; cbv beta in X; unpair x; conj X].
Ltac held := first [assumption|exact I|reflexivity|apply fit_good; assumption
  |match goal with K : no_uuid _ -> ?G |- _ => apply K; assumption end
  |apply opt_never; assumption
  |eapply opt_weaken; [|eassumption]; exact real_float].
Ltac through H := repeat (step H); apply gives_ok.
Ltac all_held := repeat match goal with |- _ /\ _ => split end; held.
