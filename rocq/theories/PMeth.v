(** Proofs about computation methods, data constraints and base types. *)
From Verif Require Import Base MNum SNum MXml SXml MEnum MRefTab MRef SEnum MCodec SCodec MElem0 MElem1 MElemA MElemB MElemC MElem2 MElemD MElem3 MElem4 MElemE MElem5 MElemF MArxml
  SElem1 SElemA SElem MFind MValue MEvent MPort MAccess SPort SAccess MMeth SMeth PNum PNum2 PNum3 PAccess PropsNum.
From Coq Require Import QArith Setoid Morphisms.
Open Scope list_scope.
Open Scope string_scope.
Local Ltac splits := repeat match goal with |- _ /\ _ => split end.

(** ** Equal numbers *)
Lemma same_number_sym a b : same_number a b -> same_number b a.
Proof. unfold same_number. destruct (meaning a), (meaning b); auto. intros H. now symmetry. Qed.
Lemma same_le_l a b x : same_number a b -> (ext_le (meaning a) x <-> ext_le (meaning b) x).
Proof. unfold same_number. destruct (meaning a) as [p| | |], (meaning b) as [q| | |]; try tauto. intros H. destruct x; cbn; try tauto. now rewrite H. Qed.
Lemma same_le_r a b x : same_number a b -> (ext_le x (meaning a) <-> ext_le x (meaning b)).
Proof. unfold same_number. destruct (meaning a) as [p| | |], (meaning b) as [q| | |]; try tauto. intros H. destruct x; cbn; try tauto. now rewrite H. Qed.
Lemma same_lt_l a b x : same_number a b -> (ext_lt (meaning a) x <-> ext_lt (meaning b) x).
Proof. unfold same_number. destruct (meaning a) as [p| | |], (meaning b) as [q| | |]; try tauto. intros H. destruct x; cbn; try tauto. now rewrite H. Qed.
Lemma same_lt_r a b x : same_number a b -> (ext_lt x (meaning a) <-> ext_lt x (meaning b)).
Proof. unfold same_number. destruct (meaning a) as [p| | |], (meaning b) as [q| | |]; try tauto. intros H. destruct x; cbn; try tauto. now rewrite H. Qed.
Lemma same_num_lt a b v : same_number a b -> num_lt v a = num_lt v b /\ num_lt a v = num_lt b v.
Proof.
  intros H. split; apply Bool.eq_iff_eq_true; rewrite !num_lt_spec; [now apply same_lt_r|now apply same_lt_l].
Qed.
Lemma same_num_le a b v : same_number a b -> num_le v a = num_le v b /\ num_le a v = num_le b v.
Proof.
  intros H. split; apply Bool.eq_iff_eq_true; rewrite !num_le_spec; [now apply same_le_r|now apply same_le_l].
Qed.
Lemma opt_rel_sym {A} (R : A -> A -> Prop) o o' : (forall a b, R a b -> R b a) -> opt_rel R o o' -> opt_rel R o' o.
Proof. intros H. destruct o, o'; cbn; auto. Qed.
Lemma Forall2_sym {A} (R : A -> A -> Prop) l l' : (forall a b, R a b -> R b a) -> Forall2 R l l' -> Forall2 R l' l.
Proof. intros H. induction 1; constructor; auto. Qed.
Lemma same_scalar_sym a b : SElem.same_scalar a b -> SElem.same_scalar b a.
Proof. destruct a, b; cbn; auto using same_number_sym. Qed.
Lemma same_const_sym a b : same_CompuConst a b -> same_CompuConst b a.
Proof. apply opt_rel_sym, same_scalar_sym. Qed.
Lemma same_content_sym a b : same_content a b -> same_content b a.
Proof.
  destruct a, b; cbn; auto using same_const_sym. intros [H1 H2]. split; (eapply opt_rel_sym; [|eassumption]); intros; now apply Forall2_sym; [apply same_number_sym|].
Qed.
Lemma same_scale_sym a b : same_CompuScale a b -> same_CompuScale b a.
Proof.
  intros (H1 & H2 & H3 & H4 & H5 & H6 & H7 & H8 & H9 & H10).
  repeat split; auto; (eapply opt_rel_sym; [|eassumption]); auto using same_content_sym, same_scalar_sym, same_const_sym.
Qed.
Lemma same_computation_sym a b : same_Computation a b -> same_Computation b a.
Proof.
  intros [H1 H2]. split; (eapply opt_rel_sym; [|eassumption]); auto using same_const_sym.
  intros x y. apply Forall2_sym, same_scale_sym.
Qed.

(** ** Conversions *)
Lemma same_above o o' t x : opt_rel SElem.same_scalar o o' -> above o t x -> above o' t x.
Proof.
  destruct o as [[n|s]|], o' as [[m|s']|]; cbn [opt_rel SElem.same_scalar above]; try tauto. intros H. destruct t; [now rewrite (same_le_l _ _ _ H)|now rewrite (same_lt_l _ _ _ H)].
Qed.
Lemma same_below o o' t x : opt_rel SElem.same_scalar o o' -> below o t x -> below o' t x.
Proof.
  destruct o as [[n|s]|], o' as [[m|s']|]; cbn [opt_rel SElem.same_scalar below]; try tauto. intros H. destruct t; [now rewrite (same_le_r _ _ _ H)|now rewrite (same_lt_r _ _ _ H)].
Qed.
Lemma same_fin n m p : same_number n m -> meaning n = Fin p -> exists q, meaning m = Fin q /\ (p == q)%Q.
Proof. unfold same_number. intros H E. rewrite E in H. destruct (meaning m) as [q| | |]; try tauto. eauto. Qed.
Lemma same_coefficients l l' ps : same_numbers l l' -> coefficients l ps -> exists qs, coefficients l' qs /\ Forall2 Qeq ps qs.
Proof.
  intros H. revert ps. induction H as [|n m l l' E H IH]; intros ps C; inversion C; subst; [exists []; split; constructor|].
  destruct (same_fin _ _ _ E H2) as (q & M & Q). destruct (IH _ H4) as (qs & A & B). exists (q :: qs). split; constructor; auto.
Qed.
Lemma poly_same ps qs x : Forall2 Qeq ps qs -> (poly ps x == poly qs x)%Q.
Proof. induction 1; cbn; [reflexivity|]. now rewrite H, IHForall2. Qed.
Lemma same_yields a b x y : same_content a b -> yields x a y -> yields x b y.
Proof.
  intros S Y. destruct Y as [t|n p q M E|num den ps qs y N D Z E|num ps y N E]; destruct b as [[c]|[n' d']]; cbn in S; try contradiction.
  - destruct c as [[m|s]|]; cbn in S; try contradiction. subst. constructor.
  - destruct c as [[m|s]|]; cbn in S; try contradiction. destruct (same_fin _ _ _ S M) as (r & R & P). econstructor; [eassumption|]. now rewrite <- P.
  - destruct S as [S1 S2]. cbn in S1, S2. destruct n' as [n'|]; [|contradiction]. destruct d' as [d'|]; [|contradiction].
    destruct (same_coefficients _ _ _ S1 N) as (ps' & A & B). destruct (same_coefficients _ _ _ S2 D) as (qs' & A' & B').
    econstructor; [exact A|exact A'|now rewrite <- (poly_same _ _ x B')|now rewrite <- (poly_same _ _ x B), <- (poly_same _ _ x B')].
  - destruct S as [S1 S2]. cbn in S1, S2. destruct n' as [n'|]; [|contradiction]. destruct d' as [d'|]; [contradiction|].
    destruct (same_coefficients _ _ _ S1 N) as (ps' & A & B). econstructor; [exact A|now rewrite <- (poly_same _ _ x B)].
Qed.
Lemma Forall2_In_l {A} (R : A -> A -> Prop) l l' a : Forall2 R l l' -> In a l -> exists b, In b l' /\ R a b.
Proof. induction 1; intros []; subst; [eexists; split; [now left|auto]|]. destruct (IHForall2 H1) as (b & I & J). exists b. split; [now right|auto]. Qed.
Lemma same_converts a b x y : same_Computation a b -> converts a x y -> converts b x y.
Proof.
  intros [S _] (l & s & c & E & I & [A B] & C & Y). rewrite E in S. destruct (Computation_compu_scales b) as [l'|] eqn:E'; [|contradiction]. cbn in S.
  destruct (Forall2_In_l _ _ _ _ S I) as (s' & I' & (H1 & H2 & H3 & H4 & H5 & _)). rewrite C in H1. destruct (CompuScale_content s') as [c'|] eqn:C'; [|contradiction]. cbn in H1.
  exists l', s', c'. splits; auto; [split|now apply (same_yields c)].
  - rewrite <- H4. now apply (same_above (CompuScale_lower_limit s)).
  - rewrite <- H5. now apply (same_below (CompuScale_upper_limit s)).
Qed.
Lemma same_conversions_of o o' : opt_rel same_Computation o o' -> same_conversions o o'.
Proof. destruct o, o'; cbn; auto. intros H x y. split; apply same_converts; auto using same_computation_sym. Qed.

(** ** Limit checks *)
Lemma same_check l l' v : opt_rel same_number (l_lower l) (l_lower l') -> opt_rel same_number (l_upper l) (l_upper l') ->
  l_lower_type l = l_lower_type l' -> l_upper_type l = l_upper_type l' -> check_value l v = check_value l' v.
Proof.
  intros A B C D. unfold check_value. rewrite C, D. destruct (l_lower l) as [a|], (l_lower l') as [a'|]; cbn in A; try contradiction; auto.
  destruct (same_num_lt _ _ v A) as [-> _]. destruct (same_num_le _ _ v A) as [-> _].
  destruct (l_upper l) as [b|], (l_upper l') as [b'|]; cbn in B; try contradiction; auto.
  destruct (same_num_lt _ _ v B) as [_ ->]. destruct (same_num_le _ _ v B) as [_ ->]. reflexivity.
Qed.
Lemma same_constraint_check a b v : same_ConstraintBase a b -> constraint_check a v = constraint_check b v.
Proof. intros (A & B & C & D & _). apply same_check; cbn; auto; congruence. Qed.
Lemma same_scale_check a b v : same_ScaleConstraint a b -> scale_check a v = scale_check b v.
Proof. intros (A & B & C & D & _). apply same_check; cbn; auto; congruence. Qed.
Lemma constraint_check_within c lo up v : ConstraintBase_lower_limit c = Some lo -> ConstraintBase_upper_limit c = Some up -> is_number lo -> is_number up -> is_number v ->
  exists b, constraint_check c v = Ok b /\ (b = true <-> within lo up (ConstraintBase_lower_limit_type c) (ConstraintBase_upper_limit_type c) v).
Proof.
  intros L U NL NU NV. unfold constraint_check. match goal with |- context [check_value ?l v] => destruct (C17_interval l lo up v L U NL NU NV) as (b & E & H) end.
  exists b. split; [exact E|]. rewrite H. unfold inside, within. cbn [l_lower_type l_upper_type]. destruct (ConstraintBase_lower_limit_type c), (ConstraintBase_upper_limit_type c); reflexivity.
Qed.

Lemma scale_check_within c lo up v : ScaleConstraint_lower_limit c = Some lo -> ScaleConstraint_upper_limit c = Some up -> is_number lo -> is_number up -> is_number v ->
  exists b, scale_check c v = Ok b /\ (b = true <-> within lo up (ScaleConstraint_lower_limit_type c) (ScaleConstraint_upper_limit_type c) v).
Proof.
  intros L U NL NU NV. unfold scale_check. match goal with |- context [check_value ?l v] => destruct (C17_interval l lo up v L U NL NU NV) as (b & E & H) end.
  exists b. split; [exact E|]. rewrite H. unfold inside, within. cbn [l_lower_type l_upper_type]. destruct (ScaleConstraint_lower_limit_type c), (ScaleConstraint_upper_limit_type c); reflexivity.
Qed.

(** ** Value tables *)
Lemma value_scales_texts al ts i : exists s, value_scales al i (map TText ts) = Ok s /\ List.length s = List.length ts /\
  forall k t, nth_error ts k = Some t -> nth_error s k = Some (new_compu_scale (Some (ScaleConst (new_compu_const (SText t))))
    (Some (SNum (NInt (i + Z.of_nat k)))) (Some (SNum (NInt (i + Z.of_nat k)))) (if al then Some t else None) None None None None IntervalType_CLOSED IntervalType_CLOSED).
Proof.
  revert i. induction ts as [|x ts IH]; intros i; [exists []; repeat split; intros [|k]; discriminate|].
  cbn [map value_scales bind]. destruct (IH (i + 1)%Z) as (s & -> & L & N). cbn [bind]. eexists; split; [reflexivity|].
  split; [cbn; now rewrite L|]. intros [|k] t E; cbn in E |- *.
  - injection E as ->. now rewrite Z.add_0_r.
  - rewrite (N k t E). replace (i + 1 + Z.of_nat k)%Z with (i + Z.of_nat (S k))%Z by lia. reflexivity.
Qed.
Lemma nth_other {A B} (l : list A) (l' : list B) k b : List.length l' = List.length l -> nth_error l' k = Some b -> exists a, nth_error l k = Some a.
Proof.
  intros L K. destruct (nth_error l k) as [a|] eqn:E; [eauto|]. apply nth_error_None in E. assert (k < List.length l')%nat by (apply nth_error_Some; congruence). lia.
Qed.
Lemma value_table_converts ts def al c x y : value_table (map TText ts) def al = Ok c ->
  (converts c x y <-> exists k t, nth_error ts k = Some t /\ (x == inject_Z (Z.of_nat k))%Q /\ y = Text t).
Proof.
  unfold value_table. destruct (value_scales_texts al ts 0) as (s & -> & L & N). cbn [bind]. intros E. injection E as <-. unfold converts, new_computation. cbn [Computation_compu_scales]. split.
  - intros (l & e & q & [= <-] & I & [A B] & C & Y). apply In_nth_error in I as (k & K). destruct (nth_other ts s k e L K) as (t & T).
    rewrite (N k t T) in K. injection K as <-. cbn in A, B, C. injection C as <-. inversion Y; subst. exists k, t. splits; auto. cbn in A, B. now apply Qle_antisym.
  - intros (k & t & T & X & ->). specialize (N k t T). do 3 eexists. split; [reflexivity|]. split; [eapply nth_error_In; exact N|]. unfold applies_to. splits.
    + cbn [above below new_compu_scale CompuScale_lower_limit CompuScale_lower_limit_type CompuScale_upper_limit CompuScale_upper_limit_type meaning ext_le Z.add]. rewrite X. apply Qle_refl.
    + cbn [above below new_compu_scale CompuScale_lower_limit CompuScale_lower_limit_type CompuScale_upper_limit CompuScale_upper_limit_type meaning ext_le Z.add]. rewrite X. apply Qle_refl.
    + reflexivity.
    + constructor.
Qed.
Lemma value_scales_good al ts i s : Forall good_text ts -> value_scales al i (map TText ts) = Ok s -> all_ok good_CompuScale s.
Proof.
  intros G. revert i s. induction G as [|t ts H G IH]; intros i s E; cbn [map value_scales bind] in E; [injection E as <-; exact I|].
  destruct (value_scales al (i + 1) (map TText ts)) as [r|] eqn:R; [|discriminate]. cbn [bind] in E. injection E as <-. split; [|exact (IH _ _ R)].
  unfold good_CompuScale. cbn. splits; auto. destruct al; cbn; auto.
Qed.

Lemma value_scales_entries al l i : match value_scales al i l with
  | Ok s => List.length s = List.length l /\ forall k t, nth_error l k = Some t -> exists lo up v label, nth_error s k = Some (new_compu_scale (Some (ScaleConst (new_compu_const v)))
      (Some lo) (Some up) label None None None None IntervalType_CLOSED IntervalType_CLOSED) /\ label = (match v with SText x => if al then Some x else None | SNum _ => None end) /\
      (match t with TText x => lo = SNum (NInt (i + Z.of_nat k)) /\ up = lo /\ v = SText x | TTuple [a; w] => lo = a /\ up = a /\ v = w | TTuple [a; b; w] => lo = a /\ up = b /\ v = w | _ => False end)
  | Err _ => exists k t, nth_error l k = Some t /\ (match t with TText _ | TTuple [_; _] | TTuple [_; _; _] => False | _ => True end)
  end.
Proof.
  revert i. induction l as [|t l IH]; intros i; [split; [reflexivity|]; intros [|k]; discriminate|]. cbn [value_scales]. specialize (IH (i + 1)%Z).
  assert (G : forall lo up v, (match t with TText x => lo = SNum (NInt i) /\ up = lo /\ v = SText x | TTuple [a; w] => lo = a /\ up = a /\ v = w | TTuple [a; b; w] => lo = a /\ up = b /\ v = w | _ => False end) ->
    match (let label := match v with SText s => if al then Some s else None | SNum _ => None end in
      let* rest := value_scales al (i + 1) l in Ok (new_compu_scale (Some (ScaleConst (new_compu_const v))) (Some lo) (Some up) label None None None None IntervalType_CLOSED IntervalType_CLOSED :: rest)) with
    | Ok s => List.length s = List.length (t :: l) /\ forall k t', nth_error (t :: l) k = Some t' -> exists lo up v label, nth_error s k = Some (new_compu_scale (Some (ScaleConst (new_compu_const v)))
        (Some lo) (Some up) label None None None None IntervalType_CLOSED IntervalType_CLOSED) /\ label = (match v with SText x => if al then Some x else None | SNum _ => None end) /\
        (match t' with TText x => lo = SNum (NInt (i + Z.of_nat k)) /\ up = lo /\ v = SText x | TTuple [a; w] => lo = a /\ up = a /\ v = w | TTuple [a; b; w] => lo = a /\ up = b /\ v = w | _ => False end)
    | Err _ => exists k t', nth_error (t :: l) k = Some t' /\ (match t' with TText _ | TTuple [_; _] | TTuple [_; _; _] => False | _ => True end)
    end).
  { intros lo up v H. cbn zeta. destruct (value_scales al (i + 1) l) as [s|e]; cbn [bind].
    - destruct IH as [L N]. split; [cbn; now rewrite L|]. intros [|k] t' E.
      + cbn in E. injection E as <-. exists lo, up, v. eexists. split; [reflexivity|]. split; [reflexivity|]. rewrite Z.add_0_r. exact H.
      + cbn in E. destruct (N k t' E) as (lo' & up' & v' & la & A & B & C). exists lo', up', v', la. split; [exact A|]. split; [exact B|]. replace (i + Z.of_nat (S k))%Z with (i + 1 + Z.of_nat k)%Z by lia. exact C.
    - destruct IH as (k & t' & A & B). exists (S k), t'. auto. }
  destruct t as [x|[|a [|b [|w [|z r]]]]|]; cbn [bind]; try (exists 0%nat; eexists; split; [reflexivity|exact I]).
  - exact (G (SNum (NInt i)) (SNum (NInt i)) (SText x) (conj eq_refl (conj eq_refl eq_refl))).
  - exact (G a a b (conj eq_refl (conj eq_refl eq_refl))).
  - exact (G a b w (conj eq_refl (conj eq_refl eq_refl))).
Qed.
Lemma table_converts l def al c x y : value_table l def al = Ok c ->
  (converts c x y <-> exists k t lo up v, nth_error l k = Some t /\ entry k t lo up v /\ above (Some lo) IntervalType_CLOSED x /\ below (Some up) IntervalType_CLOSED x /\ stands_for v y).
Proof.
  unfold value_table. pose proof (value_scales_entries al l 0) as V. destruct (value_scales al 0 l) as [s|e]; [|discriminate]. cbn [bind]. destruct V as [L N]. intros E. injection E as <-.
  unfold converts, new_computation. cbn [Computation_compu_scales]. split.
  - intros (l' & e & q & [= <-] & I & [A B] & C & Y). apply In_nth_error in I as (k & K). destruct (nth_other l s k e L K) as (t & T).
    destruct (N k t T) as (lo & up & v & la & K' & _ & H). rewrite K in K'. injection K' as ->. cbn [new_compu_scale CompuScale_content CompuScale_lower_limit CompuScale_upper_limit CompuScale_lower_limit_type CompuScale_upper_limit_type] in A, B, C.
    injection C as <-. exists k, t, lo, up, v. splits; auto.
    + destruct t as [z|[|a [|b [|w [|? ?]]]]|]; try contradiction; destruct H as (-> & -> & ->); constructor.
    + destruct v; cbn; inversion Y; subst; eauto.
  - intros (k & t & lo & up & v & T & H & A & B & Y). destruct (N k t T) as (lo' & up' & v' & la & K & _ & H').
    assert (E : lo' = lo /\ up' = up /\ v' = v) by (destruct H; destruct H' as (-> & -> & ->); auto). destruct E as (-> & -> & ->).
    do 3 eexists. split; [reflexivity|]. split; [eapply nth_error_In; exact K|]. split; [split; [exact A|exact B]|]. split; [reflexivity|].
    destruct v as [n|z]; cbn in Y; [destruct Y as (p & q & M & Q & ->); econstructor; eauto|subst; constructor].
Qed.

(** ** Rational computations *)
Lemma to_float_same f : same_number f (NFloat (to_float f)).
Proof.
  destruct f as [z|g]; cbn [to_float].
  - unfold same_number. destruct (canon_meaning (z <? 0)%Z (Z.to_N (Z.abs z)) 0) as (p' & M & E). rewrite M. cbn [meaning]. rewrite E. symmetry. exact (decimal_of_int_dq z).
  - unfold same_number. destruct (meaning (NFloat g)); auto. reflexivity.
Qed.
Lemma rational_converts factor offset lo up def lt ut p q x y : meaning factor = Fin p -> meaning offset = Fin q ->
  (converts (rational_computation factor offset lo up def lt ut) x y <-> above lo lt x /\ below up ut x /\ exists r, y = Number r /\ (r == q + p * x)%Q).
Proof.
  intros P Q. destruct (same_fin _ _ _ (to_float_same factor) P) as (p' & P' & E'). unfold converts, rational_computation, new_computation. cbn [Computation_compu_scales]. split.
  - intros (l & e & c & [= <-] & [<-|[]] & [A B] & C & Y). cbn in A, B, C. injection C as <-. inversion Y as [| |num den ps qs y' N D Z E|]; subst.
    splits; auto. eexists. split; [reflexivity|]. rewrite E. inversion N as [|? ? ? ? N1 N2]; subst. inversion N2 as [|? ? ? ? N3 N4]; subst. inversion N4; subst.
    inversion D as [|? ? ? ? D1 D2]; subst. inversion D2; subst. rewrite Q in N1. injection N1 as <-. rewrite P' in N3. injection N3 as <-. cbn in D1. injection D1 as <-.
    cbn [poly]. rewrite E'. unfold inject_Z. field.
  - intros (A & B & r & -> & R). do 3 eexists. split; [reflexivity|]. split; [left; reflexivity|]. split; [split; assumption|]. split; [reflexivity|].
    apply (yields_fraction x _ _ [q; p'] [inject_Z 1]); [repeat constructor; auto|repeat constructor| |].
    + cbn [poly]. intros C. ring_simplify in C. discriminate.
    + cbn [poly]. rewrite R, E'. unfold inject_Z. field.
Qed.
