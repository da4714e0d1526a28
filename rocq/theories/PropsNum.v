(** Property theorems about numbers (C15-C18).
    Vocabulary: SNum.v.  The model of the code: MNum.v. *)
From Coq Require Import QArith Qpower Qfield Lqa.
From Verif Require Import Base PBase MNames PNames MNum SNum PNum PNum2 PNum3 PNum4.
Open Scope Z_scope.

(** ** C15 *)

(** Every int is read back as the same int. *)
Theorem C15_integers : forall z, exists t, format_number (NInt z) = Ok t /\ read_number t = Ok (NInt z).
Proof. intros z. exists (zstr z). split; auto. unfold read_number. now rewrite int10_zstr. Qed.

(** Every float below 10^28 (in absolute value), every infinity and NaN is written and read back
    as the same number (a float without fraction comes back as the equal int). *)
Theorem C15_floats : forall f, python_float f -> below_1e28 (NFloat f) ->
  exists t n, format_number (NFloat f) = Ok t /\ read_number t = Ok n /\ same_number n (NFloat f).
Proof.
  intros f W B. destruct f as [neg| |neg c e].
  - exists (if neg then "-INF" else "INF"), (NFloat (FInf neg)). destruct neg; repeat split.
  - exists "NaN", (NFloat FNaN). repeat split.
  - unfold below_1e28 in B. cbn [meaning] in B.
    assert (B' : (- big < dq (decimal_of_float neg c e) /\ dq (decimal_of_float neg c e) < big)%Q).
    { rewrite decimal_of_float_dq. exact B. }
    destruct (format_decimal_ok _ B') as (t & T). destruct (format_decimal_read _ _ T) as (n & q & R & M & Q).
    exists t, n. split; [exact T|]. split; [exact R|]. unfold same_number. rewrite M. cbn [meaning].
    rewrite Q. apply decimal_of_float_dq.
Qed.

(** From 10^28 on, writing a float raises decimal.InvalidOperation. *)
Theorem C15_large_floats_refuted : forall neg c e, python_float (FFin neg c e) ->
  ~ below_1e28 (NFloat (FFin neg c e)) ->
  format_number (NFloat (FFin neg c e)) = Err DecimalInvalidOperation.
Proof.
  intros neg c e (L & _) B. unfold below_1e28 in B. cbn [meaning] in B.
  change (format_decimal (decimal_of_float neg c e) = Err DecimalInvalidOperation).
  apply format_decimal_err; [|now rewrite decimal_of_float_dq].
  unfold decimal_of_float. cbv zeta. destruct (_ && _ && _) eqn:E; cbn [d_coef]; [left|right].
  - unfold is_integral. cbn [d_exp d_coef]. change (10 ^ Z.to_N (- -1))%N with 10%N.
    apply andb_prop in E as [_ E]. apply Z.leb_le in E. apply orb_true_iff. right.
    replace (Z.to_N (e + 1)) with (N.succ (Z.to_N e)) by lia. rewrite N.pow_succ_r'.
    replace (c * (10 * 10 ^ Z.to_N e))%N with ((c * 10 ^ Z.to_N e) * 10)%N by lia.
    rewrite N.mod_mul by lia. reflexivity.
  - eapply N.lt_trans; [exact L|]. reflexivity.
Qed.

(** Ints written by the float formatter (as units and time-outs are) are read back if they are
    below 10^28, and raise decimal.InvalidOperation otherwise. *)
Theorem C15_integers_as_floats : forall z,
  (Z.abs z < 10 ^ 28 -> exists t, format_float (NInt z) = Ok t /\ read_number t = Ok (NInt z)) /\
  (10 ^ 28 <= Z.abs z -> format_float (NInt z) = Err DecimalInvalidOperation).
Proof.
  intros z. cbn [format_float].
  assert (I : is_integral (decimal_of_int z) = true) by reflexivity.
  assert (Q : quantize1 (decimal_of_int z) = if (Z.to_N (Z.abs z) <? 10 ^ 28)%N then Ok (decimal_of_int z) else Err DecimalInvalidOperation).
  { unfold quantize1, decimal_of_int. cbn [d_exp d_coef d_neg]. change (0 <=? 0) with true. cbv iota.
    change (10 ^ Z.to_N 0)%N with 1%N. rewrite N.mul_1_r. set (c := Z.to_N (Z.abs z)).
    pose proof (ndig_le c precision ltac:(unfold precision; lia)) as L. change (10 ^ Z.to_N precision)%N with (10 ^ 28)%N in L.
    destruct (precision <? ndig c) eqn:E; destruct (c <? 10 ^ 28)%N eqn:F; auto; exfalso.
    - apply Z.ltb_lt in E. apply N.ltb_lt in F. apply L in F. lia.
    - apply Z.ltb_ge in E. apply N.ltb_ge in F. apply L in E. lia. }
  unfold format_decimal. rewrite I, Q. split; intros H.
  - replace (Z.to_N (Z.abs z) <? 10 ^ 28)%N with true by (symmetry; apply N.ltb_lt; lia). cbn [bind].
    eexists; split; [reflexivity|]. rewrite dec_str_read. cbn [d_exp d_neg d_coef decimal_of_int]. change (0 =? 0) with true.
    cbv iota. unfold signed. rewrite Z2N.id by lia. do 2 f_equal. destruct (z <? 0) eqn:E.
    + apply Z.ltb_lt in E. lia.
    + apply Z.ltb_ge in E. lia.
  - replace (Z.to_N (Z.abs z) <? 10 ^ 28)%N with false by (symmetry; apply N.ltb_ge; lia). reflexivity.
Qed.

(** Booleans survive, and only the four texts are accepted. *)
Theorem C15_booleans : forall b, read_boolean (format_boolean b) = Ok b.
Proof. now intros []. Qed.
Theorem C15_boolean_texts : forall s b,
  read_boolean s = Ok b <-> (b = false /\ (s = "0" \/ s = "false")) \/ (b = true /\ (s = "1" \/ s = "true")).
Proof.
  intros s b. unfold read_boolean. destruct (String.eqb s "0" || String.eqb s "false") eqn:E.
  - apply orb_prop in E. rewrite !String.eqb_eq in E. split.
    + intros [= <-]. auto.
    + intros [[-> _]|[_ [-> | ->]]]; auto; destruct E; discriminate.
  - apply orb_false_iff in E. rewrite !String.eqb_neq in E. destruct (String.eqb s "1" || String.eqb s "true") eqn:F.
    + apply orb_prop in F. rewrite !String.eqb_eq in F. split.
      * intros [= <-]. auto.
      * intros [[_ [? | ?]]|[-> _]]; auto; tauto.
    + apply orb_false_iff in F. rewrite !String.eqb_neq in F. split; [discriminate|].
      intros [[_ [? | ?]]|[_ [? | ?]]]; tauto.
Qed.

(** ** C16 *)

(** Text literals: hexadecimal, octal and binary digits after their prefix (either letter case),
    with or without a minus sign. *)
Theorem C16_prefixed_literals : forall (neg : bool) x b s n,
  ((x = "x"%char \/ x = "X"%char) /\ b = 16%N) \/ ((x = "o"%char \/ x = "O"%char) /\ b = 8%N)
    \/ ((x = "b"%char \/ x = "B"%char) /\ b = 2%N) ->
  notation b s n ->
  let text := ((if neg then "-" else "") ++ "0" ++ String x s)%string in
  exists fmt, nv_new (AText text) FMT_DEFAULT = Ok (mkNum (NInt (if neg then - Z.of_N n else Z.of_N n)) fmt) /\
    (fmt = FMT_HEXADECIMAL <-> neg = false /\ x = "x"%char) /\
    (fmt = FMT_BINARY <-> neg = false /\ x = "b"%char) /\
    read_integer text = Ok (if neg then - Z.of_N n else Z.of_N n) /\
    pos_validate (AText text) = if neg && negb (N.eqb n 0) then Err ValueError else Ok n.
Proof.
  intros neg x b s n P H text.
  assert (I : int0 text = Some (signed neg n)) by (unfold text; exact (int0_prefix neg x b s n P H)).
  unfold nv_new, nv_validate, read_integer, pos_validate. rewrite I. cbn [bind].
  eexists. split; [reflexivity|]. unfold signed.
  assert (PV : (if (if neg then - Z.of_N n else Z.of_N n) <? 0 then Err ValueError
          else Ok (Z.to_N (if neg then - Z.of_N n else Z.of_N n))) = if neg && negb (N.eqb n 0) then Err ValueError else Ok n).
  { destruct neg; cbn [andb].
    - destruct (N.eqb n 0) eqn:E; cbn [negb].
      + apply N.eqb_eq in E. subst. reflexivity.
      + apply N.eqb_neq in E. replace (- Z.of_N n <? 0) with true by (symmetry; apply Z.ltb_lt; lia). reflexivity.
    - replace (Z.of_N n <? 0) with false by (symmetry; apply Z.ltb_ge; lia). now rewrite N2Z.id. }
  rewrite PV. unfold text.
  destruct neg; destruct P as [[[-> | ->] _]|[[[-> | ->] _]|[[-> | ->] _]]]; cbn;
    repeat split; try discriminate; try (intros [? ?]; discriminate); auto; intros; try discriminate; intuition discriminate.
Qed.

(** Decimal texts of ints (no superfluous zeros). *)
Theorem C16_decimal_literals : forall z,
  nv_new (AText (zstr z)) FMT_DEFAULT = Ok (mkNum (NInt z) FMT_DEFAULT) /\
  read_integer (zstr z) = Ok z /\
  pos_validate (AText (zstr z)) = if z <? 0 then Err ValueError else Ok (Z.to_N z).
Proof.
  intros z. unfold nv_new, nv_validate, read_integer, pos_validate. rewrite int0_zstr. cbn [bind].
  split; [|split; reflexivity]. do 2 f_equal.
  assert (H : forall y, digit_val y = None -> y <> "0"%char -> starts_with (String "0" (String y "")) (zstr z) = false).
  { intros y Y _. unfold starts_with, zstr. destruct (z <? 0); [reflexivity|].
    destruct (dec (Z.to_N z)) as [|c r] eqn:E; [reflexivity|]. cbn [strip_prefix].
    destruct (Ascii.eqb "0" c) eqn:C; [|reflexivity]. apply Ascii.eqb_eq in C. subst c.
    apply dec_zero_head in E as [_ ->]. reflexivity. }
  rewrite (H "x"%char), (H "b"%char); auto; discriminate.
Qed.

(** Non-negative hexadecimal and binary values are written so that value and format come back. *)
Theorem C16_format_round_trip : forall z fmt, 0 <= z -> fmt = FMT_HEXADECIMAL \/ fmt = FMT_BINARY ->
  exists t, format_numval (mkNum (NInt z) fmt) = Ok t /\
            nv_new (AText t) FMT_DEFAULT = Ok (mkNum (NInt z) fmt).
Proof.
  intros z fmt Z0 [-> | ->]; cbn [format_numval nv_format nv_value]; eexists; (split; [reflexivity|]).
  - pose proof (base_str_spec 16 z ltac:(lia) Z0) as N.
    pose proof (int0_prefix false "x" 16 _ _ (or_introl (conj (or_introl eq_refl) eq_refl)) N) as I.
    unfold nv_new, nv_validate. cbn [append] in I |- *. rewrite I. cbn [bind signed]. rewrite Z2N.id by auto. reflexivity.
  - pose proof (base_str_spec 2 z ltac:(lia) Z0) as N.
    pose proof (int0_prefix false "b" 2 _ _ (or_intror (or_intror (conj (or_introl eq_refl) eq_refl))) N) as I.
    unfold nv_new, nv_validate. cbn [append] in I |- *. rewrite I. cbn [bind signed]. rewrite Z2N.id by auto. reflexivity.
Qed.

(** Values in the default or decimal format come back as the same number; the decimal format
    itself comes back as the default. *)
Theorem C16_decimal_round_trip : forall v fmt, fmt = FMT_DEFAULT \/ fmt = FMT_DECIMAL ->
  (match v with NInt _ => True | NFloat f => python_float f /\ below_1e28 v /\ (exists neg c e, f = FFin neg c e) end) ->
  exists t v', format_numval (mkNum v fmt) = Ok t /\
    nv_new (AText t) FMT_DEFAULT = Ok (mkNum v' FMT_DEFAULT) /\ same_number v' v.
Proof.
  intros v fmt F H. assert (E : format_numval (mkNum v fmt) = format_number v) by (destruct F as [-> | ->]; reflexivity).
  rewrite E. clear F E. destruct v as [z|f].
  - exists (zstr z), (NInt z). split; [reflexivity|]. split; [apply C16_decimal_literals|]. unfold same_number. cbn. reflexivity.
  - destruct H as (W & B & neg & c & e & ->). unfold below_1e28 in B. cbn [meaning] in B.
    assert (B' : (- big < dq (decimal_of_float neg c e) /\ dq (decimal_of_float neg c e) < big)%Q).
    { rewrite decimal_of_float_dq. exact B. }
    assert (S : forall d n, read_number (dec_str d) = Ok n -> nv_new (AText (dec_str d)) FMT_DEFAULT = Ok (mkNum n FMT_DEFAULT)).
    { intros d n R. unfold nv_new. rewrite dec_str_nv, R. cbn [bind]. do 2 f_equal.
      assert (X : forall y, mem_char y (dec_str d) = false -> starts_with (String "0" (String y "")) (dec_str d) = false).
      { intros y Y. unfold starts_with. destruct (strip_prefix (String "0" (String y "")) (dec_str d)) as [r|] eqn:SP; [|reflexivity].
        apply strip_prefix_spec in SP. cbn [append] in SP. rewrite SP in Y. cbn [mem_char] in Y. rewrite Ascii.eqb_refl in Y.
        rewrite !orb_true_r in Y. discriminate. }
      rewrite (X "x"%char), (X "b"%char); auto; apply dec_str_mem; auto; discriminate. }
    destruct (format_decimal_ok _ B') as (t & T). destruct (format_decimal_read _ _ T) as (n & q & R & M & Q).
    exists t, n. split; [exact T|]. split.
    + unfold format_decimal in T. destruct (is_integral (decimal_of_float neg c e)).
      * destruct (quantize1 (decimal_of_float neg c e)) as [d|]; [|discriminate]. cbn [bind] in T. injection T as <-. apply S. exact R.
      * injection T as <-. apply S. exact R.
    + unfold same_number. rewrite M. cbn [meaning]. rewrite Q. apply decimal_of_float_dq.
Qed.

(** Negative values in hexadecimal or binary format are written as texts that cannot be read. *)
Theorem C16_negative_refuted : forall z fmt, z < 0 -> fmt = FMT_HEXADECIMAL \/ fmt = FMT_BINARY ->
  exists t, format_numval (mkNum (NInt z) fmt) = Ok t /\ nv_new (AText t) FMT_DEFAULT = Err ValueError.
Proof.
  intros z fmt Z0 F.
  assert (P : forall x b, (x = "x"%char /\ b = 16%N) \/ (x = "b"%char /\ b = 2%N) ->
     nv_new (AText (String "0" (String x (base_str b z)))) FMT_DEFAULT = Err ValueError).
  { intros x b X. unfold base_str. replace (z <? 0) with true by (symmetry; now apply Z.ltb_lt).
    set (ds := base_digits _ _ _ _).
    assert (A : exists s, ds = s /\ alldb b s = true).
    { unfold ds. set (n := Z.to_N (Z.abs z)).
      destruct (base_digits_spec b (S (N.to_nat (N.log2 n))) n "") as (s & -> & H); [destruct X as [[_ ->]|[_ ->]]; lia| |discriminate|].
      - rewrite Nat2N.inj_succ, N2Nat.id. destruct (N.eq_dec n 0) as [->|NZ].
        + apply N.neq_0_lt_0, N.pow_nonzero. destruct X as [[_ ->]|[_ ->]]; lia.
        + eapply N.lt_le_trans; [apply N.log2_spec; lia|]. apply N.pow_le_mono_l. destruct X as [[_ ->]|[_ ->]]; lia.
      - exists s. rewrite str_app_nil_r. split; auto. now apply notation_spec in H as (? & _). }
    destruct A as (s & -> & A). unfold nv_new, nv_validate.
    assert (W : nows (String "0" (String x ("-" ++ s)%string)) = true).
    { cbn [append nows]. rewrite (alldb_nows b s A). destruct X as [[-> _]|[-> _]]; reflexivity. }
    assert (I : int0 (String "0" (String x ("-" ++ s)%string)) = None).
    { unfold int0. rewrite strip_nows by exact W. destruct X as [[-> ->]|[-> ->]]; reflexivity. }
    assert (G : float_of (String "0" (String x ("-" ++ s)%string)) = None).
    { unfold float_of. cbv zeta. rewrite strip_nows by exact W. destruct X as [[-> ->]|[-> ->]]; cbn; destruct (drop_under _ s); reflexivity. }
    rewrite I, G. reflexivity. }
  destruct F as [-> | ->]; cbn [format_numval nv_format nv_value append]; eexists; (split; [reflexivity|]); apply P; auto.
Qed.

(** Scientific format: values with at most seven digits come back (as the default format)... *)
Theorem C16_scientific_partial : forall neg c e, (c < 10 ^ 7)%N ->
  exists t f, format_numval (mkNum (NFloat (FFin neg c e)) FMT_SCIENTIFIC) = Ok t /\
    read_number t = Ok (NFloat f) /\ same_number (NFloat f) (NFloat (FFin neg c e)).
Proof.
  intros neg c e C. cbn [format_numval nv_format nv_value]. exists (sci_str neg c e).
  destruct (sci_short neg c e C) as (q & F & Q). destruct (float_of (sci_str neg c e)) as [f|] eqn:E; [|discriminate].
  cbn [option_map] in F. injection F as F. exists f. split; [reflexivity|]. split.
  - unfold read_number. rewrite E.
    rewrite (int10_none_mem _ "."%char); auto; try discriminate.
    + rewrite sci_str_eq. destruct (round7 c) as [q' k]. destruct (sci_exponent (if (q' =? 0)%N then 0 else e + k + ndig q' - 1)) as (_ & W).
      rewrite nows_sign, !nows_app, W, (alld_nows _ (alld_take _ _ (alld_dec q'))).
      rewrite (alld_nows (str_take 6 (str_drop 1 (dec q') ++ zeros 6))); [reflexivity|]. apply alld_take.
      rewrite alld_app, alld_zeros, (alld_drop _ _ (alld_dec q')). reflexivity.
    + rewrite sci_str_eq. destruct (round7 c) as [q' k]. apply mem_text; auto using alld_take, alld_dec.
      destruct (dec_head q') as (y & r & v & -> & _). discriminate.
  - unfold same_number. replace (meaning (NFloat f)) with (Fin q) by (symmetry; exact F). exact Q.
Qed.

(** ... and longer ones lose digits. *)
Theorem C16_scientific_refuted : exists z t v,
  format_numval (mkNum (NInt z) FMT_SCIENTIFIC) = Ok t /\ nv_new (AText t) FMT_DEFAULT = Ok v /\
  nv_format v = FMT_DEFAULT /\ ~ same_number (nv_value v) (NInt z).
Proof.
  exists 12345678. do 2 eexists. split; [vm_compute; reflexivity|]. split; [vm_compute; reflexivity|].
  split; [reflexivity|]. vm_compute. discriminate.
Qed.

(** Positive integers: accepted exactly when not negative, with the same value. *)
Theorem C16_positive : forall z n, pos_validate (ANum (NInt z)) = Ok n <-> 0 <= z /\ Z.of_N n = z.
Proof.
  intros z n. cbn [pos_validate]. destruct (z <? 0) eqn:E.
  - apply Z.ltb_lt in E. split; [discriminate|lia].
  - apply Z.ltb_ge in E. split; [intros [= <-]; lia|]. intros [_ <-]. now rewrite N2Z.id.
Qed.

(** ** C17 *)

(** With both limits present and no NaN, check_value is interval membership. *)
Theorem C17_interval : forall l lo up v,
  l_lower l = Some lo -> l_upper l = Some up ->
  meaning lo <> NotANumber -> meaning up <> NotANumber -> meaning v <> NotANumber ->
  exists b, check_value l v = Ok b /\ (b = true <-> inside l lo up v).
Proof.
  intros l lo up v L U NL NU NV.
  assert (TOT : forall a b, meaning a <> NotANumber -> meaning b <> NotANumber ->
     (num_lt a b = true <-> ~ ext_le (meaning b) (meaning a)) /\ (num_le a b = true <-> ~ ext_lt (meaning b) (meaning a))).
  { intros a b A B. rewrite num_lt_spec, num_le_spec.
    destruct (meaning a) as [p| | |], (meaning b) as [q| | |]; cbn; try tauto; try congruence.
    split; [rewrite Qlt_not_le_iff || (split; [apply Qlt_not_le|apply Qnot_le_lt])|split; [apply Qle_not_lt|apply Qnot_lt_le]]. }
  assert (TOT' : forall a b, meaning a <> NotANumber -> meaning b <> NotANumber ->
     num_lt a b = negb (num_le b a) /\ num_le a b = negb (num_lt b a)).
  { intros a b A B. destruct (TOT a b A B) as [T1 T2]. rewrite <- num_le_spec in T1. rewrite <- num_lt_spec in T2. split.
    - destruct (num_lt a b), (num_le b a); auto; [destruct (proj1 T1 eq_refl eq_refl)|]. apply T1. discriminate.
    - destruct (num_le a b), (num_lt b a); auto; [destruct (proj1 T2 eq_refl eq_refl)|]. apply T2. discriminate. }
  unfold check_value, inside. rewrite L, U.
  destruct (TOT' v lo NV NL) as [A1 A2], (TOT' up v NU NV) as [B1 B2].
  match goal with |- exists b, (if ?x then _ else if ?y then _ else _) = _ /\ _ =>
    exists (negb x && negb y); split; [destruct x, y; reflexivity|] end.
  destruct (l_lower_type l), (l_upper_type l); rewrite <- ?num_le_spec, <- ?num_lt_spec, ?A1, ?A2, ?B1, ?B2, !negb_involutive;
    apply andb_true_iff.
Qed.

(** NaN is accepted by every pair of limits. *)
Theorem C17_nan_refuted : forall l lo up, l_lower l = Some lo -> l_upper l = Some up ->
  check_value l (NFloat FNaN) = Ok true.
Proof.
  intros l lo up L U. unfold check_value. rewrite L, U.
  assert (A : forall x, num_cmp (NFloat FNaN) x = None) by reflexivity.
  assert (B : forall x, num_cmp x (NFloat FNaN) = None) by (intros [|[]]; reflexivity).
  unfold num_lt, num_le. rewrite (A lo), (B up). now destruct (l_lower_type l), (l_upper_type l).
Qed.

(** A missing limit does not mean "unbounded": the check raises TypeError (unless the present
    lower limit already excludes the value). *)
Theorem C17_missing_limit_refuted : forall l v,
  l_lower l = None \/ (l_upper l = None /\ exists lo, l_lower l = Some lo /\ ext_lt (meaning lo) (meaning v)) ->
  check_value l v = Err TypeError.
Proof.
  intros l v [L|(U & lo & L & H)]; unfold check_value; rewrite L; auto. rewrite U.
  assert (A : num_lt v lo = false /\ num_le v lo = false).
  { apply ext_lt_le in H as [H1 H2]. split; apply not_true_is_false; rewrite ?num_lt_spec, ?num_le_spec; auto.
    intros C. apply ext_lt_le in C as [_ C]. tauto. }
  destruct A as [-> ->]. now destruct (l_lower_type l).
Qed.

(** ** C18 *)

(** A list of texts gives one scale per text, numbered from zero. *)
Theorem C18_texts : forall ts def al,
  exists scales, make_value_table (map TText ts) def al = Ok (mkComp scales def) /\
    List.length scales = List.length ts /\
    (forall i t, nth_error ts i = Some t ->
       nth_error scales i = Some (mkScale (Some (CConst (SText t)))
         (Some (SNum (NInt (Z.of_nat i)))) (Some (SNum (NInt (Z.of_nat i))))
         (if al then Some t else None) CLOSED CLOSED)).
Proof.
  intros ts def al. unfold make_value_table.
  assert (H : forall ts i, exists s, table_scales al i (map TText ts) = Ok s /\ List.length s = List.length ts /\
    (forall k t, nth_error ts k = Some t ->
       nth_error s k = Some (mkScale (Some (CConst (SText t)))
         (Some (SNum (NInt (i + Z.of_nat k)))) (Some (SNum (NInt (i + Z.of_nat k))))
         (if al then Some t else None) CLOSED CLOSED))).
  { clear. induction ts as [|x ts IH]; intros i; [exists []; repeat split; intros [|k]; discriminate|].
    cbn [map table_scales bind]. destruct (IH (i + 1)) as (s & -> & L & N). cbn [bind]. eexists; split; [reflexivity|].
    split; [cbn; now rewrite L|]. intros [|k] t E; cbn in E |- *.
    - injection E as ->. now rewrite Z.add_0_r.
    - rewrite (N k t E). replace (i + 1 + Z.of_nat k) with (i + Z.of_nat (S k)) by lia. reflexivity. }
  destruct (H ts 0) as (s & -> & L & N). exists s. auto.
Qed.

(** The limits cover exactly the numbers of the listed texts, each once. *)
Theorem C18_limits : forall ts def al c, make_value_table (map TText ts) def al = Ok c ->
  forall z, (0 <= z < Z.of_nat (List.length ts) ->
             exists i, z = Z.of_nat i /\ forall k s, nth_error (c_scales c) k = Some s -> (covers s z <-> k = i)) /\
            (~ (0 <= z < Z.of_nat (List.length ts)) -> forall s, In s (c_scales c) -> ~ covers s z).
Proof.
  intros ts def al c E z. destruct (C18_texts ts def al) as (s & E' & L & N). rewrite E in E'. injection E' as ->. cbn [c_scales].
  assert (C : forall k x, nth_error s k = Some x -> (covers x z <-> z = Z.of_nat k)).
  { intros k x K. assert (KL : (k < List.length ts)%nat) by (rewrite <- L; apply nth_error_Some; congruence).
    destruct (nth_error ts k) as [t|] eqn:T; [|apply nth_error_None in T; lia]. rewrite (N k t T) in K. injection K as <-.
    unfold covers. cbn [sc_lower sc_upper sc_lower_type sc_upper_type]. split.
    - intros (lo & up & [= <-] & [= <-] & _ & _ & A & B). cbn in A, B. rewrite <- Zle_Qle in A, B. lia.
    - intros ->. do 2 eexists. do 4 (split; [reflexivity|]). cbn. split; apply Qle_refl. }
  split.
  - intros R. exists (Z.to_nat z). split; [lia|]. intros k x K. rewrite (C k x K). lia.
  - intros R x I. apply In_nth_error in I as (k & K). rewrite (C k x K). intros ->.
    apply R. assert (k < List.length s)%nat by (apply nth_error_Some; congruence). lia.
Qed.

(** Tuples keep their own limits; items of another shape are rejected. *)
Theorem C18_tuples : forall l def al,
  (forall c, make_value_table l def al = Ok c ->
     List.length (c_scales c) = List.length l /\
     forall i t s, nth_error l i = Some t -> nth_error (c_scales c) i = Some s ->
       match t with
       | TText x => sc_content s = Some (CConst (SText x)) /\ sc_lower s = Some (SNum (NInt (Z.of_nat i))) /\ sc_upper s = sc_lower s
       | TTuple [a; v] => sc_content s = Some (CConst v) /\ sc_lower s = Some a /\ sc_upper s = Some a
       | TTuple [a; b; v] => sc_content s = Some (CConst v) /\ sc_lower s = Some a /\ sc_upper s = Some b
       | _ => False
       end) /\
  ((exists c, make_value_table l def al = Ok c) <->
   forall t, In t l -> match t with TText _ | TTuple [_; _] | TTuple [_; _; _] => True | _ => False end).
Proof.
  intros l def al. unfold make_value_table.
  assert (H : forall l i,
    (forall s, table_scales al i l = Ok s ->
     List.length s = List.length l /\
     forall k t x, nth_error l k = Some t -> nth_error s k = Some x ->
       match t with
       | TText y => sc_content x = Some (CConst (SText y)) /\ sc_lower x = Some (SNum (NInt (i + Z.of_nat k))) /\ sc_upper x = sc_lower x
       | TTuple [a; v] => sc_content x = Some (CConst v) /\ sc_lower x = Some a /\ sc_upper x = Some a
       | TTuple [a; b; v] => sc_content x = Some (CConst v) /\ sc_lower x = Some a /\ sc_upper x = Some b
       | _ => False
       end) /\
    ((exists s, table_scales al i l = Ok s) <->
     forall t, In t l -> match t with TText _ | TTuple [_; _] | TTuple [_; _; _] => True | _ => False end)).
  { clear. induction l as [|t l IH]; intros i.
    - split; [|split; [intros _ t []|intros _; exists []; reflexivity]].
      intros s [= <-]. split; [reflexivity|]. intros [|k]; discriminate.
    - destruct (IH (i + 1)) as (A & B). cbn [table_scales].
      assert (Sh : match t with TText _ | TTuple [_; _] | TTuple [_; _; _] => True | _ => False end \/
                   ~ match t with TText _ | TTuple [_; _] | TTuple [_; _; _] => True | _ => False end)
        by (destruct t as [|[|? [|? [|? [|]]]]|]; tauto).
      split.
      + intros s E. destruct (match t with TText s => _ | _ => _ end) as [[[lo up] v]|] eqn:T; cbn in E; [|discriminate].
        destruct (table_scales al (i + 1) l) as [r|] eqn:R; cbn in E; [|discriminate]. injection E as <-.
        destruct (A r eq_refl) as (L & N). split; [cbn; now rewrite L|].
        intros [|k] t' x K X; cbn in K, X.
        * injection K as <-. injection X as <-. cbn [sc_content sc_lower sc_upper].
          destruct t as [y|[|a [|b [|c [|]]]]|]; try discriminate; injection T as <- <- <-; rewrite ?Z.add_0_r; auto.
        * specialize (N k t' x K X). replace (i + 1 + Z.of_nat k) with (i + Z.of_nat (S k)) in N by lia. exact N.
      + split.
        * intros (s & E). destruct (match t with TText s => _ | _ => _ end) as [[[lo up] v]|] eqn:T; cbn in E; [|discriminate].
          destruct (table_scales al (i + 1) l) as [r|] eqn:R; cbn in E; [|discriminate].
          intros t' [<-|I]; [destruct t as [y|[|a [|b [|c [|]]]]|]; auto; discriminate|].
          apply (proj1 B); eauto.
        * intros F. destruct (proj2 B) as (r & R); [intros; apply F; now right|]. rewrite R.
          specialize (F t (or_introl eq_refl)). destruct t as [y|[|a [|b [|c [|]]]]|]; try tauto; cbn; eauto. }
  destruct (H l 0) as (A & B). split.
  - intros c E. destruct (table_scales al 0 l) as [s|]; cbn in E; [|discriminate]. injection E as <-. cbn [c_scales]. apply A. reflexivity.
  - rewrite <- B. split.
    + intros (c & E). destruct (table_scales al 0 l); [eauto|discriminate].
    + intros (s & ->). cbn. eauto.
Qed.

(** make_rational: the coefficients denote x -> offset + factor * x, over the given limits. *)
Theorem C18_rational : forall factor offset lo up def lt ut p q,
  meaning factor = Fin p -> meaning offset = Fin q ->
  exists num den s,
    make_rational factor offset lo up def lt ut = mkComp [s] def /\
    sc_content s = Some (CRational (Some num) (Some den)) /\
    sc_lower s = lo /\ sc_upper s = up /\ sc_lower_type s = lt /\ sc_upper_type s = ut /\
    exists qn qd, Forall2 (fun n x => meaning n = Fin x) num qn /\ Forall2 (fun n x => meaning n = Fin x) den qd /\
      forall x, (~ poly qd x == 0)%Q /\ (poly qn x / poly qd x == q + p * x)%Q.
Proof.
  intros factor offset lo up def lt ut p q P Q.
  assert (F : exists p', meaning (NFloat (to_float factor)) = Fin p' /\ (p' == p)%Q).
  { destruct factor as [z|f]; cbn [to_float].
    - destruct (canon_meaning (z <? 0) (Z.to_N (Z.abs z)) 0) as (p' & M & E). exists p'. split; auto. rewrite E.
      cbn in P. injection P as <-. exact (decimal_of_int_dq z).
    - exists p. split; auto. reflexivity. }
  destruct F as (p' & M & E).
  do 3 eexists. split; [reflexivity|]. do 5 (split; [reflexivity|]).
  exists [q; p'], [1%Q]. split; [repeat constructor; auto|]. split; [repeat constructor|].
  intros x. cbn [poly]. split.
  - intros C. ring_simplify in C. discriminate.
  - rewrite E. field.
Qed.

(** ** Non-vacuity *)
Example C15_case : python_float (FFin true 15 (-8)) /\ below_1e28 (NFloat (FFin true 15 (-8))) /\
  format_number (NFloat (FFin true 15 (-8))) = Ok "-1.5E-7" /\
  read_number "-1.5E-7" = Ok (NFloat (FFin true 15 (-8))) /\
  python_float (FFin false 1 30) /\ format_number (NFloat (FFin false 1 30)) = Err DecimalInvalidOperation.
Proof. vm_compute. repeat split; discriminate. Qed.
Example C16_case : notation 16 "1F" 31 /\ nv_new (AText "0x1F") FMT_DEFAULT = Ok (mkNum (NInt 31) FMT_HEXADECIMAL)
  /\ nv_new (AText "-0b11") FMT_DEFAULT = Ok (mkNum (NInt (-3)) FMT_DEFAULT)
  /\ format_numval (mkNum (NInt 31) FMT_HEXADECIMAL) = Ok "0x1f" /\ format_numval (mkNum (NInt (-31)) FMT_HEXADECIMAL) = Ok "0x-1f".
Proof.
  split; [|vm_compute; repeat split].
  change (notation 16 ("1" ++ "F")%string (1 * 16 + 15)). apply no_more; [apply no_one| |]; try reflexivity.
  - left. exists 1. repeat split; lia.
  - right. exists 15. split; [lia|]. split; [right|]; reflexivity.
Qed.
Example C17_case : check_value (mkLim (Some (NInt 0)) (Some (NFloat (FFin false 15 (-1)))) CLOSED OPEN) (NInt 1) = Ok true /\
  check_value (mkLim (Some (NInt 0)) (Some (NFloat (FFin false 15 (-1)))) CLOSED OPEN) (NFloat (FFin false 15 (-1))) = Ok false /\
  check_value (mkLim (Some (NInt 0)) (Some (NFloat (FInf false))) OPEN CLOSED) (NInt 7) = Ok true.
Proof. repeat split. Qed.
Example C18_case : exists c, make_value_table [TText "A"; TTuple [SNum (NInt 5); SNum (NInt 7); SText "B"]; TText "C"] None true = Ok c
  /\ map sc_lower (c_scales c) = [Some (SNum (NInt 0)); Some (SNum (NInt 5)); Some (SNum (NInt 2))].
Proof. eexists. split; reflexivity. Qed.

Print Assumptions C15_integers.
Print Assumptions C15_floats.
Print Assumptions C15_large_floats_refuted.
Print Assumptions C15_integers_as_floats.
Print Assumptions C15_booleans.
Print Assumptions C15_boolean_texts.
Print Assumptions C16_prefixed_literals.
Print Assumptions C16_decimal_literals.
Print Assumptions C16_format_round_trip.
Print Assumptions C16_decimal_round_trip.
Print Assumptions C16_negative_refuted.
Print Assumptions C16_scientific_partial.
Print Assumptions C16_scientific_refuted.
Print Assumptions C16_positive.
Print Assumptions C17_interval.
Print Assumptions C17_nan_refuted.
Print Assumptions C17_missing_limit_refuted.
Print Assumptions C18_texts.
Print Assumptions C18_limits.
Print Assumptions C18_tuples.
Print Assumptions C18_rational.
