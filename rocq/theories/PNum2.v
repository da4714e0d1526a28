(** Proofs about the values of numbers. *)
From Coq Require Import QArith Qpower Qfield Lqa.
From Verif Require Import Base PBase MNames PNames MNum SNum PNum.
Open Scope Z_scope.

Lemma ten_nz : ~ (10 # 1 == 0)%Q.
Proof. discriminate. Qed.

Lemma qpow10 k : 0 <= k -> ((10 # 1) ^ k == inject_Z (10 ^ k))%Q.
Proof. intros K. change (10 # 1)%Q with (inject_Z 10). now rewrite Zpower_Qpower. Qed.

Lemma qv_shift neg c k e : 0 <= k -> (qv neg (c * 10 ^ Z.to_N k) e == qv neg c (e + k))%Q.
Proof.
  intros K. unfold qv. rewrite Qpower_plus by apply ten_nz. rewrite (qpow10 k K).
  rewrite N2Z.inj_mul, N2Z.inj_pow, Z2N.id by lia. change (Z.of_N 10) with 10.
  destruct neg.
  - replace (- (Z.of_N c * 10 ^ k)) with (- Z.of_N c * 10 ^ k) by ring. rewrite inject_Z_mult. ring.
  - rewrite inject_Z_mult. ring.
Qed.

Lemma strip_zeros_qv neg f c e c' e' : strip_zeros f c e = (c', e') -> (qv neg c' e' == qv neg c e)%Q.
Proof.
  revert c e; induction f as [|f IH]; cbn [strip_zeros]; intros c e E.
  - injection E as <- <-. reflexivity.
  - destruct (N.eqb (c mod 10) 0) eqn:M; [|injection E as <- <-; reflexivity].
    rewrite (IH _ _ E). apply N.eqb_eq in M.
    rewrite <- (qv_shift neg (c / 10) 1 e) by lia. change (10 ^ Z.to_N 1)%N with 10%N.
    replace (c / 10 * 10)%N with c; [reflexivity|]. rewrite (N.div_mod' c 10) at 1. lia.
Qed.

Lemma qv_zero neg e : (qv neg 0 e == 0)%Q.
Proof. unfold qv. destruct neg; cbn; ring. Qed.

Lemma canon_meaning neg c e : exists q, meaning (NFloat (canon neg c e)) = Fin q /\ (q == qv neg c e)%Q.
Proof.
  unfold canon. destruct (N.eqb c 0) eqn:Z.
  - apply N.eqb_eq in Z. subst. eexists; split; [reflexivity|]. now rewrite !qv_zero.
  - destruct (strip_zeros (String.length (dec c)) c e) as [c' e'] eqn:S. eexists; split; [reflexivity|].
    now apply (strip_zeros_qv neg) in S.
Qed.

Lemma signed_qv neg c : (inject_Z (signed neg c) == qv neg c 0)%Q.
Proof. unfold qv, signed. destruct neg; cbn [Qpower]; ring. Qed.

Definition dq (d : decimal) : Q := qv (d_neg d) (d_coef d) (d_exp d).

Lemma read_dec_str d : exists n q, read_number (dec_str d) = Ok n /\ meaning n = Fin q /\ (q == dq d)%Q.
Proof.
  rewrite dec_str_read. unfold dq. destruct (d_exp d =? 0) eqn:E.
  - apply Z.eqb_eq in E. rewrite E. do 2 eexists. split; [reflexivity|]. split; [reflexivity|]. apply signed_qv.
  - destruct (canon_meaning (d_neg d) (d_coef d) (d_exp d)) as (q & M & Q). eauto.
Qed.

Lemma quantize_dq d q : is_integral d = true -> quantize1 d = Ok q -> (dq q == dq d)%Q.
Proof.
  unfold is_integral, quantize1, dq. destruct (0 <=? d_exp d) eqn:E.
  - intros _. destruct (precision <? _); [discriminate|]. intros [= <-]. cbn [d_neg d_coef d_exp].
    apply Z.leb_le in E. now rewrite qv_shift by auto.
  - cbn [orb]. intros M. destruct (precision <? _); [discriminate|]. intros [= <-]. cbn [d_neg d_coef d_exp].
    apply Z.leb_gt in E. apply N.eqb_eq in M. set (p := (10 ^ Z.to_N (- d_exp d))%N) in *.
    assert (P : p <> 0%N) by (apply N.pow_nonzero; lia).
    assert (C : d_coef d = (d_coef d / p * p)%N) by (rewrite (N.div_mod (d_coef d) p P) at 1; lia).
    rewrite C at 2. unfold p at 3. rewrite qv_shift by lia. replace (d_exp d + - d_exp d) with 0 by lia. reflexivity.
Qed.

Lemma normalize_dq d : (dq (normalize d) == dq d)%Q.
Proof.
  unfold normalize, dq. destruct (N.eqb (d_coef d) 0) eqn:E; cbn [d_neg d_coef d_exp].
  - apply N.eqb_eq in E. now rewrite E, !qv_zero.
  - destruct (strip_zeros (String.length (dec (d_coef d))) (d_coef d) (d_exp d)) as [c e] eqn:S. cbn [d_neg d_coef d_exp].
    now apply (strip_zeros_qv (d_neg d)) in S.
Qed.

Lemma format_decimal_read d t : format_decimal d = Ok t ->
  exists n q, read_number t = Ok n /\ meaning n = Fin q /\ (q == dq d)%Q.
Proof.
  unfold format_decimal. destruct (is_integral d) eqn:I.
  - destruct (quantize1 d) as [q|] eqn:Qz; [|discriminate]. cbn [bind]. intros [= <-].
    destruct (read_dec_str q) as (n & v & R & M & E). exists n, v. split; auto. split; auto.
    rewrite E. now apply quantize_dq.
  - intros [= <-]. destruct (read_dec_str (normalize d)) as (n & v & R & M & E). exists n, v. split; auto. split; auto.
    rewrite E. apply normalize_dq.
Qed.

Lemma decimal_of_float_dq neg c e : (dq (decimal_of_float neg c e) == qv neg c e)%Q.
Proof.
  unfold decimal_of_float, dq. cbv zeta. destruct (_ && _ && _) eqn:B; cbn [d_neg d_coef d_exp]; [|reflexivity].
  apply andb_prop in B as [_ B]. apply Z.leb_le in B. rewrite qv_shift by lia. now replace (-1 + (e + 1)) with e by lia.
Qed.

Lemma decimal_of_int_dq z : (dq (decimal_of_int z) == inject_Z z)%Q.
Proof.
  unfold decimal_of_int, dq. cbn [d_neg d_coef d_exp]. rewrite <- signed_qv. unfold signed.
  rewrite Z2N.id by lia. destruct (z <? 0) eqn:E.
  - apply Z.ltb_lt in E. rewrite Z.abs_neq by lia. now rewrite Z.opp_involutive.
  - apply Z.ltb_ge in E. now rewrite Z.abs_eq by lia.
Qed.

(** Magnitude of a value. *)
Definition big : Q := inject_Z (10 ^ 28).

Lemma quantize_int_iff neg c :
  (exists q, quantize1 (mkDec neg c 0) = Ok q) <-> (c < 10 ^ 28)%N.
Proof.
  unfold quantize1. cbn [d_exp d_coef d_neg]. change (0 <=? 0) with true. cbv iota.
  change (10 ^ Z.to_N 0)%N with 1%N. rewrite N.mul_1_r.
  pose proof (ndig_le c precision ltac:(unfold precision; lia)) as L. change (10 ^ Z.to_N precision)%N with (10 ^ 28)%N in L.
  destruct (precision <? ndig c) eqn:E.
  - apply Z.ltb_lt in E. split; [intros [q C]; discriminate|]. intros C. apply L in C. lia.
  - apply Z.ltb_ge in E. split; [|eauto]. intros _. now apply L.
Qed.

(** [d] integral: the quantized coefficient. *)
Lemma quantize_cases d : is_integral d = true ->
  exists c, (dq d == qv (d_neg d) c 0)%Q /\
    quantize1 d = if (c <? 10 ^ 28)%N then Ok (mkDec (d_neg d) c 0) else Err DecimalInvalidOperation.
Proof.
  intros I. set (c := if 0 <=? d_exp d then (d_coef d * 10 ^ Z.to_N (d_exp d))%N
           else (d_coef d / 10 ^ Z.to_N (- d_exp d))%N).
  assert (Q : quantize1 d = if (c <? 10 ^ 28)%N then Ok (mkDec (d_neg d) c 0) else Err DecimalInvalidOperation).
  { unfold quantize1. fold c. cbv zeta.
    pose proof (ndig_le c precision ltac:(unfold precision; lia)) as L. change (10 ^ Z.to_N precision)%N with (10 ^ 28)%N in L.
    destruct (precision <? ndig c) eqn:E; destruct (c <? 10 ^ 28)%N eqn:F; auto; exfalso.
    - apply Z.ltb_lt in E. apply N.ltb_lt in F. apply L in F. lia.
    - apply Z.ltb_ge in E. apply N.ltb_ge in F. apply L in E. lia. }
  exists c. split; auto.
  unfold dq, c, is_integral in *. destruct (0 <=? d_exp d) eqn:E.
  - apply Z.leb_le in E. rewrite qv_shift by auto. reflexivity.
  - cbn [orb] in I. apply Z.leb_gt in E. apply N.eqb_eq in I. set (p := (10 ^ Z.to_N (- d_exp d))%N) in *.
    assert (P : p <> 0%N) by (apply N.pow_nonzero; lia).
    assert (C : d_coef d = (d_coef d / p * p)%N) by (rewrite (N.div_mod (d_coef d) p P) at 1; lia).
    rewrite C at 1. unfold p at 2. rewrite qv_shift by lia. replace (d_exp d + - d_exp d) with 0 by lia. reflexivity.
Qed.

Lemma qv_small neg c : (- big < qv neg c 0 /\ qv neg c 0 < big)%Q <-> (c < 10 ^ 28)%N.
Proof.
  rewrite <- signed_qv. unfold big. rewrite <- inject_Z_opp, <- !Zlt_Qlt. unfold signed.
  destruct neg; lia.
Qed.

(** [d] with few digits and a large value is integral. *)
Lemma small_or_integral d : (d_coef d < 10 ^ 28)%N -> is_integral d = false -> (- big < dq d /\ dq d < big)%Q.
Proof.
  intros C I. unfold is_integral in I. apply orb_false_iff in I as [E _]. apply Z.leb_gt in E.
  apply (qv_small (d_neg d)) in C.
  assert (P : (qv (d_neg d) (d_coef d) 0 == dq d * (10 # 1) ^ (- d_exp d))%Q).
  { unfold dq, qv. rewrite <- Qmult_assoc, <- Qpower_plus by apply ten_nz. replace (d_exp d + - d_exp d) with 0 by lia. reflexivity. }
  rewrite P in C. rewrite qpow10 in C by lia.
  assert (K : (1 <= inject_Z (10 ^ (- d_exp d)))%Q).
  { change 1%Q with (inject_Z 1). rewrite <- Zle_Qle. pose proof (Z.pow_pos_nonneg 10 (- d_exp d)). lia. }
  assert (0 < big)%Q by (unfold big; change 0%Q with (inject_Z 0); rewrite <- Zlt_Qlt; reflexivity).
  set (k := inject_Z _) in *. set (v := dq d) in *. clearbody k v. nra.
Qed.

Lemma format_decimal_ok d : (- big < dq d /\ dq d < big)%Q -> exists t, format_decimal d = Ok t.
Proof.
  intros B. unfold format_decimal. destruct (is_integral d) eqn:I; [|eauto].
  destruct (quantize_cases d I) as (c & Q & E). rewrite Q in B. apply qv_small in B.
  apply N.ltb_lt in B. rewrite B in E. rewrite E. cbn [bind]. eauto.
Qed.

Lemma format_decimal_err d : is_integral d = true \/ (d_coef d < 10 ^ 28)%N -> ~ (- big < dq d /\ dq d < big)%Q ->
  format_decimal d = Err DecimalInvalidOperation.
Proof.
  intros C B. unfold format_decimal. destruct (is_integral d) eqn:I.
  - destruct (quantize_cases d I) as (c' & Q & E). rewrite Q in B. rewrite qv_small in B.
    apply N.ltb_nlt in B. rewrite B in E. rewrite E. reflexivity.
  - exfalso. apply B. destruct C; [congruence|]. now apply small_or_integral.
Qed.
