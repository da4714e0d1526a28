(** Proofs about literals, comparisons and limits. *)
From Coq Require Import QArith Qpower Qfield Lqa.
From Verif Require Import Base PBase MNames PNames MNum SNum PNum PNum2.
Open Scope Z_scope.

(** ** Positional notation *)
Fixpoint alldb (b : N) (s : string) : bool :=
  match s with
  | "" => true
  | String c r => match xdigit c with Some d => (d <? b)%N && alldb b r | None => false end
  end.
Fixpoint dval (b : N) (s : string) (acc : N) : N :=
  match s with
  | "" => acc
  | String c r => match xdigit c with Some d => dval b r (acc * b + d)%N | None => acc end
  end.

Lemma digit_is_xdigit c d : digit_is c d -> xdigit c = Some d /\ (d < 16)%N.
Proof.
  intros [(k & K & -> & -> & K0)|(k & K & C & ->)].
  - remember (Z.to_nat k) as n eqn:E. assert (k = Z.of_nat n) by lia. subst k.
    do 10 (destruct n as [|n]; [split; reflexivity|]). lia.
  - remember (Z.to_nat k) as n eqn:E. assert (k = Z.of_nat n) by lia. subst k.
    do 10 (destruct n as [|n]; [lia|]).
    do 6 (destruct n as [|n]; [destruct C as [->| ->]; split; reflexivity|]). lia.
Qed.

Lemma xchar_digit d : (d < 16)%N -> digit_is (xchar d) d.
Proof.
  intros L. unfold xchar, digit_is. destruct (d <? 10)%N eqn:E.
  - apply N.ltb_lt in E. left. exists (Z.of_N d). rewrite N2Z.id. split; [lia|]. split; [|lia].
    unfold ascii_of_nat. f_equal. lia.
  - apply N.ltb_ge in E. right. exists (Z.of_N d). rewrite N2Z.id. split; [lia|]. split; [|auto].
    left. unfold ascii_of_nat. f_equal. lia.
Qed.

Lemma alldb_snoc b s c : alldb b (s ++ String c "")%string = alldb b s && alldb b (String c "").
Proof. induction s as [|x s IH]; cbn [append alldb]; auto. destruct (xdigit x); auto. now rewrite IH, andb_assoc. Qed.

Lemma dval_snoc b s c d acc : alldb b s = true -> xdigit c = Some d ->
  dval b (s ++ String c "")%string acc = (dval b s acc * b + d)%N.
Proof.
  revert acc; induction s as [|x s IH]; cbn [append alldb dval]; intros acc A X; [now rewrite X|].
  destruct (xdigit x); [|discriminate]. apply andb_prop in A as [_ A]. auto.
Qed.

Lemma notation_spec b s n : notation b s n -> alldb b s = true /\ dval b s 0 = n /\ s <> "".
Proof.
  induction 1 as [c d D L|s n c d H (A & V & N) D L]; apply digit_is_xdigit in D as [X _].
  - cbn [alldb dval]. rewrite X. apply N.ltb_lt in L. rewrite L. split; auto. split; [lia|discriminate].
  - rewrite alldb_snoc, A, (dval_snoc b s c d), V by auto. cbn [alldb]. rewrite X.
    apply N.ltb_lt in L. rewrite L. split; auto. split; auto. destruct s; discriminate.
Qed.

Lemma xdigit_cases c d : xdigit c = Some d -> is_ws c = false /\ c <> "_"%char /\ c <> "-"%char /\ c <> "+"%char /\ c <> "."%char.
Proof.
  unfold xdigit, is_ws, nat_of_ascii. cbv zeta. intros H.
  assert (R : (48 <= N_of_ascii c <= 57 \/ 97 <= N_of_ascii c <= 102 \/ 65 <= N_of_ascii c <= 70)%N).
  { destruct ((48 <=? N_of_ascii c)%N && (N_of_ascii c <=? 57)%N) eqn:E1.
    { apply andb_prop in E1 as [A B]. apply N.leb_le in A, B. auto. }
    destruct ((97 <=? N_of_ascii c)%N && (N_of_ascii c <=? 102)%N) eqn:E2.
    { apply andb_prop in E2 as [A B]. apply N.leb_le in A, B. auto. }
    destruct ((65 <=? N_of_ascii c)%N && (N_of_ascii c <=? 70)%N) eqn:E3; [|discriminate].
    apply andb_prop in E3 as [A B]. apply N.leb_le in A, B. auto. }
  split; [|repeat split; intros ->; cbn in R; lia].
  repeat (rewrite ?orb_false_iff, ?andb_false_iff, ?Nat.eqb_neq, ?Nat.leb_gt). lia.
Qed.

Lemma digits_in_dval b s af acc : alldb b s = true -> s <> "" -> digits_in b s af acc = Some (dval b s acc).
Proof.
  revert af acc; induction s as [|c s IH]; intros af acc A N; [congruence|]. cbn [alldb digits_in dval] in *.
  destruct (xdigit c) as [d|] eqn:X; [|discriminate]. apply andb_prop in A as [L A]. rewrite L.
  destruct (xdigit_cases c d X) as (_ & U & _). apply Ascii.eqb_neq in U. rewrite U.
  destruct s as [|c' s]; [reflexivity|]. apply IH; auto. discriminate.
Qed.

Lemma alldb_nows b s : alldb b s = true -> nows s = true.
Proof.
  induction s as [|c s IH]; cbn; auto. destruct (xdigit c) eqn:X; [|discriminate].
  destruct (xdigit_cases _ _ X) as (W & _). rewrite W. intros A. apply andb_prop in A as [_ A]. auto.
Qed.

Lemma skip_under_digits b s : alldb b s = true -> skip_under s = s.
Proof.
  destruct s as [|c s]; cbn; auto. destruct (xdigit c) eqn:X; [|discriminate].
  destruct (xdigit_cases _ _ X) as (_ & U & _). apply Ascii.eqb_neq in U. now rewrite U.
Qed.

(** A prefixed literal. *)
Lemma int0_prefix (neg : bool) x b s n :
  ((x = "x"%char \/ x = "X"%char) /\ b = 16%N) \/ ((x = "o"%char \/ x = "O"%char) /\ b = 8%N)
    \/ ((x = "b"%char \/ x = "B"%char) /\ b = 2%N) ->
  notation b s n -> int0 ((if neg then "-" else "") ++ String "0" (String x s))%string = Some (signed neg n).
Proof.
  intros P H. apply notation_spec in H as (A & V & N). unfold int0.
  rewrite strip_nows.
  2:{ rewrite nows_sign. cbn [nows]. rewrite (alldb_nows b s A).
      destruct P as [[[-> | ->] _]|[[[-> | ->] _]|[[-> | ->] _]]]; reflexivity. }
  assert (T : take_sign ((if neg then "-" else "") ++ String "0" (String x s))%string = (neg, String "0" (String x s))).
  { now destruct neg. }
  rewrite T.
  destruct P as [[[-> | ->] ->]|[[[-> | ->] ->]|[[-> | ->] ->]]]; cbn; rewrite (skip_under_digits _ _ A), digits_in_dval by auto; now rewrite V.
Qed.

Lemma int0_dec (neg : bool) n : int0 ((if neg then "-" else "") ++ dec n)%string = Some (signed neg n).
Proof.
  unfold int0.
  rewrite strip_nows by (rewrite nows_sign; apply alld_nows, alld_dec).
  assert (T : take_sign ((if neg then "-" else "") ++ dec n)%string = (neg, dec n)).
  { destruct neg; [reflexivity|]. pose proof (take_sign_dec n "") as T. now rewrite str_app_nil_r in T. }
  rewrite T.
  assert (D : digits_in 10 (dec n) false 0 = Some n).
  { rewrite digits_in_all by (apply alld_dec || apply dec_ne). now rewrite digits_prefix_dec. }
  destruct (dec n) as [|c r] eqn:E; [now apply dec_ne in E|].
  assert (Z : c = "0"%char -> r = "") by (intros ->; apply dec_zero_head in E as [_ ?]; auto).
  destruct r as [|x r].
  - destruct c as [[] [] [] [] [] [] [] []]; rewrite D; reflexivity.
  - assert (c <> "0"%char) by (intros ->; specialize (Z eq_refl); discriminate).
    destruct c as [[] [] [] [] [] [] [] []]; try congruence; rewrite D; reflexivity.
Qed.

Lemma int0_zstr z : int0 (zstr z) = Some z.
Proof. destruct (zstr_signed z) as (neg & -> & S). now rewrite int0_dec, S. Qed.

Lemma base_digits_spec b f n tail :
  (2 <= b <= 16)%N -> (n < b ^ N.of_nat f)%N -> f <> O ->
  exists s, base_digits f b n tail = (s ++ tail)%string /\ notation b s n.
Proof.
  intros B. revert n tail; induction f as [|f IH]; intros n tail L F; [congruence|].
  cbn [base_digits]. assert (M : (n mod b < b)%N) by (apply N.mod_lt; lia).
  assert (D : digit_is (xchar (n mod b)) (n mod b)) by (apply xchar_digit; lia).
  destruct (n / b =? 0)%N eqn:E.
  - apply N.eqb_eq in E. exists (String (xchar (n mod b)) ""). split; [reflexivity|].
    assert (n = n mod b)%N by (rewrite (N.div_mod n b) at 1 by lia; rewrite E; lia).
    rewrite H at 2. now apply no_one.
  - apply N.eqb_neq in E. rewrite Nat2N.inj_succ, N.pow_succ_r' in L.
    assert (n / b < b ^ N.of_nat f)%N by (apply N.div_lt_upper_bound; [lia|exact L]).
    destruct f as [|f]; [exfalso; change (N.of_nat 0) with 0%N in H; rewrite N.pow_0_r in H; apply E; apply N.lt_1_r; exact H|].
    destruct (IH (n / b)%N (String (xchar (n mod b)) tail) H ltac:(discriminate)) as (s & Es & Hs).
    exists (s ++ String (xchar (n mod b)) "")%string. split.
    + rewrite Es, str_app_assoc. reflexivity.
    + assert (DM : n = (n / b * b + n mod b)%N) by (rewrite N.mul_comm; apply N.div_mod; lia).
      rewrite DM at 2. now apply no_more.
Qed.

Lemma base_str_spec b z : (2 <= b <= 16)%N -> 0 <= z -> notation b (base_str b z) (Z.to_N z).
Proof.
  intros B Z0. unfold base_str. replace (z <? 0) with false by (symmetry; now apply Z.ltb_ge).
  rewrite Z.abs_eq by auto. set (n := Z.to_N z). cbn [append].
  destruct (base_digits_spec b (S (N.to_nat (N.log2 n))) n "" B) as (s & -> & H); [|discriminate|now rewrite str_app_nil_r].
  rewrite Nat2N.inj_succ, N2Nat.id. destruct (N.eq_dec n 0) as [->|NZ].
  - apply N.neq_0_lt_0, N.pow_nonzero. lia.
  - eapply N.lt_le_trans; [apply N.log2_spec; lia|]. apply N.pow_le_mono_l. lia.
Qed.

(** ** Comparisons *)
Lemma cmp_parts_Q m1 e1 m2 e2 :
  cmp_parts (m1, e1) (m2, e2) = Qcompare (inject_Z m1 * (10 # 1) ^ e1) (inject_Z m2 * (10 # 1) ^ e2).
Proof.
  unfold cmp_parts. set (k := Z.min e1 e2).
  assert (A : forall m e, k <= e -> (inject_Z m * (10 # 1) ^ e == inject_Z (m * 10 ^ (e - k)) * (10 # 1) ^ k)%Q).
  { intros m e L. rewrite inject_Z_mult, <- qpow10, <- Qmult_assoc, <- Qpower_plus by (apply ten_nz || lia).
    now replace (e - k + k) with e by lia. }
  rewrite (A m1 e1), (A m2 e2) by lia.
  assert (P : (0 < (10 # 1) ^ k)%Q) by (apply Qpower_0_lt; reflexivity).
  generalize (m1 * 10 ^ (e1 - k)) (m2 * 10 ^ (e2 - k)); intros x y. symmetry.
  destruct (Z.compare x y) eqn:E.
  - apply Z.compare_eq in E. subst. apply Qeq_alt. reflexivity.
  - rewrite Z.compare_lt_iff in E. apply Qlt_alt. apply Qmult_lt_compat_r; auto. now rewrite <- Zlt_Qlt.
  - rewrite Z.compare_gt_iff in E. apply Qgt_alt. apply Qmult_lt_compat_r; auto. now rewrite <- Zlt_Qlt.
Qed.

Lemma num_cmp_spec a b :
  match num_cmp a b with
  | Some Lt => ext_lt (meaning a) (meaning b)
  | Some Eq => ext_le (meaning a) (meaning b) /\ ext_le (meaning b) (meaning a)
  | Some Gt => ext_lt (meaning b) (meaning a)
  | None => meaning a = NotANumber \/ meaning b = NotANumber
  end.
Proof.
  assert (F : forall m1 e1 m2 e2 p q, (p == inject_Z m1 * (10 # 1) ^ e1)%Q -> (q == inject_Z m2 * (10 # 1) ^ e2)%Q ->
     match cmp_parts (m1, e1) (m2, e2) with
     | Lt => (p < q)%Q | Eq => (p <= q)%Q /\ (q <= p)%Q | Gt => (q < p)%Q end).
  { intros m1 e1 m2 e2 p q P Q. rewrite cmp_parts_Q. destruct (Qcompare _ _) eqn:E.
    - apply Qeq_alt in E. rewrite P, Q, E. split; apply Qle_refl.
    - apply Qlt_alt in E. now rewrite P, Q.
    - apply Qgt_alt in E. now rewrite P, Q. }
  destruct a as [za|[na| |na ca ea]], b as [zb|[nb| |nb cb eb]]; cbn [num_cmp finite_parts meaning];
    try (destruct na); try (destruct nb); cbn [Bool.eqb ext_lt ext_le]; auto;
  match goal with |- context [cmp_parts (?m1, ?e1) (?m2, ?e2)] =>
    match goal with
    | |- context [Fin ?p] => idtac
    | |- context [(?p < ?q)%Q] => apply (F m1 e1 m2 e2 p q)
    end
  end; unfold qv, signed; cbn [Qpower]; try ring; try reflexivity.
Qed.

Lemma ext_lt_le a b : ext_lt a b -> ext_le a b /\ ~ ext_le b a.
Proof.
  destruct a, b; cbn; try tauto. intros H. split; [now apply Qlt_le_weak|]. intros C. apply Qle_not_lt in C. tauto.
Qed.

Lemma num_lt_spec a b : num_lt a b = true <-> ext_lt (meaning a) (meaning b).
Proof.
  unfold num_lt. pose proof (num_cmp_spec a b) as H. destruct (num_cmp a b) as [[]|]; split; try discriminate; auto.
  - intros L. apply ext_lt_le in L as [_ L]. tauto.
  - intros L. apply ext_lt_le in L as [L _]. apply ext_lt_le in H as [_ H]. tauto.
  - destruct H as [-> | ->]; [|destruct (meaning a)]; cbn; tauto.
Qed.

Lemma num_le_spec a b : num_le a b = true <-> ext_le (meaning a) (meaning b).
Proof.
  unfold num_le. pose proof (num_cmp_spec a b) as H. destruct (num_cmp a b) as [[]|]; split; try discriminate; auto.
  - intros _. tauto.
  - intros _. now apply ext_lt_le.
  - intros L. apply ext_lt_le in H as [_ H]. tauto.
  - destruct H as [-> | ->]; [|destruct (meaning a)]; cbn; tauto.
Qed.
