(** Proofs about numbers. *)
From Coq Require Import QArith Qabs DecimalString DecimalN.
From Verif Require Import Base PBase MNames PNames MNum SNum.
Open Scope Z_scope.

(** ** Digit strings *)
Fixpoint alld (s : string) : bool :=
  match s with "" => true | String c r => match digit_val c with Some _ => alld r | None => false end end.

Lemma alld_app a b : alld (a ++ b)%string = alld a && alld b.
Proof. induction a as [|c a IH]; cbn; auto. destruct (digit_val c); auto. Qed.

Lemma alld_uint u : alld (NilEmpty.string_of_uint u) = true.
Proof. induction u; cbn; auto. Qed.

Lemma alld_dec n : alld (dec n) = true.
Proof. unfold dec, NilZero.string_of_uint. destruct (N.to_uint n); try reflexivity; apply (alld_uint). Qed.

Lemma alld_zeros n : alld (zeros n) = true.
Proof. induction n; cbn; auto. Qed.

Lemma alld_take n s : alld s = true -> alld (str_take n s) = true.
Proof.
  revert s; induction n as [|n IH]; intros [|c s] H; cbn in *; auto.
  destruct (digit_val c); [auto|discriminate].
Qed.

Lemma alld_drop n s : alld s = true -> alld (str_drop n s) = true.
Proof.
  revert s; induction n as [|n IH]; intros [|c s] H; cbn in *; auto.
  destruct (digit_val c); [auto|discriminate].
Qed.

Lemma take_drop n s : (str_take n s ++ str_drop n s)%string = s.
Proof. revert s; induction n as [|n IH]; intros [|c s]; cbn; auto. now rewrite IH. Qed.

Lemma drop_len n s : String.length (str_drop n s) = (String.length s - n)%nat.
Proof. revert s; induction n as [|n IH]; intros [|c s]; cbn; auto. Qed.

Lemma zeros_len n : String.length (zeros n) = n.
Proof. induction n; cbn; auto. Qed.

Lemma digits_prefix_app a b acc :
  alld a = true -> digits_prefix (a ++ b)%string acc = digits_prefix b (digits_prefix a acc).
Proof.
  revert acc; induction a as [|c a IH]; cbn; intros acc H; auto. destruct (digit_val c); [auto|discriminate].
Qed.

Lemma digits_prefix_zeros n : digits_prefix (zeros n) 0 = 0%N.
Proof. induction n; cbn; auto. Qed.

Lemma take_digits_app a r acc cnt :
  alld a = true ->
  take_digits (a ++ r)%string acc cnt = take_digits r (digits_prefix a acc) (cnt + String.length a).
Proof.
  revert acc cnt; induction a as [|c a IH]; cbn; intros acc cnt H; [now rewrite Nat.add_0_r|].
  destruct (digit_val c) as [d|]; [|discriminate]. rewrite IH by auto. rewrite (N.mul_comm acc 10). now rewrite Nat.add_succ_comm.
Qed.

Lemma take_digits_all a acc cnt :
  alld a = true -> take_digits a acc cnt = (digits_prefix a acc, (cnt + String.length a)%nat, "").
Proof. intros H. rewrite <- (str_app_nil_r a) at 1. now rewrite take_digits_app. Qed.

Lemma digit_xdigit c d : digit_val c = Some d -> xdigit c = Some d /\ (d < 10)%N /\ c <> "_"%char.
Proof.
  unfold digit_val, xdigit. cbv zeta. destruct ((48 <=? N_of_ascii c)%N && (N_of_ascii c <=? 57)%N) eqn:E; [|discriminate].
  intros [= <-]. apply andb_prop in E as [A B]. apply N.leb_le in A, B. split; [reflexivity|]. split; [lia|].
  intros ->. cbn in B. lia.
Qed.

Lemma digits_in_all s b acc :
  alld s = true -> s <> "" -> digits_in 10 s b acc = Some (digits_prefix s acc).
Proof.
  revert b acc; induction s as [|c s IH]; intros b acc H N; [congruence|]. cbn in H |- *.
  destruct (digit_val c) as [d|] eqn:E; [|discriminate]. destruct (digit_xdigit c d E) as (X & L & U).
  rewrite X. replace (Ascii.eqb c "_") with false by (symmetry; now apply Ascii.eqb_neq).
  rewrite (proj2 (N.ltb_lt d 10) L). destruct s as [|c' s].
  - rewrite (N.mul_comm acc 10). reflexivity.
  - rewrite IH by (auto; discriminate). now rewrite (N.mul_comm acc 10).
Qed.

(** ** Length of decimals *)
Lemma dec_ne n : dec n <> "".
Proof. destruct (dec_head n) as (c & r & d & -> & _). discriminate. Qed.

Lemma digits_prefix_upper s acc :
  (digits_prefix s acc < (acc + 1) * 10 ^ N.of_nat (String.length s))%N.
Proof.
  revert acc; induction s as [|c s IH]; intros acc; cbn -[N.of_nat N.pow N.mul N.add]; [rewrite N.pow_0_r; lia|].
  destruct (digit_val c) as [d|] eqn:E.
  - apply digit_xdigit in E as (_ & L & _). rewrite Nat2N.inj_succ, N.pow_succ_r'.
    eapply N.lt_le_trans; [apply IH|]. rewrite N.mul_assoc. apply N.mul_le_mono_r. lia.
  - rewrite Nat2N.inj_succ, N.pow_succ_r'. assert (10 ^ N.of_nat (String.length s) <> 0)%N by (apply N.pow_nonzero; lia). nia.
Qed.

Lemma digits_prefix_lower s acc :
  alld s = true -> (acc * 10 ^ N.of_nat (String.length s) <= digits_prefix s acc)%N.
Proof.
  revert acc; induction s as [|c s IH]; intros acc H; cbn -[N.of_nat N.pow N.mul N.add] in *; [rewrite N.pow_0_r; lia|].
  destruct (digit_val c) as [d|] eqn:E; [|discriminate].
  rewrite Nat2N.inj_succ, N.pow_succ_r'. etransitivity; [|apply IH; auto].
  rewrite N.mul_assoc. apply N.mul_le_mono_r. lia.
Qed.

Lemma to_uint_norm n : Decimal.unorm (N.to_uint n) = N.to_uint n.
Proof.
  rewrite <- (DecimalN.Unsigned.to_of (N.to_uint n)) at 1. now rewrite DecimalN.Unsigned.of_to.
Qed.

Lemma nzhead_not_D0 u v : Decimal.nzhead u <> Decimal.D0 v.
Proof. revert v; induction u; cbn; intros v; try discriminate. apply IHu. Qed.

(** A decimal numeral begins with 0 only for zero. *)
Lemma dec_zero_head n r : dec n = String "0"%char r -> n = 0%N /\ r = "".
Proof.
  unfold dec. pose proof (to_uint_norm n) as U. intros E.
  destruct (N.to_uint n) eqn:T; cbn in E; try discriminate.
  injection E as <-. unfold Decimal.unorm in U. cbn [Decimal.nzhead] in U.
  destruct (Decimal.nzhead u) eqn:Z; try discriminate; try (exfalso; eapply nzhead_not_D0; eauto; fail).
  injection U as <-. cbn. split; auto. rewrite <- (DecimalN.Unsigned.of_to n), T. reflexivity.
Qed.

Lemma dec_bounds n : n <> 0%N ->
  (10 ^ (N.of_nat (String.length (dec n)) - 1) <= n < 10 ^ N.of_nat (String.length (dec n)))%N.
Proof.
  intros NZ. split.
  - pose proof (alld_dec n) as A. pose proof (digits_prefix_dec n) as P.
    destruct (dec_head n) as (c & r & d & E & D). rewrite E in *. cbn in A. rewrite D in A.
    cbn [digits_prefix] in P. rewrite D in P. cbn [String.length]. 
    replace (N.of_nat (S (String.length r)) - 1)%N with (N.of_nat (String.length r)) by lia.
    rewrite <- P. etransitivity; [|apply digits_prefix_lower; auto].
    assert (d <> 0)%N.
    { intros ->. assert (c = "0"%char).
      { unfold digit_val in D. cbv zeta in D. destruct ((48 <=? N_of_ascii c)%N && (N_of_ascii c <=? 57)%N) eqn:Q; [|discriminate].
        apply andb_prop in Q as [Q _]. apply N.leb_le in Q. injection D as D.
        assert (N_of_ascii c = 48%N) by lia. rewrite <- (ascii_N_embedding c), H. reflexivity. }
      subst c. apply dec_zero_head in E as [? _]. congruence. }
    nia.
  - rewrite <- (digits_prefix_dec n) at 1. pose proof (digits_prefix_upper (dec n) 0). lia.
Qed.

Lemma dec_len_pos n : (0 < String.length (dec n))%nat.
Proof. destruct (dec_head n) as (c & r & d & -> & _). cbn. lia. Qed.

Lemma ndig_le n k : 1 <= k -> (ndig n <= k <-> (n < 10 ^ Z.to_N k)%N).
Proof.
  intros K. unfold ndig. destruct (N.eq_dec n 0) as [->|NZ].
  - cbn. split; intros; [|lia]. apply N.neq_0_lt_0, N.pow_nonzero; lia.
  - destruct (dec_bounds n NZ) as [L U]. pose proof (dec_len_pos n). split; intros H1.
    + eapply N.lt_le_trans; [exact U|]. apply N.pow_le_mono_r; lia.
    + apply Z.nlt_ge. intros C. assert (10 ^ Z.to_N k <= 10 ^ (N.of_nat (String.length (dec n)) - 1))%N.
      { apply N.pow_le_mono_r; lia. }
      lia.
Qed.

(** ** Spaces and signs *)
Fixpoint nows (s : string) : bool :=
  match s with "" => true | String c r => negb (is_ws c) && nows r end.

Lemma nows_app a b : nows (a ++ b)%string = nows a && nows b.
Proof. induction a; cbn; auto. now rewrite IHa, andb_assoc. Qed.

Lemma strip_nows s : nows s = true -> strip s = s.
Proof.
  intros H. unfold strip. assert (L : lstrip s = s).
  { destruct s as [|c r]; cbn in *; auto. apply andb_prop in H as [H _]. now destruct (is_ws c). }
  rewrite L. clear L. induction s as [|c r IH]; cbn in *; auto. apply andb_prop in H as [H1 H2].
  rewrite (IH H2). destruct r; auto. now destruct (is_ws c).
Qed.

Lemma digit_nows c d : digit_val c = Some d -> is_ws c = false.
Proof.
  unfold digit_val, is_ws. cbv zeta. unfold nat_of_ascii.
  destruct ((48 <=? N_of_ascii c)%N && (N_of_ascii c <=? 57)%N) eqn:E; [|discriminate]. intros _.
  apply andb_prop in E as [A B]. apply N.leb_le in A, B.
  repeat (rewrite ?orb_false_iff, ?andb_false_iff, ?Nat.eqb_neq, ?Nat.leb_gt). lia.
Qed.

Lemma alld_nows s : alld s = true -> nows s = true.
Proof.
  induction s as [|c s IH]; cbn; auto. destruct (digit_val c) eqn:E; [|discriminate]. intros H.
  rewrite (digit_nows _ _ E). auto.
Qed.

(** A digit is none of the other characters. *)
Lemma digit_range c d : digit_val c = Some d -> (48 <= N_of_ascii c <= 57)%N.
Proof.
  unfold digit_val. cbv zeta. destruct ((48 <=? N_of_ascii c)%N && (N_of_ascii c <=? 57)%N) eqn:E; [|discriminate].
  apply andb_prop in E as [A B]. apply N.leb_le in A, B. lia.
Qed.

Lemma digit_ne c d x : digit_val c = Some d -> digit_val x = None -> Ascii.eqb c x = false.
Proof. intros H X. apply Ascii.eqb_neq. intros ->. congruence. Qed.

Lemma digit_lower c d : digit_val c = Some d -> lower_char c = c.
Proof.
  intros H. apply digit_range in H. unfold lower_char. cbv zeta. unfold nat_of_ascii.
  destruct (Nat.leb 65 (N.to_nat (N_of_ascii c))) eqn:E; auto. apply Nat.leb_le in E. lia.
Qed.

Lemma take_sign_digit c r d : digit_val c = Some d -> take_sign (String c r) = (false, String c r).
Proof. intros H. cbn. now rewrite (digit_ne c d "-"%char H eq_refl), (digit_ne c d "+"%char H eq_refl). Qed.

Lemma take_sign_dec n r : take_sign (dec n ++ r)%string = (false, (dec n ++ r)%string).
Proof. destruct (dec_head n) as (c & s & d & -> & D). exact (take_sign_digit c (s ++ r)%string d D). Qed.

(** ** Integers *)
Lemma int10_dec (neg : bool) n : int10 ((if neg then "-" else "") ++ dec n)%string = Some (signed neg n).
Proof.
  unfold int10. rewrite strip_nows.
  2:{ rewrite nows_app, (alld_nows _ (alld_dec n)). now destruct neg. }
  assert (T : take_sign ((if neg then "-" else "") ++ dec n)%string = (neg, dec n)).
  { destruct neg; [reflexivity|]. pose proof (take_sign_dec n "") as T. now rewrite str_app_nil_r in T. }
  rewrite T, digits_in_all by (apply alld_dec || apply dec_ne). now rewrite digits_prefix_dec.
Qed.

Lemma zstr_signed z : exists neg : bool, zstr z = ((if neg then "-" else "") ++ dec (Z.to_N (Z.abs z)))%string /\
                                  signed neg (Z.to_N (Z.abs z)) = z.
Proof.
  unfold zstr. destruct (z <? 0) eqn:E.
  - exists true. apply Z.ltb_lt in E. rewrite Z.abs_neq by lia. split; auto. cbn. lia.
  - exists false. apply Z.ltb_ge in E. rewrite Z.abs_eq by lia. split; auto. cbn. lia.
Qed.

Lemma int10_zstr z : int10 (zstr z) = Some z.
Proof. destruct (zstr_signed z) as (neg & -> & S). now rewrite int10_dec, S. Qed.

(** ** Decimals *)
Lemma digits_in_alld b s af acc : digits_in b s af acc <> None ->
  forall c, mem_char c s = true -> c = "_"%char \/ exists d, xdigit c = Some d /\ (d < b)%N.
Proof.
  revert af acc; induction s as [|x s IH]; cbn; intros af acc H c M; [discriminate|].
  apply orb_prop in M. destruct (Ascii.eqb x "_") eqn:E.
  - apply Ascii.eqb_eq in E. subst. destruct af; [|congruence]. destruct M as [M|M].
    + apply Ascii.eqb_eq in M. auto.
    + eapply IH; eauto.
  - destruct (xdigit x) eqn:X; [|congruence]. destruct (n <? b)%N eqn:L; [|congruence]. destruct M as [M|M].
    + apply Ascii.eqb_eq in M. subst. right. exists n. apply N.ltb_lt in L. auto.
    + eapply IH; eauto.
Qed.

(** Exponent texts *)
Definition expo_str (x : Z) : string :=
  ("E" ++ (if (x <? 0)%Z then "-" ++ dec (Z.to_N (- x)%Z) else "+" ++ dec (Z.to_N x)))%string.
Definition ex_ok (ex : string) (x : Z) : Prop :=
  exponent ex = Some x /\ nows ex = true /\ (ex = "" \/ exists r, ex = String "E"%char r).

Lemma ex_nil : ex_ok "" 0.
Proof. repeat split; auto. Qed.

Lemma ex_str x : ex_ok (expo_str x) x.
Proof.
  unfold ex_ok, expo_str. destruct (x <? 0) eqn:E; cbn [append].
  - apply Z.ltb_lt in E. split; [|split].
    + cbn [exponent]. change (Ascii.eqb (lower_char "E") "e") with true. cbn [take_sign]. 
      change (Ascii.eqb "-" "-") with true. cbv iota.
      rewrite take_digits_all by apply alld_dec. rewrite digits_prefix_dec.
      pose proof (dec_len_pos (Z.to_N (- x))). destruct (String.length (dec (Z.to_N (- x)))); [lia|].
      cbn. f_equal. lia.
    + cbn. apply alld_nows, alld_dec.
    + right. eauto.
  - apply Z.ltb_ge in E. split; [|split].
    + cbn [exponent]. change (Ascii.eqb (lower_char "E") "e") with true. cbn [take_sign]. 
      change (Ascii.eqb "+" "-") with false. change (Ascii.eqb "+" "+") with true. cbv iota.
      rewrite take_digits_all by apply alld_dec. rewrite digits_prefix_dec.
      pose proof (dec_len_pos (Z.to_N x)). destruct (String.length (dec (Z.to_N x))); [lia|].
      cbn. f_equal. lia.
    + cbn. apply alld_nows, alld_dec.
    + right. eauto.
Qed.

Lemma lower_ne ip r w :
  alld ip = true -> ip <> "" -> (forall c s, w = String c s -> digit_val c = None) -> w <> "" ->
  String.eqb (lower (ip ++ r)%string) w = false.
Proof.
  intros A N D W. destruct ip as [|c ip]; [congruence|]. cbn in A |- *.
  destruct (digit_val c) as [d|] eqn:E; [|discriminate]. rewrite (digit_lower c d E).
  destruct w as [|x w]; [congruence|]. rewrite (digit_ne c d x E); auto. eapply D; eauto.
Qed.

Lemma take_sign_text (neg : bool) ip r :
  alld ip = true -> ip <> "" ->
  take_sign ((if neg then "-" else "") ++ ip ++ r)%string = (neg, (ip ++ r)%string).
Proof.
  intros A N. destruct neg; [reflexivity|]. destruct ip as [|c ip]; [congruence|]. cbn in A |- *.
  destruct (digit_val c) as [d|] eqn:E; [|discriminate]. exact (take_sign_digit c _ d E).
Qed.

Lemma nows_sign (neg : bool) s : nows ((if neg then "-" else "") ++ s)%string = nows s.
Proof. now destruct neg. Qed.

Lemma float_strip s f : nows s = true -> plain_float s = Some f -> float_of s = Some f.
Proof. intros W P. unfold float_of. cbv zeta. now rewrite strip_nows, P. Qed.

Lemma float_plain (neg : bool) ip ex x :
  alld ip = true -> ip <> "" -> ex_ok ex x ->
  float_of ((if neg then "-" else "") ++ ip ++ ex)%string = Some (canon neg (digits_prefix ip 0) x).
Proof.
  intros A N (X & W & F). apply float_strip; [rewrite nows_sign, nows_app, (alld_nows _ A); exact W|]. unfold plain_float.
  rewrite take_sign_text by auto.
  rewrite !lower_ne; auto; try discriminate; try (intros c s [= <- _]; reflexivity).
  cbn [orb]. rewrite take_digits_app by auto.
  assert (T : take_digits ex (digits_prefix ip 0) (0 + String.length ip) = (digits_prefix ip 0, String.length ip, ex)).
  { destruct F as [->|(r & ->)]; reflexivity. }
  rewrite T. destruct ip as [|c ip]; [congruence|]. cbn [String.length].
  destruct F as [->|(r & ->)].
  - cbn in X |- *. injection X as <-. reflexivity.
  - change (Nat.eqb (S (String.length ip) + 0) 0) with false. cbv iota. rewrite X. now rewrite Z.sub_0_r.
Qed.

Lemma float_frac (neg : bool) ip fp ex x :
  alld ip = true -> ip <> "" -> alld fp = true -> ex_ok ex x ->
  float_of ((if neg then "-" else "") ++ ip ++ "." ++ fp ++ ex)%string =
  Some (canon neg (digits_prefix fp (digits_prefix ip 0)) (x - Z.of_nat (String.length fp))).
Proof.
  intros A N B (X & W & F). apply float_strip.
  { rewrite nows_sign, nows_app, (alld_nows _ A). cbn. rewrite nows_app, (alld_nows _ B). exact W. }
  unfold plain_float. rewrite take_sign_text by auto.
  rewrite !lower_ne; auto; try discriminate; try (intros c s [= <- _]; reflexivity).
  cbn [orb]. rewrite take_digits_app by auto. cbn [append take_digits].
  change (digit_val ".") with (@None BinNums.N). cbv iota.
  rewrite take_digits_app by auto.
  assert (T : take_digits ex (digits_prefix fp (digits_prefix ip 0)) (0 + String.length fp)
              = (digits_prefix fp (digits_prefix ip 0), String.length fp, ex)).
  { destruct F as [->|(r & ->)]; reflexivity. }
  rewrite T. destruct ip as [|c ip]; [congruence|]. cbn [String.length Nat.add Nat.eqb]. now rewrite X.
Qed.

Lemma dec_str_float d : float_of (dec_str d) = Some (canon (d_neg d) (d_coef d) (d_exp d)).
Proof.
  destruct d as [neg c e]. unfold dec_str. cbn [d_neg d_coef d_exp]. cbv zeta.
  pose proof (dec_len_pos c) as LP. set (len := ndig c). assert (L : len = Z.of_nat (String.length (dec c))) by reflexivity.
  set (dp := if (e <=? 0) && (-6 <? e + len) then e + len else 1).
  set (ex := if e + len =? dp then "" else _).
  assert (X : ex_ok ex (e + len - dp)).
  { unfold ex. destruct (e + len =? dp) eqn:E.
    - apply Z.eqb_eq in E. rewrite E, Z.sub_diag. apply ex_nil.
    - apply ex_str. }
  clearbody ex. destruct (dp <=? 0) eqn:D0.
  - apply Z.leb_le in D0. change ("0." ++ zeros (Z.to_nat (- dp)) ++ dec c)%string with ("0" ++ "." ++ zeros (Z.to_nat (- dp)) ++ dec c)%string.
    rewrite !str_app_assoc, <- (str_app_assoc (zeros _) (dec c) ex).
    rewrite (float_frac neg "0" _ ex (e + len - dp)); auto; try discriminate.
    2:{ rewrite alld_app, alld_zeros. apply alld_dec. }
    rewrite digits_prefix_app by apply alld_zeros. cbn [digits_prefix]. change (digit_val "0") with (Some 0%N). cbv iota.
    change (10 * 0 + 0)%N with 0%N. rewrite digits_prefix_zeros, digits_prefix_dec, str_length_app, zeros_len.
    f_equal. f_equal. assert (dp = e + len) by (unfold dp in *; destruct ((e <=? 0) && (-6 <? e + len)); lia). lia.
  - apply Z.leb_gt in D0. destruct (len <=? dp) eqn:D1.
    + apply Z.leb_le in D1. assert (dp = len).
      { unfold dp in *. destruct ((e <=? 0) && (-6 <? e + len)) eqn:B; [|lia]. apply andb_prop in B as [B _]. lia. }
      rewrite H, Z.sub_diag. cbn [Z.to_nat zeros]. rewrite str_app_nil_r.
      rewrite (float_plain neg (dec c) ex (e + len - dp)); auto using alld_dec, dec_ne. rewrite digits_prefix_dec. f_equal. f_equal. lia.
    + apply Z.leb_gt in D1. rewrite !str_app_assoc.
      pose proof (take_drop (Z.to_nat dp) (dec c)) as TD. pose proof (alld_dec c) as AD.
      rewrite (float_frac neg _ _ ex (e + len - dp)); auto using alld_take, alld_drop.
      2:{ destruct (Z.to_nat dp) eqn:Q; [lia|]. destruct (dec_head c) as (y & r & v & -> & _). discriminate. }
      rewrite <- digits_prefix_app by (now apply alld_take). rewrite TD, digits_prefix_dec, drop_len. f_equal. f_equal. lia.
Qed.

Lemma int10_none_mem s c :
  nows s = true -> mem_char c (snd (take_sign s)) = true -> c <> "_"%char ->
  (forall d, xdigit c = Some d -> (10 <= d)%N) -> int10 s = None.
Proof.
  intros W M U X. unfold int10. rewrite strip_nows by auto. destruct (take_sign s) as [neg r]. cbn [snd] in M.
  destruct (digits_in 10 r false 0) eqn:E; [|reflexivity].
  destruct (digits_in_alld 10 r false 0 ltac:(congruence) c M) as [->|(d & D & L)]; [congruence|].
  specialize (X d D). lia.
Qed.

Lemma mem_text (neg : bool) ip r c :
  alld ip = true -> ip <> "" -> mem_char c r = true ->
  mem_char c (snd (take_sign ((if neg then "-" else "") ++ ip ++ r)%string)) = true.
Proof. intros A N M. rewrite take_sign_text by auto. cbn [snd]. rewrite mem_char_app, M. apply orb_true_r. Qed.

(** Reading the text of a decimal. *)
Lemma dec_str_read d :
  read_number (dec_str d) =
  Ok (if d_exp d =? 0 then NInt (signed (d_neg d) (d_coef d)) else NFloat (canon (d_neg d) (d_coef d) (d_exp d))).
Proof.
  unfold read_number. rewrite dec_str_float. destruct d as [neg c e]. cbn [d_neg d_coef d_exp].
  pose proof (dec_len_pos c) as LP. unfold dec_str. cbn [d_neg d_coef d_exp]. cbv zeta.
  set (len := ndig c). assert (L : len = Z.of_nat (String.length (dec c))) by reflexivity.
  destruct (e =? 0) eqn:E0.
  - apply Z.eqb_eq in E0. subst e. replace ((0 <=? 0) && (-6 <? 0 + len)) with true by (symmetry; apply Z.ltb_lt; lia).
    replace (0 + len) with len by lia. replace (len <=? 0) with false by (symmetry; apply Z.leb_gt; lia).
    rewrite Z.leb_refl, Z.sub_diag, Z.eqb_refl. cbn [Z.to_nat zeros]. rewrite !str_app_nil_r. now rewrite int10_dec.
  - apply Z.eqb_neq in E0.
    set (dp := if (e <=? 0) && (-6 <? e + len) then e + len else 1).
    set (ex := if e + len =? dp then "" else _).
    assert (X : ex_ok ex (e + len - dp)).
    { unfold ex. destruct (e + len =? dp) eqn:E.
      - apply Z.eqb_eq in E. rewrite E, Z.sub_diag. apply ex_nil.
      - apply ex_str. }
    destruct X as (_ & W & _).
    destruct (dp <=? 0) eqn:D0.
    + apply Z.leb_le in D0. change ("0." ++ zeros (Z.to_nat (- dp)) ++ dec c)%string with ("0" ++ "." ++ zeros (Z.to_nat (- dp)) ++ dec c)%string.
      rewrite !str_app_assoc, (int10_none_mem _ "."%char); auto; try discriminate.
      * rewrite nows_sign, !nows_app, W, (alld_nows _ (alld_zeros _)), (alld_nows _ (alld_dec c)). reflexivity.
      * apply mem_text; auto; discriminate.
    + apply Z.leb_gt in D0. destruct (len <=? dp) eqn:D1.
      * apply Z.leb_le in D1. 
        assert (dp = 1 /\ len = 1).
        { unfold dp in *. destruct ((e <=? 0) && (-6 <? e + len)) eqn:B; [|lia]. apply andb_prop in B as [B _]. lia. }
        destruct H as [-> ->]. rewrite Z.sub_diag. cbn [Z.to_nat zeros]. rewrite str_app_nil_r.
        assert (EX : ex = expo_str (e + 1 - 1)).
        { unfold ex. destruct (e + 1 =? 1) eqn:Q; [apply Z.eqb_eq in Q; lia|reflexivity]. }
        rewrite (int10_none_mem _ "E"%char); auto; try discriminate.
        -- rewrite nows_sign, nows_app, W, (alld_nows _ (alld_dec c)). reflexivity.
        -- apply mem_text; auto using alld_dec, dec_ne. rewrite EX. reflexivity.
        -- intros d [= <-]. lia.
      * apply Z.leb_gt in D1. rewrite !str_app_assoc.
        rewrite (int10_none_mem _ "."%char); auto; try discriminate.
        -- rewrite nows_sign, !nows_app, W. rewrite (alld_nows _ (alld_take _ _ (alld_dec c))), (alld_nows _ (alld_drop _ _ (alld_dec c))). reflexivity.
        -- apply mem_text; auto using alld_take, alld_dec.
           destruct (Z.to_nat dp) eqn:Q; [lia|]. destruct (dec_head c) as (y & r & v & -> & _). discriminate.
Qed.
