(** The building blocks of the element round trips. *)
From Verif Require Import Base PBase MNames MNum SNum PNum PNum2 PNum3 MXml SXml PXml PXml2 MEnum PEnum MRefTab MRef SEnum PRef MCodec SCodec.
From Coq Require Import QArith.
Open Scope Z_scope.
Open Scope list_scope.

(** ** Texts that need no escaping *)
Definition calm_char (c : ascii) : Prop := plain_char c /\ c <> "]"%char.
Definition calm (s : string) : Prop := all_chars calm_char s.
Lemma calm_app a b : calm (a ++ b)%string <-> calm a /\ calm b.
Proof. unfold calm. induction a as [|c a IH]; cbn; tauto. Qed.
Lemma calm_safe s : calm s -> safe_text s.
Proof.
  intros H. split.
  - induction s as [|c s IH]; cbn in *; auto. split; [apply H|apply IH, H].
  - induction s as [|c s IH]; cbn in *.
    + intros [(r & E)|[]]. discriminate.
    + intros [(r & E)|E]; [|now apply IH]. injection E as -> _. destruct H as [[_ H] _]. congruence.
Qed.
Definition calm_charb (c : ascii) : bool :=
  negb (Ascii.eqb c "<"%char) && negb (Ascii.eqb c "&"%char) && negb (Ascii.eqb c "]"%char) && Nat.leb 32 (nat_of_ascii c).
Fixpoint calmb (s : string) : bool := match s with "" => true | String c r => calm_charb c && calmb r end.
Lemma calmb_sound s : calmb s = true -> calm s.
Proof.
  unfold calm. induction s as [|c s IH]; cbn; auto. rewrite andb_true_iff. intros [H1 H2]. split; auto. unfold calm_charb in H1.
  rewrite !andb_true_iff, !negb_true_iff, !Ascii.eqb_neq, Nat.leb_le in H1. destruct H1 as (((? & ?) & ?) & ?). repeat split; auto.
Qed.
Lemma alld_calm s : alld s = true -> calm s.
Proof.
  unfold calm. induction s as [|c s IH]; cbn; auto. destruct (digit_val c) eqn:E; [|discriminate]. intros H. split; [|auto].
  apply digit_range in E. unfold calm_char, plain_char, nat_of_ascii. repeat split; try (intros ->; vm_compute in E; destruct E as [E1 E2]; now apply E1 || now apply E2). lia.
Qed.
Lemma zstr_calm z : calm (zstr z).
Proof. unfold zstr. destruct (z <? 0); [apply calm_app; split; [now apply calmb_sound|]|]; apply alld_calm, alld_dec. Qed.
Lemma dec_str_calm d : calm (dec_str d).
Proof.
  unfold dec_str. cbv zeta. rewrite !calm_app. split; [|split].
  - destruct (d_neg d); now apply calmb_sound.
  - destruct (_ <=? 0); [|destruct (_ <=? _)]; rewrite ?calm_app; repeat match goal with |- _ /\ _ => split end; try (now apply calmb_sound); apply alld_calm;
      auto using alld_dec, alld_zeros, alld_take, alld_drop.
  - destruct (_ =? _); [exact I|]. apply calm_app. split; [now apply calmb_sound|].
    destruct (_ <? 0); apply calm_app; split; try (now apply calmb_sound); apply alld_calm, alld_dec.
Qed.
Lemma zstr_ne z : zstr z <> "".
Proof. unfold zstr. destruct (z <? 0); [discriminate|apply dec_ne]. Qed.
Lemma dec_str_ne d : dec_str d <> "".
Proof.
  intros E. pose proof (dec_str_float d) as F. rewrite E in F. vm_compute in F. discriminate.
Qed.

(** ** Numbers *)
Lemma strip_zeros_pow k : forall f c x, (c mod 10 <> 0)%N -> (k <= f)%nat ->
  strip_zeros f (c * 10 ^ N.of_nat k) x = (c, x + Z.of_nat k).
Proof.
  induction k as [|k IH]; intros f c x C K.
  - change (N.of_nat 0) with 0%N. rewrite N.pow_0_r, N.mul_1_r, Z.add_0_r. destruct f; cbn [strip_zeros]; auto.
    apply N.eqb_neq in C. now rewrite C.
  - destruct f as [|f]; [lia|]. cbn [strip_zeros]. replace (N.of_nat (S k)) with (N.succ (N.of_nat k)) by lia. rewrite N.pow_succ_r'.
    assert (E : (c * (10 * 10 ^ N.of_nat k) = c * 10 ^ N.of_nat k * 10)%N) by lia. rewrite E.
    rewrite N.mod_mul, N.eqb_refl, N.div_mul by lia. rewrite IH by (auto; lia). f_equal. lia.
Qed.
Lemma canon_pow neg c e : 0 <= e -> (c = 0%N -> e = 0) -> (c <> 0%N -> (c mod 10 <> 0)%N) ->
  canon neg (c * 10 ^ Z.to_N e) 0 = FFin neg c e.
Proof.
  intros E Z0 NZ. unfold canon. destruct (N.eqb_spec (c * 10 ^ Z.to_N e) 0) as [H|H].
  - apply N.mul_eq_0 in H as [->|H]; [now rewrite Z0|]. apply N.pow_nonzero in H; [tauto|lia].
  - assert (C : c <> 0%N) by (intros ->; lia). replace (Z.to_N e) with (N.of_nat (Z.to_nat e)) by lia.
    rewrite strip_zeros_pow; auto.
    + f_equal. lia.
    + pose proof (dec_bounds _ H) as [_ B]. replace (Z.to_N e) with (N.of_nat (Z.to_nat e)) in B by lia.
      set (n := String.length _) in *. destruct (Nat.le_gt_cases (Z.to_nat e) n) as [|L]; auto.
      exfalso. assert (10 ^ N.of_nat n <= 10 ^ N.of_nat (Z.to_nat e))%N by (apply N.pow_le_mono_r; lia).
      assert (1 * 10 ^ N.of_nat (Z.to_nat e) <= c * 10 ^ N.of_nat (Z.to_nat e))%N by (apply N.mul_le_mono_r; lia). lia.
Qed.
Lemma qv_int neg c e : 0 <= e -> (qv neg c e == qv neg (c * 10 ^ Z.to_N e) 0)%Q.
Proof. intros E. rewrite (qv_shift neg c e 0 E). reflexivity. Qed.

Lemma format_float_fin neg c e : python_float (FFin neg c e) -> below_1e28 (NFloat (FFin neg c e)) ->
  exists d, format_float (NFloat (FFin neg c e)) = Ok (dec_str d) /\ canon (d_neg d) (d_coef d) (d_exp d) = FFin neg c e /\
    reread (NFloat (FFin neg c e)) = if d_exp d =? 0 then NInt (signed (d_neg d) (d_coef d)) else NFloat (canon (d_neg d) (d_coef d) (d_exp d)).
Proof.
  intros (L & Z0 & NZ) B. unfold below_1e28 in B. cbn [meaning] in B. cbn [format_float].
  assert (P10 : forall n, (10 ^ n <> 0)%N) by (intros; apply N.pow_nonzero; lia).
  destruct (Z.leb_spec 0 e) as [E|E].
  - rewrite (qv_int neg c e E) in B. apply qv_small in B.
    exists (mkDec neg (c * 10 ^ Z.to_N e) 0). cbn [d_neg d_coef d_exp]. split; [|split].
    + unfold format_decimal, decimal_of_float. cbv zeta. replace (0 <=? e) with true by lia. rewrite andb_true_r.
      assert (G : (precision <? ndig (c * 10 ^ Z.to_N e)) = false).
      { apply Z.ltb_ge. apply ndig_le; [unfold precision; lia|]. exact B. }
      destruct (_ && _).
      * assert (X : (c * 10 ^ Z.to_N (e + 1) = c * 10 ^ Z.to_N e * 10)%N).
        { rewrite Z2N.inj_add, N.pow_add_r by lia. change (10 ^ Z.to_N 1)%N with 10%N. lia. }
        unfold is_integral, quantize1. cbn [d_exp d_coef d_neg]. change (0 <=? -1) with false. change (10 ^ Z.to_N (- -1))%N with 10%N.
        rewrite X, N.mod_mul, N.div_mul by lia. cbn [orb N.eqb]. cbv zeta iota. rewrite G. reflexivity.
      * unfold is_integral, quantize1. cbn [d_exp d_coef d_neg]. replace (0 <=? e) with true by lia. cbn [orb]. cbv zeta. rewrite G. reflexivity.
    + apply canon_pow; auto.
    + cbn [reread]. replace (0 <=? e) with true by lia. reflexivity.
  - assert (C : c <> 0%N) by (intros C; specialize (Z0 C); lia). specialize (NZ C).
    assert (S0 : strip_zeros (String.length (dec c)) c e = (c, e)).
    { pose proof (dec_len_pos c) as LP. destruct (String.length (dec c)); [lia|]. cbn [strip_zeros]. apply N.eqb_neq in NZ. now rewrite NZ. }
    assert (N0 : N.eqb c 0 = false) by now apply N.eqb_neq.
    exists (mkDec neg c e). cbn [d_neg d_coef d_exp]. unfold canon. rewrite N0, S0. split; [|split; auto].
    + unfold format_decimal, decimal_of_float. cbv zeta. replace (0 <=? e) with false by lia. rewrite andb_false_r.
      unfold is_integral. cbn [d_exp d_coef]. replace (0 <=? e) with false by lia. cbn [orb].
      assert (M : N.eqb (c mod 10 ^ Z.to_N (- e)) 0 = false).
      { apply N.eqb_neq. intros M. apply NZ. apply N.mod_divide in M; auto. apply N.mod_divide; [lia|].
        apply N.divide_trans with (2 := M). replace (Z.to_N (- e)) with (N.succ (Z.to_N (- e) - 1)) by lia. rewrite N.pow_succ_r'. apply N.divide_factor_l. }
      rewrite M. unfold normalize. cbn [d_coef d_neg d_exp]. now rewrite N0, S0.
    + cbn [reread]. replace (0 <=? e) with false by lia. replace (e =? 0) with false by lia. reflexivity.
Qed.

Lemma all_ok_Forall {A} (P : A -> Prop) l : all_ok P l <-> Forall P l.
Proof. induction l as [|a l IH]; cbn; [split; auto|]. rewrite IH. split; [intros []; auto|now inversion 1]. Qed.
Lemma all_in {A} (P : A -> Prop) l a : all_ok P l -> In a l -> P a.
Proof. rewrite all_ok_Forall, Forall_forall. auto. Qed.
Lemma opt_in {A} (P : A -> Prop) o a : opt_ok P o -> o = Some a -> P a.
Proof. now intros H ->. Qed.
Ltac splits := repeat match goal with |- _ /\ _ => split end.
Lemma float_text n : good_float n -> exists t f, format_float n = Ok t /\ n = NFloat f /\ t <> "" /\ calm t /\
  float_of t = Some f /\ read_number t = Ok (reread n).
Proof.
  intros (f & -> & P & B). destruct f as [neg| |neg c e].
  - exists (if neg then "-INF" else "INF"), (FInf neg). destruct neg; splits; try discriminate; try reflexivity; now apply calmb_sound.
  - exists "NaN", FNaN. splits; try discriminate; try reflexivity; now apply calmb_sound.
  - destruct (format_float_fin neg c e P B) as (d & F & C & R). exists (dec_str d), (FFin neg c e).
    splits; auto; [apply dec_str_ne|apply dec_str_calm|rewrite dec_str_float; now rewrite C|rewrite dec_str_read; now rewrite R].
Qed.
Lemma number_text n : good_number n -> exists t, format_number n = Ok t /\ t <> "" /\ calm t /\ read_number t = Ok (reread n).
Proof.
  destruct n as [z|f]; intros G.
  - exists (zstr z). splits; [reflexivity|apply zstr_ne|apply zstr_calm|]. unfold read_number. now rewrite int10_zstr.
  - destruct (float_text _ G) as (t & f' & F & _ & N & C & _ & R). exists t. auto.
Qed.
