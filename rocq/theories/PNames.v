(** Proofs about the unique-name helper. *)
From Verif Require Import Base PBase MNames.
From Coq Require Import DecimalString DecimalN.

Lemma digits_prefix_acc u p :
  digits_prefix (NilEmpty.string_of_uint u) (Npos p) = Npos (Pos.of_uint_acc u p).
Proof.
  revert p; induction u; intros p; cbn [NilEmpty.string_of_uint digits_prefix Pos.of_uint_acc]; auto;
    match goal with |- context [digit_val ?c] => change (digit_val c) with (Some (N_of_ascii c - 48)%N) end;
    cbv beta iota; rewrite <- IHu; f_equal;
    match goal with |- context [(N_of_ascii ?c - 48)%N] => let v := eval vm_compute in (N_of_ascii c - 48)%N in change (N_of_ascii c - 48)%N with v end; lia.
Qed.

Lemma digits_prefix_uint u :
  digits_prefix (NilEmpty.string_of_uint u) 0 = N.of_uint u.
Proof.
  unfold N.of_uint.
  induction u; cbn [NilEmpty.string_of_uint digits_prefix Pos.of_uint]; auto;
    match goal with |- context [digit_val ?c] => change (digit_val c) with (Some (N_of_ascii c - 48)%N) end;
    cbv beta iota; rewrite <- digits_prefix_acc; reflexivity.
Qed.

Lemma digits_prefix_dec n : digits_prefix (dec n) 0 = n.
Proof.
  unfold dec. assert (E : N.of_uint (N.to_uint n) = n) by apply DecimalN.Unsigned.of_to.
  rewrite <- E at 2. rewrite <- digits_prefix_uint.
  destruct (N.to_uint n); reflexivity.
Qed.

Lemma dec_inj a b : dec a = dec b -> a = b.
Proof. intros E. rewrite <- (digits_prefix_dec a), <- (digits_prefix_dec b). now rewrite E. Qed.

Lemma dec_head n : exists c r d, dec n = String c r /\ digit_val c = Some d.
Proof.
  unfold dec. destruct (N.to_uint n); cbn; do 3 eexists; split; reflexivity.
Qed.

Lemma strip_prefix_app p s : strip_prefix p (p ++ s)%string = Some s.
Proof. induction p as [|a p IH]; cbn; [auto|]. now rewrite Ascii.eqb_refl. Qed.

Lemma strip_prefix_spec p s t : strip_prefix p s = Some t -> s = (p ++ t)%string.
Proof.
  revert s; induction p as [|a p IH]; intros s; cbn; [congruence|].
  destruct s as [|b s]; [discriminate|]. destruct (Ascii.eqb_spec a b) as [->|N]; [|discriminate].
  intros E. now rewrite <- (IH s E).
Qed.

Lemma match_index_dec base n : match_index base (base ++ "_" ++ dec n)%string = Some n.
Proof.
  unfold match_index. rewrite <- str_app_assoc, strip_prefix_app.
  destruct (dec_head n) as (c & r & d & E & D). rewrite E, D, <- E. now rewrite digits_prefix_dec.
Qed.

Lemma match_index_base base : match_index base base = None.
Proof.
  unfold match_index. destruct (strip_prefix (base ++ "_")%string base) as [t|] eqn:E; [|auto].
  apply strip_prefix_spec in E. apply (f_equal String.length) in E.
  rewrite !str_length_app in E. cbn in E. lia.
Qed.

Lemma scan_spec names base has hi :
  let (h, m) := scan names base has hi in
  (h = true <-> has = true \/ exists n i, In n names /\ match_index base n = Some i) /\
  (hi <= m)%N /\ (forall n i, In n names -> match_index base n = Some i -> (i <= m)%N).
Proof.
  revert has hi; induction names as [|x names IH]; intros has hi; cbn [scan].
  - repeat split; try lia; try (intros ? ? []). { tauto. } intros [H|(n & i & [] & _)]; auto.
  - destruct (match_index base x) as [j|] eqn:M.
    + specialize (IH true (N.max hi j)). destruct (scan names base true (N.max hi j)) as [h m].
      destruct IH as (A & B & C). repeat split.
      * intros _. right. exists x, j. split; [now left|auto].
      * intros _. apply A. now left.
      * lia.
      * intros n i [->|I] E; [rewrite M in E; injection E as <-; lia|eauto].
    + specialize (IH has hi). destruct (scan names base has hi) as [h m].
      destruct IH as (A & B & C). repeat split; auto.
      * intros H. apply A in H as [H|(n & i & I & E)]; [auto|]. right. exists n, i. split; [now right|auto].
      * intros [H|(n & i & [->|I] & E)]; apply A; [auto|congruence|]. right. eauto.
      * intros n i [->|I] E; [congruence|eauto].
Qed.

Lemma rename_last_none names base : rename_last names base = None <-> ~ In base names.
Proof.
  induction names as [|x names IH]; cbn [rename_last]; [split; auto|].
  destruct (rename_last names base) as [l|].
  - split; [discriminate|]. intros N. exfalso. apply N. right.
    assert (X : ~ ~ In base names) by (intros X; apply IH in X; discriminate).
    destruct (in_dec string_dec base names); tauto.
  - assert (NI : ~ In base names) by now apply IH.
    destruct (match_index base x) as [j|] eqn:M.
    + split; auto. intros _ [->|I]; [|auto]. rewrite match_index_base in M. discriminate.
    + destruct (String.eqb_spec x base) as [->|N].
      * split; [discriminate|]. intros N. exfalso. apply N. now left.
      * split; auto. intros _ [->|I]; auto.
Qed.

Lemma rename_last_some names base l :
  rename_last names base = Some l ->
  exists a b, names = a ++ base :: b /\ l = a ++ (base ++ "_" ++ "0")%string :: b /\ ~ In base b.
Proof.
  revert l; induction names as [|x names IH]; cbn [rename_last]; intros l; [discriminate|].
  destruct (rename_last names base) as [l'|] eqn:R.
  - intros [= <-]. destruct (IH l' eq_refl) as (a & b & -> & -> & N).
    exists (x :: a), b. auto.
  - destruct (match_index base x) as [j|]; [discriminate|].
    destruct (String.eqb_spec x base) as [->|N]; [|discriminate].
    intros [= <-]. exists [], names. split; auto. split; auto. now apply rename_last_none.
Qed.

(** The complete effect of the helper. *)
Lemma make_unique_effect names base names' r :
  make_unique names base = (names', r) ->
  (~ In base names /\ names' = names \/
   exists a b, names = a ++ base :: b /\ names' = a ++ (base ++ "_0")%string :: b /\ ~ In base b).
Proof.
  unfold make_unique. destruct (scan names base false 0) as [has hi].
  destruct (rename_last names base) as [l|] eqn:R; intros E.
  - right. destruct (rename_last_some _ _ _ R) as (a & b & E1 & E2 & N).
    exists a, b. rewrite orb_true_r in E. injection E as <- _. auto.
  - left. split; [now apply rename_last_none|]. destruct has; cbn in E; congruence.
Qed.

Lemma base_suffix_ne base s : (base ++ "_" ++ s)%string <> base.
Proof.
  intros E. apply (f_equal String.length) in E. rewrite !str_length_app in E. cbn in E. lia.
Qed.

Lemma make_unique_fresh names base names' r :
  make_unique names base = (names', r) -> ~ In r names'.
Proof.
  intros E I. destruct (make_unique_effect _ _ _ _ E) as [[N ->]|(a & b & -> & -> & N)].
  - unfold make_unique in E. pose proof (scan_spec names base false 0) as S.
    destruct (scan names base false 0) as [has hi]. destruct S as (A & B & C).
    assert (R : rename_last names base = None) by now apply rename_last_none.
    rewrite R in E. destruct has; cbn in E; injection E as <-; [|auto].
    assert (hi + 1 <= hi)%N; [|lia]. eapply C; [exact I|apply match_index_dec].
  - set (names := a ++ base :: b) in *. unfold make_unique in E.
    pose proof (scan_spec names base false 0) as S.
    destruct (scan names base false 0) as [has hi]. destruct S as (A & B & C).
    destruct (rename_last names base) as [l|] eqn:R.
    + rewrite orb_true_r in E. injection E as _ <-.
      assert (X : In (base ++ "_" ++ dec (hi + 1))%string names \/
                  (base ++ "_" ++ dec (hi + 1))%string = (base ++ "_0")%string).
      { unfold names. rewrite in_app_iff in *. cbn in *. intuition congruence. }
      destruct X as [X|X].
      * assert (hi + 1 <= hi)%N; [|lia]. eapply C; [exact X|apply match_index_dec].
      * apply str_app_inv_head in X. cbn in X. injection X as X.
        change "0" with (dec 0) in X. apply dec_inj in X. lia.
    + apply rename_last_none in R. apply R. unfold names. apply in_or_app. right. now left.
Qed.

(** Exactly when adding under the returned name (or appending, for a fresh name) keeps the
    names different. *)
Lemma renamed_nodup {A} (a b : list A) x y :
  NoDup (a ++ x :: b) -> ~ In y (a ++ b) -> NoDup (a ++ y :: b).
Proof.
  intros N I. apply NoDup_remove in N as [N _].
  apply (NoDup_Add (Add_app y a b)). auto.
Qed.

Lemma names_nodup_iff names base names' r :
  NoDup names -> make_unique names base = (names', r) ->
  (NoDup names' <-> ~ (In base names /\ In (base ++ "_0")%string names)).
Proof.
  intros N E. destruct (make_unique_effect _ _ _ _ E) as [[NI ->]|(a & b & -> & -> & NB)].
  - tauto.
  - split.
    + intros N' [_ I]. apply NoDup_remove in N' as [_ N']. apply N'.
      rewrite in_app_iff in *. cbn in I. destruct I as [I|[I|I]]; auto.
      exfalso. symmetry in I. revert I. apply (base_suffix_ne base "0").
    + intros X. apply renamed_nodup with base; auto.
      intros I. apply X. split; [apply in_or_app; right; now left|].
      rewrite in_app_iff in *. cbn. tauto.
Qed.

Lemma nodup_snoc {A} (l : list A) x : NoDup (l ++ [x]) <-> NoDup l /\ ~ In x l.
Proof.
  split.
  - intros N. apply NoDup_remove in N. rewrite app_nil_r in N. exact N.
  - intros [N I]. apply (NoDup_Add (Add_app x l [])). rewrite app_nil_r. auto.
Qed.

Lemma add_unique_nodup names base :
  NoDup names ->
  (NoDup (add_unique names base) <-> ~ (In base names /\ In (base ++ "_0")%string names)).
Proof.
  intros N. unfold add_unique. destruct (make_unique names base) as [names' r] eqn:E.
  rewrite nodup_snoc, <- (names_nodup_iff _ _ _ _ N E).
  pose proof (make_unique_fresh _ _ _ _ E). tauto.
Qed.

Lemma append_access_nodup names n :
  NoDup names ->
  (NoDup (append_access names n) <-> ~ (In n names /\ In (n ++ "_0")%string names)).
Proof.
  intros N. unfold append_access. destruct (make_unique names n) as [names' r] eqn:E.
  rewrite nodup_snoc, <- (names_nodup_iff _ _ _ _ N E). split; [tauto|]. intros X. split; auto.
  destruct (make_unique_effect _ _ _ _ E) as [[NI ->]|(a & b & -> & -> & NB)]; [auto|].
  apply NoDup_remove in N as [_ N]. rewrite in_app_iff in *. cbn. intros I.
  destruct I as [I|[I|I]]; [tauto| |tauto]. revert I. apply (base_suffix_ne n "0").
Qed.

(** After one addition the state is safe for all further additions of the same base. *)
Definition safe (names : list string) (base : string) : Prop :=
  NoDup names /\ ~ (In base names /\ In (base ++ "_0")%string names).

Lemma add_unique_safe names base : safe names base -> safe (add_unique names base) base.
Proof.
  intros [N X]. split; [now apply add_unique_nodup|].
  unfold add_unique. destruct (make_unique names base) as [names' r] eqn:E.
  intros [I1 I2].
  assert (F : forall m, m = r -> (m = base /\ ~ In base names /\ forall n i, In n names -> match_index base n <> Some i)
              \/ exists k, m = (base ++ "_" ++ dec (k + 1))%string).
  { intros m ->. unfold make_unique in E. pose proof (scan_spec names base false 0) as S.
    destruct (scan names base false 0) as [has hi]. destruct S as (A & _ & _).
    destruct (rename_last names base) as [l|] eqn:R.
    - rewrite orb_true_r in E. injection E as _ <-. right; exists hi; reflexivity.
    - destruct has; cbn in E; injection E as _ <-; [right; exists hi; reflexivity|left].
      split; auto. split; [now apply rename_last_none|]. intros n i I M.
      destruct A as [_ A]. specialize (A (or_intror (ex_intro _ n (ex_intro _ i (conj I M))))). discriminate. }
  assert (Z : match_index base (base ++ "_0")%string = Some 0%N) by apply (match_index_dec base 0).
  rewrite in_app_iff in I1, I2. cbn in I1, I2.
  destruct (make_unique_effect _ _ _ _ E) as [[NI ->]|(a & b & -> & -> & NB)].
  - destruct I1 as [I1|[I1|[]]]; [auto|].
    destruct (F base (eq_sym I1)) as [(_ & _ & F2)|(k & F2)].
    + destruct I2 as [I2|[I2|[]]].
      * exact (F2 _ _ I2 Z).
      * symmetry in I2. rewrite <- I1 in I2. exact (base_suffix_ne r "0" I2).
    + symmetry in F2. exact (base_suffix_ne _ _ F2).
  - destruct I1 as [I1|[I1|[]]].
    + rewrite in_app_iff in I1. cbn in I1.
      apply NoDup_remove in N as [_ N]. rewrite in_app_iff in N.
      destruct I1 as [I1|[I1|I1]]; [tauto| |tauto]. exact (base_suffix_ne base "0" I1).
    + destruct (F base (eq_sym I1)) as [(_ & F1 & _)|(k & F2)].
      * apply F1. apply in_or_app. right. now left.
      * symmetry in F2. exact (base_suffix_ne _ _ F2).
Qed.

Lemma add_unique_length names base : List.length (add_unique names base) = S (List.length names).
Proof.
  unfold add_unique. destruct (make_unique names base) as [names' r] eqn:E.
  rewrite app_length. cbn.
  destruct (make_unique_effect _ _ _ _ E) as [[NI ->]|(a & b & -> & -> & NB)];
    rewrite ?app_length; cbn; lia.
Qed.
