(** Proofs about which texts are floats. *)
From Coq Require Import QArith Qpower.
From Verif Require Import Base PBase MNames MNum SNum PNum PNum2 SLiteral PLiteral.
Open Scope list_scope.
Ltac splits := repeat match goal with |- _ /\ _ => split end.

(** ** Floats in lowest terms *)
Lemma qv_inj c c' x : (qv false c x == qv false c' x)%Q -> c = c'.
Proof.
  unfold qv. intros H. apply Qmult_inj_r in H; [|apply Qpower_not_0, ten_nz]. unfold Qeq, inject_Z in H. cbn in H. lia.
Qed.
Lemma qv_zero_inv c x : (qv false c x == 0)%Q -> c = 0%N.
Proof. intros H. apply (qv_inj c 0 x). now rewrite qv_zero. Qed.
Lemma lowest_le c x c' x' : (c mod 10 <> 0)%N -> (c' mod 10 <> 0)%N -> (x <= x')%Z -> (qv false c x == qv false c' x')%Q -> c = c' /\ x = x'.
Proof.
  intros M M' L H. assert (K : (0 <= x' - x)%Z) by lia. pose proof (qv_shift false c' (x' - x) x K) as S. replace (x + (x' - x))%Z with x' in S by lia.
  rewrite <- S in H. apply qv_inj in H. destruct (Z.eq_dec x' x) as [->|N].
  - rewrite Z.sub_diag in H. cbn in H. rewrite N.mul_1_r in H. auto.
  - exfalso. apply M. rewrite H. replace (Z.to_N (x' - x)) with (N.succ (Z.to_N (x' - x - 1))) by lia. rewrite N.pow_succ_r', N.mul_assoc, (N.mul_comm c' 10), <- N.mul_assoc, N.mul_comm.
    apply N.mod_mul. discriminate.
Qed.
Lemma strip_zeros_lowest f : forall c e, (c <> 0)%N -> (c < 10 ^ N.of_nat f)%N -> (fst (strip_zeros f c e) <> 0 /\ fst (strip_zeros f c e) mod 10 <> 0)%N.
Proof.
  induction f as [|f IH]; intros c e N L; cbn [strip_zeros].
  - cbn in L. lia.
  - destruct (N.eqb_spec (c mod 10) 0) as [M|M]; [|cbn; auto]. pose proof (N.div_mod' c 10) as D. apply IH; [lia|].
    rewrite Nat2N.inj_succ, N.pow_succ_r' in L. lia.
Qed.
Lemma dec_bound c : (c < 10 ^ N.of_nat (String.length (dec c)))%N.
Proof.
  pose proof (dec_len_pos c) as L. pose proof (proj1 (ndig_le c (Z.of_nat (String.length (dec c))) ltac:(lia)) (Z.le_refl _)) as H. now rewrite <- nat_N_Z, N2Z.id in H.
Qed.
Lemma canon_iff neg n e f : is_float neg n e f <-> canon neg n e = f.
Proof.
  unfold is_float, canon. destruct (N.eqb_spec n 0) as [->|N].
  - split.
    + intros (c & x & -> & Q & Z & _). rewrite qv_zero in Q. apply qv_zero_inv in Q as ->. now rewrite Z.
    + intros <-. exists 0%N, 0%Z. splits; [reflexivity|now rewrite !qv_zero|reflexivity|congruence].
  - pose proof (strip_zeros_lowest _ n e N (dec_bound n)) as (N' & M'). destruct (strip_zeros _ n e) as [c' x'] eqn:S. cbn [fst] in *. apply (strip_zeros_qv false) in S. split.
    + intros (c & x & -> & Q & _ & M). rewrite <- S in Q. assert (C : c <> 0%N). { intros ->. rewrite qv_zero in Q. symmetry in Q. apply qv_zero_inv in Q. congruence. }
      specialize (M C). destruct (Z.le_ge_cases x x') as [L|L].
      * destruct (lowest_le c x c' x' M M' L Q) as [-> ->]. reflexivity.
      * symmetry in Q. destruct (lowest_le c' x' c x M' M L Q) as [-> ->]. reflexivity.
    + intros <-. exists c', x'. splits; auto. intros E. congruence.
Qed.

(** ** Digits without underscores *)
Inductive plain : string -> list N -> Prop :=
| plain_one c d : digit_val c = Some d -> plain (String c "") [d]
| plain_more c d s ds : digit_val c = Some d -> plain s ds -> plain (String c s) (d :: ds).
Definition not_digit (s : string) : Prop := match s with String c _ => digit_val c = None | "" => True end.
Lemma take_none s acc cnt : not_digit s -> take_digits s acc cnt = (acc, cnt, s).
Proof. destruct s as [|c s]; cbn; [reflexivity|]. now intros ->. Qed.
Lemma take_plain p ds : plain p ds -> forall rest acc cnt, not_digit rest -> take_digits (p ++ rest) acc cnt = (fold_left (step 10) ds acc, (List.length ds + cnt)%nat, rest).
Proof.
  induction 1 as [c d D|c d s ds D H IH]; intros rest acc cnt N; cbn [append take_digits]; rewrite D.
  - now rewrite take_none.
  - rewrite IH by exact N. cbn [fold_left List.length]. unfold step at 2. f_equal. f_equal. lia.
Qed.
Lemma take_form s : forall acc cnt, exists p ds rest, s = (p ++ rest)%string /\ ((ds = [] /\ p = "") \/ plain p ds) /\ not_digit rest /\
  take_digits s acc cnt = (fold_left (step 10) ds acc, (List.length ds + cnt)%nat, rest).
Proof.
  induction s as [|c s IH]; intros acc cnt.
  - exists "", [], "". cbn. auto.
  - cbn [take_digits]. destruct (digit_val c) as [d|] eqn:D.
    + destruct (IH (acc * 10 + d)%N (S cnt)) as (p & ds & rest & -> & P & N & ->). exists (String c p), (d :: ds), rest. splits; [reflexivity| |exact N|].
      * right. destruct P as [[-> ->]|P]; [now constructor|now constructor].
      * cbn [fold_left List.length]. unfold step at 2. f_equal. f_equal. lia.
    + exists "", [], (String c s). cbn. auto.
Qed.
Lemma plain_first s ds : plain s ds -> exists c r d, s = String c r /\ digit_val c = Some d.
Proof. intros [c d D|c d r es D _]; eauto 10. Qed.
Lemma plain_nonempty s ds : plain s ds -> ds <> [].
Proof. intros []; discriminate. Qed.

(** ** The grammar, for any kind of digits *)
Section Grammar.
Context (D : string -> list N -> Prop).
Inductive mant : string -> list N -> list N -> Prop :=
| mant_whole s ds : D s ds -> mant s ds []
| mant_point s ds : D s ds -> mant (s ++ ".") ds []
| mant_both s ds t fs : D s ds -> D t fs -> mant (s ++ "." ++ t) ds fs
| mant_fraction t fs : D t fs -> mant ("." ++ t) [] fs.
Inductive expo : string -> Z -> Prop :=
| expo_none : expo "" 0
| expo_some e (neg : bool) sign s ds : e = "e"%char \/ e = "E"%char -> (if neg then sign = "-" else sign = "" \/ sign = "+") -> D s ds ->
    expo (String e (sign ++ s)) (signed neg (value 10 ds)).
End Grammar.
Lemma mant_iff s ds fs : mant (digits 10) s ds fs <-> mantissa s ds fs.
Proof. split; intros []; now constructor. Qed.
Lemma expo_iff s x : expo (digits 10) s x <-> exponent_part s x.
Proof.
  split.
  - intros [|e neg sign t ds E Sg T]; [constructor|]. destruct neg; cbn [signed].
    + subst sign. apply exponent_negative; [exact E|]. now exists ds.
    + apply exponent_positive; [exact E|exact Sg|]. now exists ds.
  - intros [|e sign t n E Sg (ds & T & ->)|e t n E (ds & T & ->)]; [constructor|..].
    + exact (expo_some _ e false sign t ds E Sg T).
    + exact (expo_some _ e true "-" t ds E eq_refl T).
Qed.
Lemma expo_not_digit D s x : expo D s x -> not_digit s.
Proof. intros [|e neg sign t ds [->| ->] _ _]; reflexivity || exact I. Qed.

(** ** Parsing texts without underscores *)
Lemma e_iff c : Ascii.eqb (lower_char c) "e" = true <-> c = "e"%char \/ c = "E"%char.
Proof. split; [|intros [->| ->]; reflexivity]. destruct c as [[] [] [] [] [] [] [] []]; intros H; try discriminate H; auto. Qed.
Lemma digit_not_sign c d : digit_val c = Some d -> Ascii.eqb c "-" = false /\ Ascii.eqb c "+" = false.
Proof. destruct c as [[] [] [] [] [] [] [] []]; intros H; try discriminate H; auto. Qed.
Lemma exponent_iff s x : exponent s = Some x <-> expo plain s x.
Proof.
  split.
  - destruct s as [|c r]; cbn [exponent]; [intros H; injection H as <-; constructor|]. destruct (Ascii.eqb (lower_char c) "e") eqn:E; [|discriminate]. apply e_iff in E.
    assert (Body : forall neg sign r1, (if neg : bool then sign = "-" else sign = "" \/ sign = "+") -> r = (sign ++ r1)%string ->
      match take_digits r1 0 0 with (n, S _, "") => Some (signed neg n) | _ => None end = Some x -> expo plain (String c r) x).
    { intros neg sign r1 Sg -> H. destruct (take_form r1 0 0) as (p & ds & rest & -> & P & N & T). rewrite T in H. destruct P as [[-> ->]|P]; [discriminate|].
      pose proof (plain_nonempty _ _ P) as NE. destruct ds as [|d ds]; [congruence|]. cbn [List.length Nat.add] in H. destruct rest; [|discriminate]. injection H as <-.
      rewrite str_app_nil_r. exact (expo_some plain c neg sign p (d :: ds) E Sg P). }
    destruct r as [|a r]; cbn [take_sign]; [discriminate|]. destruct (Ascii.eqb a "-") eqn:M; [apply Ascii.eqb_eq in M as ->; now apply (Body true "-" r)|].
    destruct (Ascii.eqb a "+") eqn:Pl; [apply Ascii.eqb_eq in Pl as ->; apply (Body false "+" r); auto|]. apply (Body false "" (String a r)); auto.
  - intros [|e neg sign t ds E Sg T]; [reflexivity|]. cbn [exponent]. apply e_iff in E. rewrite E.
    assert (S : take_sign (sign ++ t) = (neg, t)).
    { destruct neg; [now subst sign|]. destruct Sg as [->| ->]; [|reflexivity]. destruct (plain_first _ _ T) as (a & r & d & -> & Da). cbn [append take_sign].
      destruct (digit_not_sign _ _ Da) as [-> ->]. reflexivity. }
    rewrite S. rewrite <- (str_app_nil_r t), (take_plain t ds T "" 0 0 I). destruct ds; [now destruct (plain_nonempty _ _ T)|]. reflexivity.
Qed.
Definition unsigned (neg : bool) (r : string) : option pyfloat :=
  if String.eqb (lower r) "inf" || String.eqb (lower r) "infinity" then Some (FInf neg)
  else if String.eqb (lower r) "nan" then Some FNaN
  else
    let '(i, n1, r1) := take_digits r 0 0 in
    let '(m, n2, r2) := match r1 with
                        | String "." r' => take_digits r' i 0
                        | _ => (i, 0%nat, r1)
                        end in
    if Nat.eqb (n1 + n2) 0 then None
    else match exponent r2 with
         | Some x => Some (canon neg m (x - Z.of_nat n2))
         | None => None
         end.
Lemma plain_float_eq s : plain_float s = let (neg, r) := take_sign s in unsigned neg r.
Proof. reflexivity. Qed.
Fixpoint letters (s : string) : Prop := match s with "" => True | String c r => (97 <= N_of_ascii c <= 122)%N /\ letters r end.
Lemma lower_char_iff c d : (97 <= N_of_ascii d <= 122)%N -> lower_char c = d <-> c = d \/ (N_of_ascii c + 32 = N_of_ascii d)%N.
Proof.
  intros R. unfold lower_char. cbv zeta. unfold nat_of_ascii. destruct (Nat.leb 65 (N.to_nat (N_of_ascii c)) && Nat.leb (N.to_nat (N_of_ascii c)) 90) eqn:B.
  - apply andb_true_iff in B as [B1 B2]. apply Nat.leb_le in B1, B2. split.
    + intros <-. right. unfold ascii_of_nat. rewrite N_ascii_embedding; lia.
    + intros [->|E]; [lia|]. replace (N.to_nat (N_of_ascii c) + 32)%nat with (N.to_nat (N_of_ascii d)) by lia. unfold ascii_of_nat. now rewrite N2Nat.id, ascii_N_embedding.
  - split; [auto|]. intros [E|E]; [exact E|]. apply andb_false_iff in B as [B|B]; apply Nat.leb_gt in B; lia.
Qed.
Lemma lower_iff w : letters w -> forall s, String.eqb (lower s) w = true <-> in_any_case s w.
Proof.
  induction w as [|d w IH]; intros L [|c s]; cbn [lower in_any_case String.eqb]; try (split; [discriminate|contradiction]); [split; auto|].
  destruct L as [R L]. rewrite <- (IH L s), <- (lower_char_iff c d R). destruct (Ascii.eqb_spec (lower_char c) d) as [E|E]; split; try tauto; discriminate.
Qed.
Lemma inf_iff s : String.eqb (lower s) "inf" || String.eqb (lower s) "infinity" = true <-> in_any_case s "inf" \/ in_any_case s "infinity".
Proof. rewrite orb_true_iff, !lower_iff by (cbn; lia). reflexivity. Qed.
Lemma nan_iff s : String.eqb (lower s) "nan" = true <-> in_any_case s "nan".
Proof. apply lower_iff. cbn. lia. Qed.
Lemma inf_not_nan s : in_any_case s "inf" \/ in_any_case s "infinity" -> in_any_case s "nan" -> False.
Proof. rewrite <- inf_iff, <- nan_iff, orb_true_iff, !String.eqb_eq. intros [E|E] F; rewrite E in F; discriminate. Qed.
Lemma not_word c r : (exists d, digit_val c = Some d) \/ c = "."%char ->
  String.eqb (lower (String c r)) "inf" || String.eqb (lower (String c r)) "infinity" = false /\ String.eqb (lower (String c r)) "nan" = false.
Proof.
  intros H. assert (N : Ascii.eqb (lower_char c) "i" = false /\ Ascii.eqb (lower_char c) "n" = false).
  { destruct H as [[d D]| ->]; [|auto]. destruct c as [[] [] [] [] [] [] [] []]; try discriminate D; auto. }
  destruct N as [N1 N2]. cbn [lower String.eqb]. now rewrite N1, N2.
Qed.
Lemma unsigned_iff neg r f : unsigned neg r = Some f <->
  ((in_any_case r "inf" \/ in_any_case r "infinity") /\ f = FInf neg) \/ (in_any_case r "nan" /\ f = FNaN) \/
  exists s t ds fs x, r = (s ++ t)%string /\ mant plain s ds fs /\ expo plain t x /\ f = canon neg (value 10 (ds ++ fs)) (x - Z.of_nat (List.length fs)).
Proof.
  split.
  - unfold unsigned. destruct (_ || _) eqn:Inf; [apply inf_iff in Inf; intros E; injection E as <-; auto|]. destruct (String.eqb _ "nan") eqn:Nan; [apply nan_iff in Nan; intros E; injection E as <-; auto|].
    clear Inf Nan. destruct (take_form r 0 0) as (p & ds & rest & -> & P & N & T). rewrite T. clear T. rewrite Nat.add_0_r.
    assert (Whole : (if Nat.eqb (List.length ds + 0) 0 then None else match exponent rest with Some x => Some (canon neg (fold_left (step 10) ds 0%N) (x - Z.of_nat 0)) | None => None end) = Some f ->
      exists s t ds' fs x, (p ++ rest)%string = (s ++ t)%string /\ mant plain s ds' fs /\ expo plain t x /\ f = canon neg (value 10 (ds' ++ fs)) (x - Z.of_nat (List.length fs))).
    { intros H. destruct P as [[-> ->]|P]; [discriminate|]. pose proof (plain_nonempty _ _ P) as NE. destruct ds as [|d ds]; [congruence|]. cbn [List.length Nat.add Nat.eqb] in H.
      destruct (exponent rest) as [x|] eqn:X; [|discriminate]. injection H as <-. apply exponent_iff in X. exists p, rest, (d :: ds), [], x. rewrite app_nil_r. splits; [reflexivity|now constructor|exact X|reflexivity]. }
    destruct rest as [|c rest]; [intros H; right; right; apply Whole; exact H|]. destruct (Ascii.eqb_spec c ".") as [->|NP].
    + clear Whole. cbv iota. destruct (take_form rest (fold_left (step 10) ds 0%N) 0) as (q & fs & rest' & -> & P' & N' & T). rewrite T. clear T. rewrite Nat.add_0_r, <- fold_left_app.
      destruct (Nat.eqb_spec (List.length ds + List.length fs) 0) as [|NE]; [discriminate|]. destruct (exponent rest') as [x|] eqn:X; [|discriminate]. intros E. injection E as <-. apply exponent_iff in X.
      right; right. destruct P as [[-> ->]|P], P' as [[-> ->]|P'].
      * now destruct NE.
      * exists ("." ++ q)%string, rest', [], fs, x. splits; [reflexivity|now apply mant_fraction|exact X|reflexivity].
      * exists (p ++ ".")%string, rest', ds, [], x. splits; [now rewrite app_assoc_s|now apply mant_point|exact X|reflexivity].
      * exists (p ++ "." ++ q)%string, rest', ds, fs, x. splits; [now rewrite !app_assoc_s|now apply mant_both|exact X|reflexivity].
    + intros H. right; right. apply Whole. revert H. destruct c as [[] [] [] [] [] [] [] []]; try exact (fun H => H). now destruct NP.
  - intros [[W ->]|[[W ->]|(s & t & ds & fs & x & -> & M & E & ->)]].
    + unfold unsigned. apply inf_iff in W. now rewrite W.
    + unfold unsigned. destruct (_ || _) eqn:Inf; [exfalso; apply inf_iff in Inf; exact (inf_not_nan _ Inf W)|]. apply nan_iff in W. now rewrite W.
    + pose proof (expo_not_digit _ _ _ E) as ND. apply exponent_iff in E.
      assert (Word : forall c r', (exists d, digit_val c = Some d) \/ c = "."%char -> (s ++ t)%string = String c r' ->
        unsigned neg (s ++ t) = let '(i, n1, r1) := take_digits (s ++ t) 0 0 in
          let '(m, n2, r2) := match r1 with String "." r' => take_digits r' i 0 | _ => (i, 0%nat, r1) end in
          if Nat.eqb (n1 + n2) 0 then None else match exponent r2 with Some x => Some (canon neg m (x - Z.of_nat n2)) | None => None end).
      { intros c r' C Eq. unfold unsigned. rewrite Eq. destruct (not_word c r' C) as [-> ->]. reflexivity. }
      destruct M as [s ds P|s ds P|s ds q fs P Q|q fs Q].
      * destruct (plain_first _ _ P) as (c & r & d & Es & Dc). rewrite (Word c (r ++ t)%string) by (eauto; now rewrite Es). rewrite (take_plain s ds P t 0 0 ND). rewrite app_nil_r.
        pose proof (plain_nonempty _ _ P) as NE. destruct ds as [|d' ds]; [congruence|]. rewrite Nat.add_0_r.
        assert (NP : forall A (a b : A), (match t with String "." _ => a | _ => b end) = b).
        { intros A a b. apply exponent_iff in E. destruct E as [|e ? ? ? ? [->| ->] _ _]; reflexivity. }
        assert (R : match t with String "." r' => take_digits r' (fold_left (step 10) (d' :: ds) 0%N) 0 | _ => (fold_left (step 10) (d' :: ds) 0%N, 0%nat, t) end = (fold_left (step 10) (d' :: ds) 0%N, 0%nat, t)).
        { apply exponent_iff in E. destruct E as [|e ? ? ? ? [->| ->] _ _]; reflexivity. }
        rewrite R. cbn [List.length Nat.add Nat.eqb]. rewrite E. reflexivity.
      * destruct (plain_first _ _ P) as (c & r & d & Es & Dc). rewrite (Word c (r ++ "." ++ t)%string) by (eauto; rewrite Es; cbn; now rewrite app_assoc_s). rewrite app_assoc_s.
        cbn [append]. rewrite (take_plain s ds P (String "." t) 0 0 eq_refl). rewrite (take_none t _ _ ND). rewrite E. rewrite !Nat.add_0_r.
        pose proof (plain_nonempty _ _ P) as NE. destruct ds as [|d' ds]; [congruence|]. rewrite app_nil_r. reflexivity.
      * destruct (plain_first _ _ P) as (c & r & d & Es & Dc). rewrite (Word c (r ++ "." ++ q ++ t)%string) by (eauto; rewrite Es; cbn; now rewrite !app_assoc_s). rewrite !app_assoc_s.
        cbn [append]. rewrite (take_plain s ds P (String "." (q ++ t)) 0 0 eq_refl). rewrite (take_plain q fs Q t _ _ ND). rewrite E. rewrite !Nat.add_0_r.
        pose proof (plain_nonempty _ _ P) as NE. destruct ds as [|d' ds]; [congruence|]. cbn [List.length Nat.add Nat.eqb]. rewrite <- fold_left_app. reflexivity.
      * rewrite (Word "."%char (q ++ t)%string) by auto. cbn [append]. rewrite (take_none (String "." _)) by reflexivity. rewrite (take_plain q fs Q t _ _ ND). rewrite E. rewrite !Nat.add_0_r.
        pose proof (plain_nonempty _ _ Q) as NE. destruct fs as [|d' fs]; [congruence|]. reflexivity.
Qed.

(** ** Underscores *)
Lemma is_digit_iff c : is_digit c = true <-> exists d, digit_val c = Some d.
Proof. unfold is_digit. destruct (digit_val c); split; try discriminate; eauto. intros [d E]. discriminate. Qed.
Lemma drop_digits s ds : digits 10 s ds -> exists p, plain p ds /\ forall b rest, drop_under b (s ++ rest) = option_map (append p) (drop_under true rest).
Proof.
  assert (First : forall c d b rest, digit_val c = Some d -> drop_under b (String c rest) = option_map (String c) (drop_under true rest)).
  { intros c d b rest D. cbn [drop_under]. assert (Ascii.eqb c "_" = false) as ->. { apply Ascii.eqb_neq. intros ->. discriminate. }
    unfold is_digit. now rewrite D. }
  assert (Comp : forall c p (o : option string), option_map (String c) (option_map (append p) o) = option_map (append (String c p)) o) by (intros c p [x|]; reflexivity).
  induction 1 as [c d D|c d s ds D H (p & P & IH)|c d s ds D H (p & P & IH)]; apply decimal_digit in D.
  - exists (String c ""). split; [now constructor|]. intros b rest. cbn [append]. rewrite (First c d) by exact D. destruct (drop_under true rest); reflexivity.
  - exists (String c p). split; [now constructor|]. intros b rest. cbn [append]. rewrite (First c d) by exact D. now rewrite IH, Comp.
  - exists (String c p). split; [now constructor|]. intros b rest. cbn [append]. rewrite (First c d) by exact D. transitivity (option_map (String c) (option_map (append p) (drop_under true rest))); [|apply Comp].
    rewrite <- (IH false rest). f_equal. cbn [drop_under].
    change (Ascii.eqb "_" "_") with true. cbv iota. destruct (digits_first _ _ _ H) as (e & r & d' & -> & De). cbn [append]. apply decimal_digit in De. unfold is_digit at 1. now rewrite De.
Qed.
Lemma drop_other c b s : c <> "_"%char -> digit_val c = None -> drop_under b (String c s) = option_map (String c) (drop_under false s).
Proof. intros U D. cbn [drop_under]. rewrite (proj2 (Ascii.eqb_neq c "_") U). unfold is_digit. now rewrite D. Qed.
(** What remains when underscores are removed determines the text up to underscores between digits. *)
Lemma drop_inv b t c w : drop_under b t = Some (String c w) -> exists u r, t = (u ++ String c r)%string /\ (u = "" \/ (b = true /\ u = "_" /\ is_digit c = true)) /\ drop_under (is_digit c) r = Some w.
Proof.
  assert (Other : forall b e r, Ascii.eqb e "_" = false -> drop_under b (String e r) = Some (String c w) -> e = c /\ drop_under (is_digit c) r = Some w).
  { intros b' e r E H. cbn [drop_under] in H. rewrite E in H. destruct (drop_under (is_digit e) r) as [x|] eqn:X; [|discriminate]. injection H as -> ->. auto. }
  destruct t as [|e r]; [discriminate|]. destruct (Ascii.eqb e "_") eqn:E.
  - cbn [drop_under]. rewrite E. apply Ascii.eqb_eq in E as ->. destruct b; [|discriminate]. cbn [andb]. destruct r as [|d r]; [discriminate|]. destruct (is_digit d) eqn:D; [|discriminate].
    intros H. apply Other in H as [-> H]; [exists "_", r; auto 10|]. apply Ascii.eqb_neq. intros ->. discriminate.
  - intros H. apply Other in H as [-> H]; [|exact E]. exists "", r. auto.
Qed.
Lemma drop_nil b t : drop_under b t = Some "" -> t = "".
Proof.
  destruct t as [|e r]; [reflexivity|]. cbn [drop_under]. destruct (Ascii.eqb e "_").
  - destruct b; [|discriminate]. destruct r as [|d r]; [discriminate|]. destruct (is_digit d) eqn:D; [|discriminate]. cbn [andb drop_under]. destruct (Ascii.eqb d "_") eqn:E.
    + apply Ascii.eqb_eq in E as ->. discriminate.
    + destruct (drop_under _ r); discriminate.
  - destruct (drop_under _ r); discriminate.
Qed.
Lemma drop_inv_other b t c w : digit_val c = None -> drop_under b t = Some (String c w) -> exists r, t = String c r /\ drop_under false r = Some w.
Proof.
  intros D H. apply drop_inv in H as (u & r & -> & U & H). unfold is_digit in *. rewrite D in *. destruct U as [->|(_ & _ & X)]; [|discriminate]. cbn. eauto.
Qed.
Lemma drop_inv_digits p ds : plain p ds -> forall b t rest, drop_under b t = Some (p ++ rest)%string -> exists u s t', t = (u ++ s ++ t')%string /\ (u = "" \/ (b = true /\ u = "_")) /\
  digits 10 s ds /\ drop_under true t' = Some rest.
Proof.
  induction 1 as [c d D|c d p ds D H IH]; intros b t rest E; cbn [append] in E; apply drop_inv in E as (u & r & -> & U & E); unfold is_digit in E, U; rewrite D in E, U; apply decimal_digit in D.
  - exists u, (String c ""), r. splits; [reflexivity|tauto|now constructor|exact E].
  - destruct (IH _ _ _ E) as (v & s & t' & -> & V & S & T). exists u, (String c (v ++ s)), t'. splits; [|tauto| |exact T].
    + f_equal. cbn [append]. now rewrite app_assoc_s.
    + destruct V as [->|[_ ->]]; [now constructor|now apply digits_underscore].
Qed.
Lemma drop_number p ds t rest : plain p ds -> drop_under false t = Some (p ++ rest)%string -> exists s t', t = (s ++ t')%string /\ digits 10 s ds /\ drop_under true t' = Some rest.
Proof. intros P E. destruct (drop_inv_digits p ds P _ _ _ E) as (u & s & t' & -> & [->|[X _]] & S & T); [|discriminate]. exists s, t'. auto. Qed.
Lemma expo_drop t x : expo (digits 10) t x -> exists u, (forall b, drop_under b t = Some u) /\ expo plain u x.
Proof.
  intros [|e neg sign s ds E Sg S]; [exists ""; split; [reflexivity|constructor]|]. destruct (drop_digits s ds S) as (p & P & Dr). exists (String e (sign ++ p)). split; [|now apply (expo_some plain e neg sign p)].
  assert (Sd : drop_under false (sign ++ s) = Some (sign ++ p)%string).
  { specialize (Dr false ""). rewrite str_app_nil_r in Dr. cbn [drop_under option_map] in Dr. rewrite str_app_nil_r in Dr.
    assert (Sg' : sign = "" \/ sign = "+" \/ sign = "-") by (destruct neg; tauto). destruct Sg' as [->|[->| ->]]; [exact Dr|cbn [append]; rewrite drop_other by (discriminate || reflexivity); now rewrite Dr ..]. }
  intros b. destruct E as [->| ->]; (rewrite drop_other by (discriminate || reflexivity)); now rewrite Sd.
Qed.
Lemma expo_undrop b t u x : drop_under b t = Some u -> expo plain u x -> expo (digits 10) t x.
Proof.
  intros H X. revert H. destruct X as [|e neg sign s ds E Sg S]; intros H; [apply drop_nil in H as ->; constructor|].
  destruct (drop_inv_other b t e (sign ++ s)%string) as (r & -> & H'); [destruct E as [->| ->]; reflexivity|exact H|].
  assert (Num : forall r, drop_under false r = Some s -> digits 10 r ds).
  { intros r' R. rewrite <- (str_app_nil_r s) in R. destruct (drop_number s ds r' "" S R) as (s' & t' & -> & D & T). apply drop_nil in T as ->. now rewrite str_app_nil_r. }
  assert (exists s', r = (sign ++ s')%string /\ digits 10 s' ds) as (s' & -> & D).
  { assert (Sg' : sign = "" \/ sign = "+" \/ sign = "-") by (destruct neg; tauto). destruct Sg' as [->|[->| ->]].
    - exists r. auto.
    - cbn [append] in H'. apply drop_inv_other in H' as (r' & -> & H'); [|reflexivity]. exists r'. auto.
    - cbn [append] in H'. apply drop_inv_other in H' as (r' & -> & H'); [|reflexivity]. exists r'. auto. }
  now apply (expo_some (digits 10) e neg sign s').
Qed.
Lemma mant_drop s ds fs : mant (digits 10) s ds fs -> exists p, mant plain p ds fs /\ forall t u, (forall b, drop_under b t = Some u) -> drop_under false (s ++ t) = Some (p ++ u)%string.
Proof.
  intros [q es Q|q es Q|q es r gs Q R|r gs R].
  - destruct (drop_digits q es Q) as (p & P & Dr). exists p. split; [now constructor|]. intros t u T. now rewrite Dr, T.
  - destruct (drop_digits q es Q) as (p & P & Dr). exists (p ++ ".")%string. split; [now constructor|]. intros t u T. rewrite !app_assoc_s, Dr. cbn [append].
    rewrite drop_other by (discriminate || reflexivity). now rewrite T.
  - destruct (drop_digits q es Q) as (p & P & Dr), (drop_digits r gs R) as (p' & P' & Dr'). exists (p ++ "." ++ p')%string. split; [now constructor|]. intros t u T. rewrite !app_assoc_s, Dr. cbn [append].
    rewrite drop_other by (discriminate || reflexivity). now rewrite Dr', T.
  - destruct (drop_digits r gs R) as (p' & P' & Dr'). exists ("." ++ p')%string. split; [now constructor|]. intros t u T. cbn [append].
    rewrite drop_other by (discriminate || reflexivity). now rewrite Dr', T.
Qed.
Lemma mant_undrop r s t ds fs x : drop_under false r = Some (s ++ t)%string -> mant plain s ds fs -> expo plain t x -> exists s' t', r = (s' ++ t')%string /\ mant (digits 10) s' ds fs /\ expo (digits 10) t' x.
Proof.
  intros H M E. destruct M as [q es Q|q es Q|q es q' gs Q R|q' gs R].
  - destruct (drop_number q es r t Q H) as (s' & t' & -> & D & T). exists s', t'. splits; [reflexivity|now constructor|exact (expo_undrop _ _ _ _ T E)].
  - rewrite app_assoc_s in H. destruct (drop_number q es r _ Q H) as (s' & t' & -> & D & T). apply drop_inv_other in T as (w & -> & T); [|reflexivity].
    exists (s' ++ ".")%string, w. splits; [now rewrite app_assoc_s|now constructor|exact (expo_undrop _ _ _ _ T E)].
  - rewrite !app_assoc_s in H. destruct (drop_number q es r _ Q H) as (s' & t' & -> & D & T). cbn [append] in T. apply drop_inv_other in T as (w & -> & T); [|reflexivity].
    destruct (drop_number q' gs w t R T) as (s'' & t'' & -> & D' & T'). exists (s' ++ "." ++ s'')%string, t''. splits; [now rewrite !app_assoc_s|now constructor|exact (expo_undrop _ _ _ _ T' E)].
  - cbn [append] in H. apply drop_inv_other in H as (w & -> & T); [|reflexivity]. destruct (drop_number q' gs w t R T) as (s'' & t'' & -> & D' & T').
    exists ("." ++ s'')%string, t''. splits; [reflexivity|now constructor|exact (expo_undrop _ _ _ _ T' E)].
Qed.
(** Texts without underscores. *)
Lemma plain_digits p ds : plain p ds -> digits 10 p ds.
Proof. induction 1; constructor; (assumption || now apply decimal_digit). Qed.
Lemma drop_plain p ds : plain p ds -> forall b rest, drop_under b (p ++ rest) = option_map (append p) (drop_under true rest).
Proof.
  induction 1 as [c d D|c d s ds D H IH]; intros b rest; cbn [append drop_under].
  - assert (Ascii.eqb c "_" = false) as ->. { apply Ascii.eqb_neq. intros ->. discriminate. } unfold is_digit. rewrite D. destruct (drop_under true rest); reflexivity.
  - assert (Ascii.eqb c "_" = false) as ->. { apply Ascii.eqb_neq. intros ->. discriminate. } unfold is_digit. rewrite D, IH. destruct (drop_under true rest); reflexivity.
Qed.
Fixpoint without_underscore (s : string) : Prop := match s with "" => True | String c r => c <> "_"%char /\ without_underscore r end.
Lemma drop_without s : without_underscore s -> forall b, drop_under b s = Some s.
Proof. induction s as [|c s IH]; [reflexivity|]. intros [N W] b. cbn [drop_under]. rewrite (proj2 (Ascii.eqb_neq c "_") N), IH by exact W. reflexivity. Qed.
Lemma without_app a b : without_underscore a -> without_underscore b -> without_underscore (a ++ b).
Proof. induction a as [|c a IH]; cbn; [auto|]. intros [N A] B. auto. Qed.
Lemma without_plain p ds : plain p ds -> without_underscore p.
Proof. induction 1 as [c d D|c d s ds D H IH]; cbn; (split; [intros ->; discriminate|]); auto. Qed.
Lemma without_word w : letters w -> forall s, in_any_case s w -> without_underscore s.
Proof.
  induction w as [|d w IH]; intros L [|c s]; cbn; try contradiction; auto. destruct L as [R L]. intros [E I]. split; [|now apply (IH L)].
  intros ->. destruct E as [E|E]; [rewrite <- E in R|rewrite <- E in R]; cbv in R; destruct R as [R1 R2]; now (apply R1 || apply R2).
Qed.
Lemma without_unsigned neg r f : unsigned neg r = Some f -> without_underscore r.
Proof.
  rewrite unsigned_iff. intros [[[W|W] _]|[[W _]|(s & t & ds & fs & x & -> & M & E & _)]].
  - now apply (without_word "inf" ltac:(cbn; lia)).
  - now apply (without_word "infinity" ltac:(cbn; lia)).
  - now apply (without_word "nan" ltac:(cbn; lia)).
  - apply without_app.
    + assert (Pt : without_underscore ".") by (split; [discriminate|exact I]).
      destruct M as [q es Q|q es Q|q es q' gs Q R|q' gs R]; repeat (apply without_app; [|]); first [exact Pt|eapply without_plain; eassumption].
    + destruct E as [|e b sign q es [->| ->] Sg Q]; cbn; auto; (split; [discriminate|]); (apply without_app; [destruct b; [subst sign|destruct Sg as [->| ->]]; cbn; auto; split; try discriminate; exact I|now apply without_plain in Q]).
Qed.
Fixpoint no_digits (s : string) : Prop := match s with "" => True | String c r => digit_val c = None /\ no_digits r end.
Lemma drop_no_digits u : no_digits u -> forall b t, drop_under b t = Some u -> t = u.
Proof.
  induction u as [|c u IH]; intros N b t H; [now apply drop_nil in H|]. destruct N as [D N]. apply drop_inv_other in H as (r & -> & H); [|exact D]. now rewrite (IH N _ _ H).
Qed.
Lemma word_no_digits w : letters w -> forall s, in_any_case s w -> no_digits s.
Proof.
  induction w as [|d w IH]; intros L [|c s]; cbn [in_any_case no_digits]; try contradiction; auto. destruct L as [R L]. intros [E I]. split; [|now apply (IH L)].
  assert (65 <= N_of_ascii c)%N by (destruct E as [->|E]; lia). unfold digit_val. cbv zeta. rewrite (proj2 (N.leb_gt (N_of_ascii c) 57)) by lia. apply andb_false_r || now rewrite andb_false_r.
Qed.

(** ** Floats *)
Definition unsigned_any (neg : bool) (r : string) : option pyfloat :=
  match unsigned neg r with
  | Some f => Some f
  | None => match drop_under false r with Some u => unsigned neg u | None => None end
  end.
Lemma unsigned_any_iff neg r f : unsigned_any neg r = Some f <-> unsigned_float neg r f.
Proof.
  assert (U : unsigned_any neg r = Some f <-> exists u, drop_under false r = Some u /\ unsigned neg u = Some f).
  { unfold unsigned_any. destruct (unsigned neg r) as [g|] eqn:E.
    - pose proof (drop_without r (without_unsigned _ _ _ E) false) as Dr. split.
      + intros H. injection H as ->. eauto.
      + intros (u & H & F). rewrite Dr in H. injection H as <-. congruence.
    - destruct (drop_under false r) as [u|]; split; try discriminate; eauto.
      + intros (u' & H & F). now injection H as <-.
      + intros (u' & H & F). discriminate. }
  rewrite U. clear U. split.
  - intros (u & H & F). apply unsigned_iff in F as [[W ->]|[[W ->]|(s & t & ds & fs & x & -> & M & E & ->)]].
    + assert (N : no_digits u) by (destruct W as [W|W]; [now apply (word_no_digits "inf" ltac:(cbn; lia))|now apply (word_no_digits "infinity" ltac:(cbn; lia))]).
      rewrite (drop_no_digits u N _ _ H). now constructor.
    + rewrite (drop_no_digits u (word_no_digits "nan" ltac:(cbn; lia) u W) _ _ H). now constructor.
    + destruct (mant_undrop r s t ds fs x H M E) as (s' & t' & -> & M' & E'). apply mant_iff in M'. apply expo_iff in E'. apply (unsigned_number neg s' t' ds fs x); [assumption ..|]. now apply canon_iff.
  - intros [s W|s W|s t ds fs x g M E F].
    + exists s. split; [|apply unsigned_iff; auto]. apply drop_without. destruct W as [W|W]; [now apply (without_word "inf" ltac:(cbn; lia))|now apply (without_word "infinity" ltac:(cbn; lia))].
    + exists s. split; [|apply unsigned_iff; auto]. apply drop_without. now apply (without_word "nan" ltac:(cbn; lia)).
    + apply mant_iff in M. apply expo_iff in E. destruct (mant_drop s ds fs M) as (p & P & Dr), (expo_drop t x E) as (u & Du & E'). exists (p ++ u)%string. split; [now apply Dr|].
      apply unsigned_iff. right; right. exists p, u, ds, fs, x. apply canon_iff in F. auto.
Qed.
Lemma float_of_eq s : float_of s = let (neg, r) := take_sign (strip s) in unsigned_any neg r.
Proof.
  unfold float_of. cbv zeta. rewrite plain_float_eq. unfold unsigned_any. destruct (strip s) as [|c t]; [reflexivity|]. cbn [take_sign]. destruct (Ascii.eqb c "-") eqn:M.
  - apply Ascii.eqb_eq in M as ->. destruct (unsigned true t); [reflexivity|]. rewrite drop_other by (discriminate || reflexivity). destruct (drop_under false t); reflexivity.
  - destruct (Ascii.eqb c "+") eqn:P.
    + apply Ascii.eqb_eq in P as ->. destruct (unsigned false t); [reflexivity|]. rewrite drop_other by (discriminate || reflexivity). destruct (drop_under false t); reflexivity.
    + destruct (unsigned false (String c t)); [reflexivity|]. destruct (drop_under false (String c t)) as [u|] eqn:Dr; [|reflexivity]. rewrite plain_float_eq.
      destruct u as [|d u]; [reflexivity|]. apply drop_inv in Dr as (v & r & E & [->|(X & _)] & _); [|discriminate]. cbn [append] in E. injection E as <- _. cbn [take_sign]. now rewrite M, P.
Qed.
Lemma word_edges w : letters w -> w <> "" -> forall s, in_any_case s w -> edges s.
Proof.
  assert (C : forall c d, (97 <= N_of_ascii d <= 122)%N -> c = d \/ (N_of_ascii c + 32 = N_of_ascii d)%N -> ~ white c /\ c <> "-"%char /\ c <> "+"%char).
  { intros c d R E. assert (L : (65 <= N_of_ascii c)%N) by (destruct E as [->|E]; lia). splits.
    - intros I. unfold white in I. cbn in I. lia.
    - intros ->. now apply L.
    - intros ->. now apply L. }
  intros L NE s I. split.
  - destruct w as [|d w]; [congruence|]. destruct s as [|c s]; [destruct I|]. destruct L as [R _], I as [E _]. exists c, s. destruct (C c d R E) as (W & M & P). auto.
  - assert (A : forall w, letters w -> forall s, in_any_case s w -> s = "" \/ exists p c, s = (p ++ String c "")%string /\ ~ white c).
    { clear - C. induction w as [|d w IH]; intros L [|c s]; cbn [in_any_case]; try contradiction; auto. destruct L as [R L]. intros [E I]. right. destruct (IH L s I) as [->|(p & e & -> & W)].
      - exists "", c. split; [reflexivity|]. now apply (C c d).
      - exists (String c p), e. auto. }
    destruct (A w L s I) as [->|H]; [|exact H]. destruct w; [congruence|destruct I].
Qed.
Lemma point_not_white : ~ white ".".
Proof. exact (proj1 (not_white_iff "."%char) eq_refl). Qed.
Lemma unsigned_edges neg text f : unsigned_float neg text f -> edges text.
Proof.
  intros [s W|s W|s t ds fs x g M E F].
  - destruct W as [W|W]; [now apply (word_edges "inf" ltac:(cbn; lia) ltac:(discriminate))|now apply (word_edges "infinity" ltac:(cbn; lia) ltac:(discriminate))].
  - now apply (word_edges "nan" ltac:(cbn; lia) ltac:(discriminate)).
  - assert (Em : edges s).
    { destruct M as [q es Q|q es Q|q es q' gs Q R|q' gs R].
      - now apply digits_edges in Q.
      - apply digits_edges in Q as ((c & r & -> & W) & _). split; [exists c, (r ++ ".")%string; auto|]. exists (String c r), "."%char. split; [reflexivity|exact point_not_white].
      - apply digits_edges in Q as ((c & r & -> & W) & _). apply digits_edges in R as (_ & p & d & -> & W'). split; [exists c, (r ++ "." ++ p ++ String d "")%string; auto|].
        exists (String c r ++ "." ++ p)%string, d. rewrite !app_assoc_s. auto.
      - apply digits_edges in R as (_ & p & d & -> & W'). split; [exists "."%char, (p ++ String d "")%string; splits; [reflexivity|exact point_not_white|discriminate ..]|]. exists (String "." p), d. auto. }
    destruct E as [|e sign q n _ Sg (es & Q & _)|e q n _ (es & Q & _)]; [now rewrite str_app_nil_r|..]; apply digits_last in Q as (p & d & -> & W); (split; [destruct Em as ((c & r & -> & H) & _)|]).
    + exists c, (r ++ String e (sign ++ p ++ String d ""))%string. auto.
    + exists (s ++ String e (sign ++ p))%string, d. cbn. rewrite !app_assoc_s. cbn. now rewrite !app_assoc_s.
    + exists c, (r ++ String e ("-" ++ p ++ String d ""))%string. auto.
    + exists (s ++ String e ("-" ++ p))%string, d. rewrite !app_assoc_s. cbn. auto.
Qed.
Theorem float_of_iff s f : float_of s = Some f <-> float_text s f.
Proof.
  rewrite float_of_eq, (signed_iff unsigned_any unsigned_float unsigned_any_iff unsigned_edges). split.
  - intros (a & sign & neg & r & b & -> & A & B & Sg & H). destruct neg; [subst sign; now apply float_negative|now apply float_positive].
  - intros [a sign r g b A B Sg H|a r g b A B H].
    + exists a, sign, false, r, b. auto.
    + exists a, "-", true, r, b. auto.
Qed.
