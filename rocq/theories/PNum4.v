(** Proofs about the scientific format and value tables. *)
From Coq Require Import QArith Qpower Qfield Lqa.
From Verif Require Import Base PBase MNames PNames MNum SNum PNum PNum2 PNum3.
Open Scope Z_scope.

Lemma str_take_all n s : (String.length s <= n)%nat -> str_take n s = s.
Proof. revert s; induction n as [|n IH]; intros [|c s] L; cbn in *; auto; [lia|]. now rewrite IH by lia. Qed.

Lemma str_take_app n a b : (String.length a <= n)%nat ->
  str_take n (a ++ b)%string = (a ++ str_take (n - String.length a) b)%string.
Proof.
  revert a; induction n as [|n IH]; intros [|c a] L; cbn in *; auto; [lia|]. now rewrite IH by lia.
Qed.

Lemma str_take_zeros n m : (n <= m)%nat -> str_take n (zeros m) = zeros n.
Proof. revert m; induction n as [|n IH]; intros [|m] L; cbn; auto; [lia|]. now rewrite IH by lia. Qed.

Lemma digits_prefix_zeros_acc n acc : digits_prefix (zeros n) acc = (acc * 10 ^ N.of_nat n)%N.
Proof.
  revert acc; induction n as [|n IH]; intros acc; cbn -[N.of_nat N.pow N.mul N.add]; [rewrite N.pow_0_r; lia|].
  change (digit_val "0") with (Some 0%N). cbv iota. rewrite IH, Nat2N.inj_succ, N.pow_succ_r'. lia.
Qed.

Definition sci_ex (x : Z) : string :=
  ("e" ++ (if (x <? 0)%Z then "-" else "+") ++ (if (Z.abs x <? 10)%Z then "0" else "") ++ dec (Z.to_N (Z.abs x)))%string.

Lemma sci_exponent x : exponent (sci_ex x) = Some x /\ nows (sci_ex x) = true.
Proof.
  unfold sci_ex. set (ds := ((if (Z.abs x <? 10)%Z then "0" else "") ++ dec (Z.to_N (Z.abs x)))%string).
  assert (A : alld ds = true).
  { unfold ds. rewrite alld_app, alld_dec. now destruct (Z.abs x <? 10). }
  assert (V : digits_prefix ds 0 = Z.to_N (Z.abs x)).
  { unfold ds. rewrite digits_prefix_app by now destruct (Z.abs x <? 10).
    destruct (Z.abs x <? 10); cbn [digits_prefix]; apply digits_prefix_dec. }
  assert (L : String.length ds <> O).
  { unfold ds. rewrite str_length_app. pose proof (dec_len_pos (Z.to_N (Z.abs x))). lia. }
  split.
  - cbn [append exponent]. change (Ascii.eqb (lower_char "e") "e") with true. cbv iota.
    destruct (x <? 0) eqn:E; cbn [append take_sign].
    + change (Ascii.eqb "-" "-") with true. cbv iota. rewrite take_digits_all, V by auto.
      cbn [Nat.add]. destruct (String.length ds); [congruence|]. cbn. f_equal. lia.
    + change (Ascii.eqb "+" "-") with false. change (Ascii.eqb "+" "+") with true. cbv iota. rewrite take_digits_all, V by auto.
      cbn [Nat.add]. destruct (String.length ds); [congruence|]. cbn. f_equal. lia.
  - rewrite !nows_app, (alld_nows _ A). now destruct (x <? 0).
Qed.

(** Like [float_frac] with a lower case exponent. *)
Lemma float_frac_e (neg : bool) ip fp x :
  alld ip = true -> ip <> "" -> alld fp = true ->
  float_of ((if neg then "-" else "") ++ ip ++ "." ++ fp ++ sci_ex x)%string =
  Some (canon neg (digits_prefix fp (digits_prefix ip 0)) (x - Z.of_nat (String.length fp))).
Proof.
  intros A N B. destruct (sci_exponent x) as (X & W). apply float_strip.
  { rewrite nows_sign, nows_app, (alld_nows _ A). cbn [nows append]. rewrite nows_app, (alld_nows _ B). exact W. }
  unfold plain_float. rewrite take_sign_text by auto.
  rewrite !lower_ne; auto; try discriminate; try (intros c s [= <- _]; reflexivity).
  cbn [orb]. rewrite take_digits_app by auto. cbn [append take_digits].
  change (digit_val ".") with (@None BinNums.N). cbv iota.
  rewrite take_digits_app by auto.
  assert (T : take_digits (sci_ex x) (digits_prefix fp (digits_prefix ip 0)) (0 + String.length fp)
              = (digits_prefix fp (digits_prefix ip 0), String.length fp, sci_ex x)) by reflexivity.
  rewrite T. destruct ip as [|c ip]; [congruence|]. cbn [String.length Nat.add Nat.eqb]. now rewrite X.
Qed.

Lemma sci_str_eq neg c e : sci_str neg c e =
  let (q, k) := round7 c in
  ((if neg then "-" else "") ++ str_take 1 (dec q) ++ "." ++ str_take 6 (str_drop 1 (dec q) ++ zeros 6)
   ++ sci_ex (if N.eqb q 0 then 0 else e + k + ndig q - 1)%Z)%string.
Proof. unfold sci_str, sci_ex. destruct (round7 c) as [q k]. reflexivity. Qed.

Lemma sci_short neg c e : (c < 10 ^ 7)%N ->
  exists q, option_map (fun f => meaning (NFloat f)) (float_of (sci_str neg c e)) = Some (Fin q) /\ (q == qv neg c e)%Q.
Proof.
  intros C. rewrite sci_str_eq. unfold round7.
  assert (ND : ndig c <= 7) by (apply ndig_le; [lia|exact C]).
  replace (ndig c - 7 <=? 0) with true by (symmetry; apply Z.leb_le; lia).
  set (x := (if N.eqb c 0 then 0 else _)%Z).
  pose proof (dec_len_pos c) as LP. unfold ndig in ND.
  set (len := String.length (dec c)) in *.
  assert (DL : String.length (str_drop 1 (dec c)) = (len - 1)%nat) by apply drop_len.
  assert (FP : str_take 6 (str_drop 1 (dec c) ++ zeros 6)%string = (str_drop 1 (dec c) ++ zeros (7 - len))%string).
  { rewrite str_take_app by lia. rewrite DL. f_equal. rewrite str_take_zeros by lia. f_equal. lia. }
  rewrite FP.
  rewrite float_frac_e; auto using alld_take, alld_dec.
  2:{ destruct (dec_head c) as (y & r & v & -> & _). discriminate. }
  2:{ rewrite alld_app, alld_zeros, (alld_drop _ _ (alld_dec c)). reflexivity. }
  rewrite digits_prefix_app by (apply alld_drop, alld_dec).
  rewrite <- (digits_prefix_app (str_take 1 (dec c)) (str_drop 1 (dec c)) 0) by (apply alld_take, alld_dec). rewrite take_drop, digits_prefix_dec.
  rewrite digits_prefix_zeros_acc, str_length_app, zeros_len, DL.
  cbn [option_map]. destruct (canon_meaning neg (c * 10 ^ N.of_nat (7 - len)) (x - Z.of_nat (len - 1 + (7 - len)))) as (q & M & Q).
  exists q. rewrite M. split; auto. rewrite Q.
  destruct (N.eqb c 0) eqn:Z0.
  - apply N.eqb_eq in Z0. subst c. now rewrite N.mul_0_l, !qv_zero.
  - replace (N.of_nat (7 - len)) with (Z.to_N (Z.of_nat (7 - len))) by lia. rewrite qv_shift by lia.
    unfold x. replace (e + 0 + ndig c - 1 - Z.of_nat (len - 1 + (7 - len)) + Z.of_nat (7 - len)) with e; [reflexivity|].
    unfold ndig. fold len. lia.
Qed.

Lemma int0_none_mem s c :
  nows s = true -> mem_char c (snd (take_sign s)) = true -> c <> "_"%char -> c <> "0"%char ->
  c <> "x"%char -> c <> "X"%char -> c <> "o"%char -> c <> "O"%char -> c <> "b"%char -> c <> "B"%char ->
  xdigit c = None -> int0 s = None.
Proof.
  intros W M U Z0 Hx HX Ho HO Hb HB X. unfold int0. rewrite strip_nows by auto. destruct (take_sign s) as [neg r]. cbn [snd] in M.
  assert (D : forall b t, mem_char c t = true -> digits_in b t false 0 = None).
  { intros b t Mt. destruct (digits_in b t false 0) eqn:E; [|reflexivity].
    destruct (digits_in_alld b t false 0 ltac:(congruence) c Mt) as [->|(d & Dg & L)]; congruence. }
  assert (SK : forall t, mem_char c t = true -> mem_char c (skip_under t) = true).
  { intros [|y t]; cbn; auto. destruct (Ascii.eqb y "_") eqn:E; auto. intros H. apply orb_prop in H as [H|H]; auto.
    apply Ascii.eqb_eq in H, E. congruence. }
  destruct r as [|y r]; [discriminate|]. destruct r as [|y2 r].
  { destruct y as [[] [] [] [] [] [] [] []]; rewrite D; auto. }
  assert (M2 : mem_char c r = true \/ y = c \/ y2 = c).
  { cbn in M. apply orb_prop in M as [M|M]; [apply Ascii.eqb_eq in M; auto|].
    apply orb_prop in M as [M|M]; [apply Ascii.eqb_eq in M; auto|auto]. }
  assert (P : y = "0"%char -> (if Ascii.eqb y2 "x" || Ascii.eqb y2 "X" then digits_in 16 (skip_under r) false 0
        else if Ascii.eqb y2 "o" || Ascii.eqb y2 "O" then digits_in 8 (skip_under r) false 0
        else if Ascii.eqb y2 "b" || Ascii.eqb y2 "B" then digits_in 2 (skip_under r) false 0
        else match digits_in 10 (String y (String y2 r)) false 0 with
             | Some n => if N.eqb n 0 then Some n else None
             | None => None
             end) = None).
  { intros Hy. assert (M3 : Ascii.eqb y2 c = false -> mem_char c r = true).
    { intros F. apply Ascii.eqb_neq in F. destruct M2 as [?|[?|?]]; congruence. }
    rewrite (D 10%N _ M).
    destruct (Ascii.eqb y2 "x" || Ascii.eqb y2 "X") eqn:E1.
    { apply D, SK, M3. apply Ascii.eqb_neq. intros ->. apply orb_prop in E1 as [E|E]; apply Ascii.eqb_eq in E; congruence. }
    destruct (Ascii.eqb y2 "o" || Ascii.eqb y2 "O") eqn:E2.
    { apply D, SK, M3. apply Ascii.eqb_neq. intros ->. apply orb_prop in E2 as [E|E]; apply Ascii.eqb_eq in E; congruence. }
    destruct (Ascii.eqb y2 "b" || Ascii.eqb y2 "B") eqn:E3; auto.
    apply D, SK, M3. apply Ascii.eqb_neq. intros ->. apply orb_prop in E3 as [E|E]; apply Ascii.eqb_eq in E; congruence. }
  destruct y as [[] [] [] [] [] [] [] []]; try (rewrite (D 10%N _ M); reflexivity). now rewrite (P eq_refl).
Qed.

(** Reading the text of a decimal with base detection gives the same number. *)
Lemma dec_str_nv d : nv_validate (AText (dec_str d)) = read_number (dec_str d).
Proof.
  rewrite dec_str_read. unfold nv_validate. rewrite dec_str_float. destruct d as [neg c e]. cbn [d_neg d_coef d_exp].
  pose proof (dec_len_pos c) as LP. unfold dec_str. cbn [d_neg d_coef d_exp]. cbv zeta.
  set (len := ndig c). assert (L : len = Z.of_nat (String.length (dec c))) by reflexivity.
  destruct (e =? 0) eqn:E0.
  - apply Z.eqb_eq in E0. subst e. replace ((0 <=? 0) && (-6 <? 0 + len)) with true by (symmetry; apply Z.ltb_lt; lia).
    replace (0 + len) with len by lia. replace (len <=? 0) with false by (symmetry; apply Z.leb_gt; lia).
    rewrite Z.leb_refl, Z.sub_diag, Z.eqb_refl. cbn [Z.to_nat zeros]. rewrite !str_app_nil_r. now rewrite int0_dec.
  - apply Z.eqb_neq in E0.
    set (dp := if (e <=? 0) && (-6 <? e + len) then e + len else 1).
    set (ex := if e + len =? dp then "" else _).
    assert (X : ex_ok ex (e + len - dp)).
    { unfold ex. destruct (e + len =? dp) eqn:E.
      - apply Z.eqb_eq in E. rewrite E, Z.sub_diag. apply ex_nil.
      - apply ex_str. }
    destruct X as (_ & W & _).
    destruct (dp <=? 0) eqn:D0.
    + apply Z.leb_le in D0. change ("0." ++ zeros (Z.to_nat (- dp)) ++ dec c)%string with ("0" ++ "." ++ zeros (Z.to_nat (- dp)) ++ dec c)%string.
      rewrite !str_app_assoc, (int0_none_mem _ "."%char); auto; try discriminate.
      * rewrite nows_sign, !nows_app, W, (alld_nows _ (alld_zeros _)), (alld_nows _ (alld_dec c)). reflexivity.
      * apply mem_text; auto; discriminate.
    + apply Z.leb_gt in D0. destruct (len <=? dp) eqn:D1.
      * apply Z.leb_le in D1. 
        assert (dp = 1 /\ len = 1).
        { unfold dp in *. destruct ((e <=? 0) && (-6 <? e + len)) eqn:B; [|lia]. apply andb_prop in B as [B _]. lia. }
        destruct H as [-> H1]. rewrite H1. rewrite Z.sub_diag. cbn [Z.to_nat zeros]. rewrite str_app_nil_r.
        assert (EX : ex = expo_str (e + 1 - 1)).
        { unfold ex. rewrite H1. destruct (e + 1 =? 1) eqn:Q; [apply Z.eqb_eq in Q; lia|reflexivity]. }
        rewrite EX in *. clear EX.
        destruct (dec c) as [|y [|y2 r]] eqn:DC; [now apply dec_ne in DC| |cbn in L; lia].
        destruct (dec_head c) as (y' & r' & v & DC' & DV). rewrite DC in DC'. injection DC' as <- <-.
        unfold int0. rewrite strip_nows.
        2:{ rewrite nows_sign. cbn [append nows]. rewrite (digit_nows _ _ DV). exact W. }
        rewrite (take_sign_text neg (String y "")); [|cbn; rewrite DV; reflexivity|discriminate].
        cbn [append]. set (ez := expo_str (e + 1 - 1)) in *.
        assert (EE : exists r, ez = String "E"%char r) by (unfold ez, expo_str; cbn [append]; eauto).
        destruct EE as (r & EE). rewrite EE.
        assert (DN : digits_in 10 (String y (String "E" r)) false 0 = None).
        { destruct (digits_in 10 (String y (String "E" r)) false 0) eqn:Q; [|reflexivity].
          destruct (digits_in_alld 10 (String y (String "E" r)) false 0 ltac:(congruence) "E"%char) as [C|(dd & DD & LL)];
            [cbn; now rewrite orb_true_r|discriminate|]. injection DD as <-. lia. }
        destruct y as [[] [] [] [] [] [] [] []]; rewrite DN; reflexivity.
      * apply Z.leb_gt in D1. rewrite !str_app_assoc.
        rewrite (int0_none_mem _ "."%char); auto; try discriminate.
        -- rewrite nows_sign, !nows_app, W. rewrite (alld_nows _ (alld_take _ _ (alld_dec c))), (alld_nows _ (alld_drop _ _ (alld_dec c))). reflexivity.
        -- apply mem_text; auto using alld_take, alld_dec.
           destruct (Z.to_nat dp) eqn:Q; [lia|]. destruct (dec_head c) as (y & r & v & -> & _). discriminate.
Qed.

(** ** Value tables *)
Lemma table_scales_length al i l s : table_scales al i l = Ok s -> List.length s = List.length l.
Proof.
  revert i s; induction l as [|t l IH]; cbn; intros i s E; [now injection E as <-|].
  destruct (match t with TText s => _ | _ => _ end) as [[[lo up] v]|]; cbn in E; [|discriminate].
  destruct (table_scales al (i + 1) l) eqn:R; cbn in E; [|discriminate]. injection E as <-. cbn. f_equal. eauto.
Qed.

Lemma alld_mem y s : digit_val y = None -> alld s = true -> mem_char y s = false.
Proof.
  intros Y. induction s as [|q s IH]; cbn; auto. destruct (digit_val q) eqn:Q; [|discriminate]. intros A.
  destruct (Ascii.eqb_spec q y) as [->|]; [congruence|]. now apply IH.
Qed.

Lemma dec_str_mem y d : digit_val y = None -> y <> "-"%char -> y <> "+"%char -> y <> "."%char -> y <> "E"%char ->
  mem_char y (dec_str d) = false.
Proof.
  intros Y A B C D. destruct d as [ng cc ee]. unfold dec_str. cbn [d_neg d_coef d_exp]. cbv zeta.
  assert (X : forall z s, y <> z -> mem_char y (String z s) = mem_char y s).
  { intros z s H. cbn. destruct (Ascii.eqb_spec z y); [congruence|reflexivity]. }
  rewrite !mem_char_app. assert (M1 : mem_char y (if ng then "-" else "") = false) by (destruct ng; [now rewrite X|reflexivity]).
  rewrite M1. cbn [orb]. apply orb_false_iff. split.
  - destruct (_ <=? 0); [|destruct (ndig cc <=? _)].
    + cbn [append]. rewrite X by (intros ->; discriminate). rewrite X by auto.
      rewrite mem_char_app, !alld_mem; auto using alld_zeros, alld_dec.
    + rewrite mem_char_app, !alld_mem; auto using alld_zeros, alld_dec.
    + rewrite mem_char_app. cbn [append]. rewrite X by auto. rewrite !alld_mem; auto using alld_take, alld_drop, alld_dec.
  - destruct (_ =? _); [reflexivity|]. cbn [append]. rewrite X by auto.
    destruct (_ <? 0); cbn [append]; rewrite X by auto; apply alld_mem; auto using alld_dec.
Qed.
