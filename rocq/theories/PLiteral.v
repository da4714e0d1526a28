(** Proofs about which texts are numbers. *)
From Coq Require Import QArith Qpower.
From Verif Require Import Base PBase MNames MNum SNum PNum PNum2 SLiteral.
Open Scope list_scope.

(** ** Characters *)
Lemma white_iff c : is_ws c = true <-> white c.
Proof.
  assert (E : is_ws c = existsb (N.eqb (N_of_ascii c)) [9; 10; 11; 12; 13; 28; 29; 30; 31; 32]%N) by (destruct c as [[] [] [] [] [] [] [] []]; reflexivity).
  rewrite E, existsb_exists. unfold white. split.
  - intros (x & I & X). apply N.eqb_eq in X. now rewrite X.
  - intros I. exists (N_of_ascii c). split; [exact I|apply N.eqb_refl].
Qed.
Lemma not_white_iff c : is_ws c = false <-> ~ white c.
Proof. rewrite <- white_iff. destruct (is_ws c); split; congruence. Qed.
Lemma digit_iff b c d : digit b c d <-> xdigit c = Some d /\ (d <? b)%N = true.
Proof.
  unfold digit. rewrite N.ltb_lt. apply and_iff_compat_r. split.
  - intros I. repeat (destruct I as [I|I]; [injection I as <- <-; reflexivity|]). destruct I.
  - destruct c as [[] [] [] [] [] [] [] []]; intros E; try discriminate E; injection E as <-; cbv; tauto.
Qed.
Lemma digit_edges b c d : digit b c d -> ~ white c /\ c <> "_"%char /\ c <> "-"%char /\ c <> "+"%char /\ c <> "."%char.
Proof. rewrite <- not_white_iff. intros [I _]. repeat (destruct I as [I|I]; [injection I as <- _; repeat split; discriminate|]). destruct I. Qed.
Lemma decimal_digit c d : digit 10 c d <-> digit_val c = Some d.
Proof.
  assert (E : digit_val c = match xdigit c with Some d => if (d <? 10)%N then Some d else None | None => None end) by (destruct c as [[] [] [] [] [] [] [] []]; reflexivity).
  rewrite digit_iff, E. destruct (xdigit c) as [e|]; [|split; [intros [X _]; discriminate|discriminate]]. destruct (e <? 10)%N eqn:L; split.
  - intros [X _]. exact X.
  - intros X. injection X as <-. auto.
  - intros [X Y]. injection X as ->. congruence.
  - discriminate.
Qed.

(** ** Blanks around *)
Lemma app_assoc_s (a b c : string) : ((a ++ b) ++ c = a ++ b ++ c)%string.
Proof. induction a; cbn; congruence. Qed.
Lemma lstrip_form s : exists a, s = (a ++ lstrip s)%string /\ blank a /\ no_leading_blank (lstrip s).
Proof.
  induction s as [|c s (a & E & B & N)]; cbn [lstrip]; [exists ""; cbn; auto|]. destruct (is_ws c) eqn:W.
  - exists (String c a). cbn [append blank]. rewrite <- E. apply white_iff in W. auto.
  - exists "". cbn. apply not_white_iff in W. auto.
Qed.
Lemma lstrip_skip a t : blank a -> no_leading_blank t -> lstrip (a ++ t) = t.
Proof.
  intros B N. induction a as [|c a IH]; cbn [append lstrip].
  - destruct t as [|c t]; [reflexivity|]. cbn in N |- *. apply not_white_iff in N. now rewrite N.
  - destruct B as [W B]. apply white_iff in W. rewrite W. auto.
Qed.
Lemma rstrip_split s : exists b, s = (rstrip s ++ b)%string /\ blank b.
Proof.
  induction s as [|c s (b & E & B)]; [exists ""; cbn; auto|]. cbn [rstrip]. destruct (rstrip s) as [|c' r] eqn:R.
  - destruct (is_ws c) eqn:W.
    + exists (String c s). split; [reflexivity|]. cbn. split; [now apply white_iff|]. rewrite E. exact B.
    + exists b. split; [rewrite E at 1; reflexivity|exact B].
  - exists b. split; [rewrite E at 1; reflexivity|exact B].
Qed.
Lemma rstrip_blank b : blank b -> rstrip b = "".
Proof. induction b as [|c b IH]; [reflexivity|]. intros [W B]. apply white_iff in W. cbn [rstrip]. now rewrite (IH B), W. Qed.
Lemma rstrip_app c b : ~ white c -> blank b -> forall s, rstrip ((s ++ String c "") ++ b) = (s ++ String c "")%string.
Proof.
  intros W B. apply not_white_iff in W. induction s as [|d s IH].
  - cbn [append rstrip]. now rewrite (rstrip_blank b B), W.
  - cbn [append rstrip]. rewrite IH. destruct s; reflexivity.
Qed.
(** No blank at either end, no sign in front. *)
Definition edges (s : string) : Prop :=
  (exists c r, s = String c r /\ ~ white c /\ c <> "-"%char /\ c <> "+"%char) /\ (exists p c, s = (p ++ String c "")%string /\ ~ white c).
Lemma strip_around a sign s b : blank a -> blank b -> sign = "" \/ sign = "+" \/ sign = "-" -> edges s -> strip (a ++ sign ++ s ++ b) = (sign ++ s)%string.
Proof.
  intros Ba Bb Sg ((c & r & E & W & _) & (p & d & E' & W')). unfold strip. rewrite lstrip_skip; [|exact Ba|].
  2: { destruct Sg as [->|[->| ->]]; [rewrite E; exact W|exact (proj1 (not_white_iff "+"%char) eq_refl)|exact (proj1 (not_white_iff "-"%char) eq_refl)]. }
  rewrite E', <- app_assoc_s, <- (app_assoc_s sign p). now apply rstrip_app.
Qed.
Section Signed.
Context {X : Type} (g : bool -> string -> option X) (L : bool -> string -> X -> Prop).
Context (G : forall neg r x, g neg r = Some x <-> L neg r x) (Edges : forall neg r x, L neg r x -> edges r).
Lemma signed_iff s x : (let (neg, r) := take_sign (strip s) in g neg r) = Some x <->
  exists a sign neg r b, s = (a ++ sign ++ r ++ b)%string /\ blank a /\ blank b /\ (if neg : bool then sign = "-" else sign = "" \/ sign = "+") /\ L neg r x.
Proof.
  split.
  - unfold strip. destruct (lstrip_form s) as (a & Ea & Ba & _), (rstrip_split (lstrip s)) as (b & Eb & Bb). destruct (rstrip (lstrip s)) as [|c r] eqn:R; cbn [take_sign].
    + intros H. apply G in H. exists a, "", false, "", b. cbn [append] in *. (split; [rewrite <- Eb; exact Ea|auto 10]).
    + destruct (Ascii.eqb c "-") eqn:M.
      * apply Ascii.eqb_eq in M as ->. intros H. apply G in H. exists a, "-", true, r, b. cbn [append] in *. (split; [rewrite <- Eb; exact Ea|auto 10]).
      * destruct (Ascii.eqb c "+") eqn:P; intros H; apply G in H.
        -- apply Ascii.eqb_eq in P as ->. exists a, "+", false, r, b. cbn [append] in *. (split; [rewrite <- Eb; exact Ea|auto 10]).
        -- exists a, "", false, (String c r), b. cbn [append] in *. (split; [rewrite <- Eb; exact Ea|auto 10]).
  - intros (a & sign & neg & r & b & -> & Ba & Bb & Sg & H). pose proof (Edges _ _ _ H) as Ed. apply G in H.
    rewrite strip_around; [|assumption ..|destruct neg; tauto|assumption]. destruct Ed as ((c & t & -> & _ & NM & NP) & _).
    destruct neg; [subst sign; exact H|]. destruct Sg as [->| ->]; [|exact H]. cbn [append take_sign].
    rewrite (proj2 (Ascii.eqb_neq c "-") NM), (proj2 (Ascii.eqb_neq c "+") NP). exact H.
Qed.
End Signed.

(** ** Whole numbers *)
Definition step (b : N) (n d : N) : N := (n * b + d)%N.
Lemma digits_in_iff b : forall s acc n,
  (digits_in b s false acc = Some n <-> exists ds, digits b s ds /\ n = fold_left (step b) ds acc) /\
  (digits_in b s true acc = Some n <-> (s = "" /\ n = acc) \/ (exists r ds, (s = r \/ s = String "_" r) /\ digits b r ds /\ n = fold_left (step b) ds acc)).
Proof.
  assert (Head : forall s ds, digits b s ds -> exists c d r, s = String c r /\ digit b c d).
  { intros s ds [c d D|c d r ds' D _|c d r ds' D _]; eauto. }
  assert (NU : forall s ds, ~ digits b (String "_" s) ds).
  { intros s ds D. apply Head in D as (c & d & r & E & D). injection E as <- _. apply digit_edges in D as (_ & N & _). now destruct N. }
  induction s as [|c s IH]; intros acc n; cbn [digits_in].
  - split.
    + split; [discriminate|]. intros (ds & D & _). apply Head in D as (? & ? & ? & ? & _). discriminate.
    + split; [intros E; injection E as <-; auto|]. intros [[_ ->]|(r & ds & [<-|E] & D & _)]; [reflexivity| |discriminate]. apply Head in D as (? & ? & ? & ? & _). discriminate.
  - destruct (Ascii.eqb c "_") eqn:U.
    + apply Ascii.eqb_eq in U as ->. split; [split; [discriminate|intros (ds & D & _); now apply NU in D]|]. rewrite (proj1 (IH acc n)). split.
      * intros (ds & D & E). right. exists s, ds. auto.
      * intros [[E _]|(r & ds & [<-|E] & D & F)]; [discriminate|now apply NU in D|]. injection E as <-. eauto.
    + apply Ascii.eqb_neq in U.
      assert (Step : (match xdigit c with Some d => if (d <? b)%N then digits_in b s true (acc * b + d) else None | None => None end = Some n) <->
                     exists ds, digits b (String c s) ds /\ n = fold_left (step b) ds acc).
      { split.
        - destruct (xdigit c) as [d|] eqn:X; [|discriminate]. destruct (d <? b)%N eqn:Lt; [|discriminate]. assert (D : digit b c d) by now apply digit_iff.
          intros H. apply IH in H as [[-> ->]|(r & ds & [->| ->] & Ds & ->)].
          + exists [d]. split; [now constructor|reflexivity].
          + exists (d :: ds). split; [now constructor|reflexivity].
          + exists (d :: ds). split; [now constructor|reflexivity].
        - intros (ds & D & ->). inversion D as [c' d D' E1 E2|c' d r ds' D' R E1 E2|c' d r ds' D' R E1 E2]; subst; apply digit_iff in D' as [X Lt]; rewrite X, Lt; apply IH.
          + now left.
          + right. exists s, ds'. auto.
          + right. exists r, ds'. auto. }
      split; [exact Step|]. rewrite Step. split.
      * intros (ds & D & E). right. exists (String c s), ds. auto.
      * intros [[E _]|(r & ds & [<-|E] & D & F)]; [discriminate|eauto|]. now injection E as -> _.
Qed.
Lemma digits_value b s n : digits_in b s false 0 = Some n <-> exists ds, digits b s ds /\ n = value b ds.
Proof. apply digits_in_iff. Qed.
Lemma digits_last b s ds : digits b s ds -> exists p c, s = (p ++ String c "")%string /\ ~ white c.
Proof.
  induction 1 as [c d D|c d s ds D H (p & e & -> & W)|c d s ds D H (p & e & -> & W)].
  - exists "", c. split; [reflexivity|]. now apply digit_edges in D.
  - exists (String c p), e. auto.
  - exists (String c (String "_" p)), e. auto.
Qed.
Lemma digits_first b s ds : digits b s ds -> exists c r d, s = String c r /\ digit b c d.
Proof. intros [c d D|c d r ds' D _|c d r ds' D _]; eauto. Qed.
Lemma digits_edges b s ds : digits b s ds -> edges s.
Proof.
  intros D. split; [|now apply digits_last in D]. apply digits_first in D as (c & r & d & -> & D). apply digit_edges in D as (W & _ & M & P & _). eauto 10.
Qed.
Lemma decimal_edges s n : SLiteral.decimal s n -> edges s.
Proof. intros (ds & D & _). now apply digits_edges in D. Qed.
Lemma edges_prefix p s : edges p -> edges s -> edges (p ++ s).
Proof.
  intros ((c & r & -> & W & M & P) & _) (_ & (q & d & -> & W')). split; [exists c, (r ++ q ++ String d "")%string; auto|]. exists (String c (r ++ q)), d. cbn. now rewrite app_assoc_s.
Qed.
Lemma literal_edges s n : literal s n -> edges s.
Proof.
  intros [c r ds D N|r ds D Z|x base u r ds B U D]; [now apply digits_edges in D|now apply digits_edges in D|]. destruct (digits_last _ _ _ D) as (p & d & E & W).
  split.
  - exists "0"%char, (String x (u ++ r)). split; [reflexivity|]. rewrite <- not_white_iff. repeat split; discriminate.
  - exists ("0" ++ String x "" ++ u ++ p)%string, d. cbn. rewrite app_assoc_s, <- E. auto.
Qed.
Lemma sign_iff f lit s z : (forall r n, f r = Some n <-> lit r n) -> (forall r n, lit r n -> edges r) ->
  (let (neg, r) := take_sign (strip s) in option_map (signed neg) (f r)) = Some z <-> with_sign lit s z.
Proof.
  intros F Ed. rewrite (signed_iff (fun neg r => option_map (signed neg) (f r)) (fun neg r z => exists n, lit r n /\ z = signed neg n)).
  - split.
    + intros (a & sign & neg & r & b & -> & Ba & Bb & Sg & n & H & ->). destruct neg; [subst sign; now apply sign_negative|now apply (sign_positive lit a sign)].
    + intros [a sign r n b Ba Bb Sg H|a r n b Ba Bb H].
      * exists a, sign, false, r, b. eauto 10.
      * exists a, "-", true, r, b. eauto 10.
  - intros neg r x. destruct (f r) as [n|] eqn:E; cbn [option_map].
    + apply F in E as E'. split; [intros H; injection H as <-; eauto|]. intros (m & H & ->). apply F in H. congruence.
    + split; [discriminate|]. intros (m & H & _). apply F in H. congruence.
  - intros neg r x (n & H & _). now apply Ed in H.
Qed.
Lemma int10_iff s z : int10 s = Some z <-> decimal_text s z.
Proof. apply (sign_iff (fun r => digits_in 10 r false 0)); [apply digits_value|apply decimal_edges]. Qed.
Lemma skip_under_iff b s ds : (digits b (skip_under s) ds) <-> exists u r, s = (u ++ r)%string /\ (u = "" \/ u = "_") /\ digits b r ds.
Proof.
  split.
  - destruct s as [|c s]; cbn [skip_under]; [intros D; exists "", ""; auto|]. destruct (Ascii.eqb c "_") eqn:U.
    + apply Ascii.eqb_eq in U as ->. intros D. exists "_", s. auto.
    + intros D. exists "", (String c s). auto.
  - intros (u & r & -> & [->| ->] & D); [|exact D]. cbn [append]. destruct (digits_first _ _ _ D) as (c & t & d & -> & Dc). cbn [skip_under].
    apply digit_edges in Dc as (_ & U & _). rewrite (proj2 (Ascii.eqb_neq c "_") U). exact D.
Qed.
Definition int0_body (r : string) : option N :=
  match r with
  | String "0" (String x r') =>
      if Ascii.eqb x "x"%char || Ascii.eqb x "X"%char then digits_in 16 (skip_under r') false 0
      else if Ascii.eqb x "o"%char || Ascii.eqb x "O"%char then digits_in 8 (skip_under r') false 0
      else if Ascii.eqb x "b"%char || Ascii.eqb x "B"%char then digits_in 2 (skip_under r') false 0
      else match digits_in 10 r false 0 with
           | Some n => if N.eqb n 0 then Some n else None
           | None => None
           end
  | _ => digits_in 10 r false 0
  end.
Lemma int0_body_nonzero c r : c <> "0"%char -> int0_body (String c r) = digits_in 10 (String c r) false 0.
Proof. intros N. destruct c as [[] [] [] [] [] [] [] []]; try reflexivity. now destruct N. Qed.
Lemma based_iff x b r n : base_letter x b -> digits_in b (skip_under r) false 0 = Some n <-> literal (String "0" (String x r)) n.
Proof.
  intros B. rewrite digits_value. split.
  - intros (ds & D & ->). apply skip_under_iff in D as (u & t & -> & U & D). exact (literal_based x b u t ds B U D).
  - intros L. remember (String "0" (String x r)) as t eqn:T. destruct L as [c s ds D N|s ds D Z|x' b' u s ds B' U D].
    + injection T as -> _. now destruct N.
    + exfalso. subst. inversion D as [| c d t es _ D'|c d t es _ D']; subst.
      * apply digits_first in D' as (c' & r' & d' & E & D'). injection E as <- <-. destruct D' as [I Lt]. destruct B; repeat (destruct I as [I|I]; [try discriminate I; injection I as <-; discriminate Lt|]); destruct I.
      * inversion B.
    + cbn [append] in T. injection T as -> <-. assert (b' = b) as -> by (destruct B; inversion B'; reflexivity). exists ds. split; [|reflexivity]. apply skip_under_iff. eauto.
Qed.
Lemma int0_body_iff r n : int0_body r = Some n <-> literal r n.
Proof.
  assert (Ten : forall r n, (exists c t, r = String c t /\ c <> "0"%char) -> digits_in 10 r false 0 = Some n <-> literal r n).
  { intros t m (c & t' & -> & N). rewrite digits_value. split.
    - intros (ds & D & ->). now apply literal_decimal.
    - intros H. remember (String c t') as w eqn:T. destruct H as [c' s ds D N'|s ds D Z|x base u s ds B U D].
      + eauto.
      + exists ds. split; [exact D|congruence].
      + cbn in T. injection T as T _. congruence. }
  assert (Zero : forall t n, (forall x b, base_letter x b -> match t with String y _ => y <> x | "" => True end) ->
      (match digits_in 10 (String "0" t) false 0 with Some m => if N.eqb m 0 then Some m else None | None => None end = Some n) <-> literal (String "0" t) n).
  { intros t m NB. split.
    - destruct (digits_in 10 (String "0" t) false 0) as [k|] eqn:D; [|discriminate]. destruct (N.eqb_spec k 0) as [->|]; [|discriminate]. intros E. injection E as <-.
      apply digits_value in D as (ds & D & E). now apply (literal_zero _ ds).
    - intros H. remember (String "0" t) as w eqn:T. destruct H as [c' s ds D N'|s ds D Z|x base u s ds B U D].
      + injection T as -> _. now destruct N'.
      + rewrite (proj2 (digits_value 10 s 0) (ex_intro _ ds (conj D (eq_sym Z)))). reflexivity.
      + cbn in T. injection T as <-. specialize (NB x base B). now destruct NB. }
  destruct r as [|c r]; [cbn; split; [discriminate|]; intros H; apply literal_edges in H as ((? & ? & ? & _) & _); discriminate|].
  destruct (Ascii.eqb_spec c "0"%char) as [->|N]; [|rewrite int0_body_nonzero by exact N; apply Ten; eauto].
  destruct r as [|x r].
  - change (int0_body "0") with (match digits_in 10 "0" false 0 with Some m => if N.eqb m 0 then Some m else None | None => None end). apply Zero. auto.
  - cbn [int0_body]. destruct (Ascii.eqb x "x" || Ascii.eqb x "X") eqn:X16.
    { apply orb_true_iff in X16 as [E|E]; apply Ascii.eqb_eq in E as ->; apply based_iff; constructor. }
    destruct (Ascii.eqb x "o" || Ascii.eqb x "O") eqn:X8.
    { apply orb_true_iff in X8 as [E|E]; apply Ascii.eqb_eq in E as ->; apply based_iff; constructor. }
    destruct (Ascii.eqb x "b" || Ascii.eqb x "B") eqn:X2.
    { apply orb_true_iff in X2 as [E|E]; apply Ascii.eqb_eq in E as ->; apply based_iff; constructor. }
    apply orb_false_iff in X16 as [A1 A2], X8 as [A3 A4], X2 as [A5 A6]. apply Ascii.eqb_neq in A1, A2, A3, A4, A5, A6. apply Zero. intros y b []; assumption.
Qed.
Lemma int0_iff s z : int0 s = Some z <-> integer_text s z.
Proof. apply (sign_iff int0_body); [apply int0_body_iff|apply literal_edges]. Qed.
