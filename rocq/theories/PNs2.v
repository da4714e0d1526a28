(** Proofs about namespaces: renaming of prefixes, undeclared prefixes, other namespaces. *)
From Verif Require Import Base PBase MNames MNum MXml SXml PXml PXml2 MNs SNs PNs.
Local Open Scope string_scope.
Ltac splits := repeat match goal with |- _ /\ _ => split end.

(** ** Names *)
Lemma colon_app a b : has_colon (a ++ b) = (has_colon a || has_colon b)%bool.
Proof. induction a as [|c a IH]; [reflexivity|]. cbn. rewrite IH. now rewrite orb_assoc. Qed.
Lemma partition_colon p l : has_colon p = false -> partition_at ":" (p ++ ":" ++ l) = (p, l).
Proof.
  induction p as [|c p IH]; intros H; [reflexivity|]. cbn in H. apply orb_false_iff in H as [H1 H2]. cbn [append partition_at].
  rewrite H1. cbn [append] in IH. now rewrite IH.
Qed.
Lemma partition_inv n : forall p l, has_colon n = true -> partition_at ":" n = (p, l) -> n = p ++ ":" ++ l /\ has_colon p = false.
Proof.
  induction n as [|c n IH]; intros p l H E; [discriminate|]. cbn in H, E. destruct (Ascii.eqb c ":") eqn:C.
  - injection E as <- <-. apply Ascii.eqb_eq in C. subst. split; reflexivity.
  - cbn [orb] in H. destruct (partition_at ":" n) as [a b] eqn:P. injection E as <- <-. destruct (IH a b H eq_refl) as [-> N]. split; [reflexivity|]. cbn. now rewrite C, N.
Qed.
(** The two kinds of names. *)
Lemma split_inv n p l : split_name n = Some (p, l) ->
  (p = "" /\ l = n /\ has_colon n = false /\ exists c r, n = String c r /\ name_start c = true) \/
  (p <> "" /\ n = p ++ ":" ++ l /\ has_colon p = false /\ has_colon l = false /\ exists c r, l = String c r /\ name_start c = true).
Proof.
  unfold split_name. destruct (has_colon n) eqn:C.
  - destruct (partition_at ":" n) as [a b] eqn:P. apply partition_inv in P as [-> N]; [|exact C]. destruct a as [|x a]; [discriminate|]. destruct b as [|y b]; [discriminate|].
    destruct (name_start y && negb (has_colon (String y b)))%bool eqn:S; [|discriminate]. apply andb_true_iff in S as [S1 S2]. apply negb_true_iff in S2.
    intros E. injection E as <- <-. right. splits; auto; [discriminate|]. eauto.
  - destruct n as [|c r]; [discriminate|]. destruct (name_start c) eqn:S; [|discriminate]. intros E. injection E as <- <-. left. splits; auto. eauto.
Qed.
Lemma split_prefixed p c r : p <> "" -> has_colon p = false -> name_start c = true -> has_colon (String c r) = false ->
  split_name (p ++ ":" ++ String c r) = Some (p, String c r).
Proof.
  intros N P S C. unfold split_name. rewrite partition_colon by exact P.
  replace (has_colon (p ++ ":" ++ String c r)) with true by (rewrite !colon_app; symmetry; apply orb_true_r). destruct p as [|x p]; [congruence|]. rewrite S, C. reflexivity.
Qed.
Lemma strip_xmlns n : forall p, strip_prefix "xmlns:" n = Some p -> n = "xmlns:" ++ p.
Proof.
  intros p. destruct n as [|c1 [|c2 [|c3 [|c4 [|c5 [|c6 n]]]]]]; cbn [strip_prefix]; try discriminate;
    repeat (let E := fresh in match goal with |- context [Ascii.eqb ?a ?b] => destruct (Ascii.eqb a b) eqn:E; [apply Ascii.eqb_eq in E; subst|discriminate] end); try discriminate.
  intros E. now injection E as ->.
Qed.
Lemma strip_xmlns_none p l : has_colon p = false -> p <> "xmlns" -> strip_prefix "xmlns:" (p ++ ":" ++ l) = None.
Proof.
  intros C N. destruct (strip_prefix "xmlns:" (p ++ ":" ++ l)) as [q|] eqn:E; [|reflexivity]. exfalso. apply N. apply strip_xmlns in E.
  apply (f_equal (partition_at ":")) in E. rewrite partition_colon in E by exact C. change ("xmlns:" ++ q) with ("xmlns" ++ ":" ++ q) in E. rewrite partition_colon in E by reflexivity. congruence.
Qed.
Lemma strip_xmlns_local n : has_colon n = false -> strip_prefix "xmlns:" n = None.
Proof.
  intros C. destruct (strip_prefix "xmlns:" n) as [q|] eqn:E; [|reflexivity]. apply strip_xmlns in E. subst. rewrite (colon_app "xmlns:") in C. discriminate.
Qed.
Lemma no_xmlns p l : (p ++ ":" ++ l =? "xmlns") = false.
Proof.
  apply String.eqb_neq. intros E. apply (f_equal has_colon) in E. rewrite !colon_app in E. cbn in E. rewrite orb_true_r in E. discriminate.
Qed.

(** ** Renaming *)
Section Renaming.
Variable r : string -> string.
Variable P : list string.
Hypothesis apart : forall p q, In p P -> In q P -> r p = r q -> p = q.
Hypothesis proper : forall p, In p P -> p <> "" -> r p = p \/ (prefix_ok (r p) /\ r p <> "xmlns").
Hypothesis fixed : forall p, In p P -> (p = "xml" <-> r p = "xml").
Hypothesis dflt : r "" = "" \/ (prefix_ok (r "") /\ r "" <> "xmlns" /\ r "" <> "xml").

Definition same_env (e1 e2 : bindings) : Prop := forall p, In p P -> assoc (r p) e2 = assoc p e1.
Definition new_rest (t : string * string * string) : string * string * string :=
  match t with (p, l, v) => (if String.eqb p "" then "" else r p, l, v) end.
Definition new_binding (b : string * string) : string * string := (r (fst b), snd b).

Lemma prefix_some p : prefix_ok p -> p <> "" /\ exists c s, p = String c s /\ name_start c = true.
Proof. intros [[N _] _]. destruct p as [|c s]; [destruct N|]. split; [discriminate|]. eauto. Qed.
(** A prefix that is used is renamed to a prefix. *)
Lemma new_prefix p l : In p P -> p <> "" -> has_colon p = false -> (exists c s, l = String c s /\ name_start c = true) -> has_colon l = false ->
  r p <> "" /\ has_colon (r p) = false /\ split_name (r p ++ ":" ++ l) = Some (r p, l).
Proof.
  intros I N C (c & s & -> & S) L. destruct (proper p I N) as [->|[Q X]].
  - splits; auto. now apply split_prefixed.
  - destruct (prefix_some _ Q) as [NE _]. destruct Q as [_ Q]. splits; auto. now apply split_prefixed.
Qed.
Lemma sort_rename a : forall ds rest, (forall n v, In (n, v) a -> forall p, In p (prefixes_of_attr n) -> In p P) -> (r "" = "" \/ ~ In ("xmlns", "") a) ->
  sort_attrs a = Some (ds, rest) ->
  sort_attrs (map (fun p => (rename_attr r (fst p), snd p)) a) = Some (map new_binding ds, map new_rest rest) /\
  (forall p u, In (p, u) ds -> In p P) /\ (forall p l v, In (p, l, v) rest -> p <> "" -> In p P) /\ (forall u, In ("xmlns", u) a -> exists w, assoc "" ds = Some w).
Proof.
  induction a as [|[n v] a IH]; intros ds rest U D E; [injection E as <- <-; splits; auto; [intros ? ? []|intros ? ? ? []|intros ? []]|].
  cbn [sort_attrs] in E. destruct (split_name n) as [[p l]|] eqn:S; [|discriminate]. destruct (sort_attrs a) as [[ds' rest']|] eqn:SA; [|discriminate].
  destruct (IH ds' rest') as (R & B1 & B2 & B3); [intros; eapply U; [right|]; eauto|destruct D as [D|D]; [now left|right; intros I; apply D; now right]|reflexivity|]. clear IH.
  pose proof (U n v (or_introl eq_refl)) as UN. cbn [map fst snd sort_attrs]. rewrite R. clear R.
  apply split_inv in S as [(-> & -> & C & ST)|(NP & -> & C & CL & ST)].
  - cbn [String.eqb andb] in E. destruct (String.eqb_spec n "xmlns") as [->|NX].
    + (* the default namespace *)
      unfold rename_attr. cbn [String.eqb Ascii.eqb Bool.eqb]. destruct (declaration_ok "" v) eqn:DO; [|discriminate]. injection E as <- <-.
      splits; [|intros p u [I|I]; [injection I as <- <-; apply UN; now left|eauto]|exact B2|intros u _; cbn [assoc String.eqb]; eauto].
      cbn [map]. destruct dflt as [Z|(Q & X1 & X2)].
      * rewrite Z. cbn [String.eqb]. unfold split_name. cbn [has_colon Ascii.eqb Bool.eqb orb]. change (name_start "x") with true. cbv iota. cbn [String.eqb Ascii.eqb Bool.eqb andb]. assert (NB : new_binding ("", v) = ("", v)) by (unfold new_binding; cbn [fst snd]; now rewrite Z). now rewrite NB.
      * destruct (prefix_some _ Q) as [NE (c & s & EQ & ST')]. apply String.eqb_neq in NE. rewrite NE. destruct Q as [_ Q].
        assert (SP : split_name ("xmlns:" ++ r "") = Some ("xmlns", r "")) by (rewrite EQ in Q |- *; exact (split_prefixed "xmlns" c s ltac:(discriminate) eq_refl ST' Q)).
        rewrite SP. cbn [String.eqb Ascii.eqb Bool.eqb andb]. assert (DN : declaration_ok (r "") v = true).
        { unfold declaration_ok in DO |- *. cbn [String.eqb] in DO. rewrite NE. apply String.eqb_neq in X1, X2. rewrite X1, X2. apply andb_true_iff in DO as [-> ->]. rewrite !andb_true_r. cbn [negb andb].
          apply negb_true_iff, String.eqb_neq. intros ->. destruct D as [D|D]; [rewrite D in NE; discriminate|]. apply D. now left. }
        rewrite DN. reflexivity.
    + (* an attribute without prefix *)
      injection E as <- <-. assert (RN : rename_attr r n = n). { unfold rename_attr. apply String.eqb_neq in NX. rewrite NX, strip_xmlns_local, C by exact C. reflexivity. }
      rewrite RN. destruct ST as (c & s & -> & ST). unfold split_name. rewrite C, ST. cbn [String.eqb andb]. apply String.eqb_neq in NX. cbn [String.eqb] in NX. rewrite NX.
      splits; auto; [intros p l v' [I|I]; [injection I as <- <- <-; congruence|eauto]|]. intros u [I|I]; [injection I as -> ->; apply String.eqb_neq in NX; congruence|eauto].
  - assert (NE := NP). apply String.eqb_neq in NE. rewrite NE in E. cbn [andb] in E. unfold rename_attr. rewrite no_xmlns. unfold prefixes_of_attr in UN. rewrite no_xmlns in UN.
    destruct (String.eqb_spec p "xmlns") as [->|NX].
    + (* declaration of a prefix *)
      change ("xmlns" ++ ":" ++ l) with ("xmlns:" ++ l) in *. rewrite (strip_app "xmlns:" l) in *. destruct (declaration_ok l v) eqn:DO; [|discriminate]. injection E as <- <-.
      assert (IL : In l P) by (apply UN; now left). assert (LN : l <> "") by (destruct ST as (c & s & -> & _); discriminate).
      assert (X : r l <> "" /\ has_colon (r l) = false /\ (exists c s, r l = String c s /\ name_start c = true) /\ r l <> "xmlns").
      { destruct (proper l IL LN) as [->|[Q X]].
        - splits; auto. intros ->. unfold declaration_ok in DO. cbn in DO. discriminate.
        - destruct (prefix_some _ Q). destruct Q. splits; auto. }
      destruct X as (X1 & X2 & (c & s & X3 & X4) & X5).
      assert (SP : split_name ("xmlns:" ++ r l) = Some ("xmlns", r l)) by (rewrite X3 in X2 |- *; exact (split_prefixed "xmlns" c s ltac:(discriminate) eq_refl X4 X2)).
      rewrite SP. cbn [String.eqb Ascii.eqb Bool.eqb andb]. assert (DN : declaration_ok (r l) v = true).
      { unfold declaration_ok in DO |- *. apply String.eqb_neq in X1, X5, LN. rewrite X1, X5. rewrite LN in DO. destruct (String.eqb_spec l "xml") as [->|NX].
        - rewrite (proj1 (fixed "xml" IL) eq_refl). exact DO.
        - destruct (String.eqb_spec (r l) "xml") as [EX|_]; [apply fixed in EX; auto; congruence|]. rewrite !andb_true_iff in DO. destruct DO as [[[_ ->] ->] ->]. reflexivity. }
      rewrite DN. splits; [reflexivity|intros p u [I|I]; [injection I as <- <-; exact IL|eauto]|exact B2|].
      intros u [I|I]; [injection I as I _; discriminate|]. destruct (B3 u I) as (w & W). cbn [assoc]. destruct (String.eqb_spec "" l); eauto.
    + (* an attribute with prefix *)
      rewrite strip_xmlns_none in * by auto. assert (HC : has_colon (p ++ ":" ++ l) = true) by (rewrite !colon_app; apply orb_true_r). rewrite HC in *. rewrite partition_colon in * by exact C.
      injection E as <- <-. cbn [fst] in UN. assert (IP : In p P) by (apply UN; now left). destruct (new_prefix p l IP NP C ST CL) as (N1 & N2 & N3).
      unfold qualify. assert (N1' := N1). apply String.eqb_neq in N1'. rewrite N1', N3, N1'. cbn [andb].
      assert (N4 : r p <> "xmlns") by (destruct (proper p IP NP) as [->|[_ X]]; auto). apply String.eqb_neq in N4. rewrite N4.
      splits; [cbn [map new_rest]; now rewrite NE|exact B1|intros p' l' v' [I|I]; [injection I as <- <- <-; auto|eauto]|].
      intros u [I|I]; [injection I as I _|eauto]. exfalso. exact (proj1 (String.eqb_neq _ _) (no_xmlns p l) I).
Qed.
Lemma assoc_app {A} k (a b : list (string * A)) : assoc k (a ++ b)%list = match assoc k a with Some v => Some v | None => assoc k b end.
Proof. induction a as [|[k' v] a IH]; [reflexivity|]. cbn. destruct (String.eqb k k'); auto. Qed.
Lemma env_rename ds e1 e2 : same_env e1 e2 -> (forall p u, In (p, u) ds -> In p P) -> same_env (ds ++ e1)%list (map new_binding ds ++ e2)%list.
Proof.
  intros S I p Ip. induction ds as [|[q u] ds IH]; [now apply S|]. cbn [app map new_binding fst snd assoc].
  destruct (String.eqb_spec p q) as [->|N].
  - now rewrite String.eqb_refl.
  - destruct (String.eqb_spec (r p) (r q)) as [E|_]; [exfalso; apply N, apart; auto; apply (I q u); now left|]. apply IH. intros; eapply I; right; eauto.
Qed.
Lemma lookup_rename e1 e2 p : same_env e1 e2 -> In p P -> lookup e2 (r p) = lookup e1 p.
Proof.
  intros S I. unfold lookup. destruct (String.eqb_spec p "xml") as [->|N].
  - now rewrite (proj1 (fixed "xml" I) eq_refl).
  - destruct (String.eqb_spec (r p) "xml") as [E|_]; [apply fixed in E; auto; congruence|]. now apply S.
Qed.
Lemma tag_rename e1 e2 n m : same_env e1 e2 -> In (prefix_of_tag n) P -> (r "" = "" \/ exists u, assoc "" e1 = Some u) ->
  expand_tag e1 n = Some m -> expand_tag e2 (rename_tag r n) = Some m.
Proof.
  intros S I D E. unfold expand_tag in E. destruct (split_name n) as [[p l]|] eqn:SN; [|discriminate]. unfold rename_tag. unfold prefix_of_tag in I.
  apply split_inv in SN as [(-> & -> & C & (c & s & EQ & ST))|(NP & -> & C & CL & ST)].
  - rewrite C in *. cbn [String.eqb] in E. unfold qualify. destruct (String.eqb_spec (r "") "") as [Z|NZ].
    + unfold expand_tag. unfold split_name. rewrite C, EQ, ST. cbn [String.eqb]. rewrite <- EQ. rewrite <- Z at 1. now rewrite S.
    + destruct D as [D|(u & D)]; [congruence|]. destruct dflt as [Z|(Q & X1 & X2)]; [congruence|]. destruct Q as [_ Q]. unfold expand_tag. rewrite EQ in C |- *.
      rewrite (split_prefixed (r "") c s NZ Q ST C). apply String.eqb_neq in NZ. rewrite NZ. unfold lookup. apply String.eqb_neq in X2. rewrite X2, (S "" I), D. rewrite D, EQ in E. exact E.
  - assert (HC : has_colon (p ++ ":" ++ l) = true) by (rewrite !colon_app; apply orb_true_r). rewrite HC in *. rewrite partition_colon in * by exact C. cbn [fst] in I.
    destruct (new_prefix p l I NP C ST CL) as (N1 & N2 & N3). unfold qualify. apply String.eqb_neq in N1. rewrite N1. unfold expand_tag. rewrite N3, N1, (lookup_rename e1 e2 p S I).
    apply String.eqb_neq in NP. rewrite NP in E. exact E.
Qed.
Lemma attrs_rename e1 e2 rest : forall b, same_env e1 e2 -> (forall p l v, In (p, l, v) rest -> p <> "" -> In p P) ->
  expand_attrs e1 rest = Some b -> expand_attrs e2 (map new_rest rest) = Some b.
Proof.
  induction rest as [|[[p l] v] rest IH]; intros b S I E; [exact E|]. cbn [expand_attrs map new_rest] in *.
  destruct (if p =? "" then Some l else match lookup e1 p with Some u => Some (in_namespace u l) | None => None end) as [n|] eqn:N; [|discriminate].
  destruct (expand_attrs e1 rest) as [b'|] eqn:X; [|discriminate]. rewrite (IH b' S (fun p0 l0 v0 J => I p0 l0 v0 (or_intror J)) eq_refl).
  assert (Y : (if (if p =? "" then "" else r p) =? "" then Some l else match lookup e2 (if p =? "" then "" else r p) with Some u => Some (in_namespace u l) | None => None end) = Some n).
  { destruct (String.eqb_spec p "") as [->|NE]; [exact N|]. assert (IP : In p P) by (eapply I; [left; reflexivity|exact NE]). rewrite (lookup_rename e1 e2 p S IP).
    destruct (String.eqb_spec (r p) "") as [Z|_]; [|exact N]. exfalso. destruct (proper p IP NE) as [F|[F _]]; [congruence|]. apply prefix_some in F as [F _]. congruence. }
  rewrite Y. exact E.
Qed.
Lemma all_some_rename {A B} (f g : A -> option B) (h : A -> A) l y : (forall k z, In k l -> f k = Some z -> g (h k) = Some z) -> all_some (map f l) = Some y -> all_some (map g (map h l)) = Some y.
Proof.
  revert y. induction l as [|k l IH]; intros y H E; [exact E|]. cbn [map all_some] in *. destruct (f k) as [z|] eqn:F; [|discriminate]. rewrite (H k z (or_introl eq_refl) F).
  destruct (all_some (map f l)) as [ys|]; [|discriminate]. rewrite (IH ys); auto. intros; apply H; auto. now right.
Qed.
Lemma resolve_rename x : forall e1 e2 y, same_env e1 e2 -> (forall p, In p (prefixes x) -> In p P) ->
  (r "" = "" \/ ((exists u, assoc "" e1 = Some u) \/ (exists u, In ("xmlns", u) (x_attrs x))) /\ keeps_default x) ->
  resolve e1 x = Some y -> resolve e2 (rename r x) = Some y.
Proof.
  induction x as [tag a t kids tails IH] using xml_ind'. intros e1 e2 y S U D E. cbn [resolve rename] in *. cbn [prefixes] in U.
  destruct (sort_attrs a) as [[ds rest]|] eqn:SA; [|discriminate].
  destruct (sort_rename a ds rest) as (R & B1 & B2 & B3); auto.
  { intros n v I p Ip. apply U. right. apply in_app_iff. left. apply in_flat_map. exists (n, v). auto. }
  { destruct D as [D|[_ K]]; [now left|right]. now inversion K. }
  rewrite R. assert (SE := env_rename ds e1 e2 S B1).
  assert (DE : r "" = "" \/ exists u, assoc "" (ds ++ e1)%list = Some u).
  { destruct D as [D|[[(u & D)|(u & D)] _]]; [now left| |]; right; rewrite assoc_app; destruct (assoc "" ds) as [w|] eqn:AD; eauto. cbn [x_attrs] in D. destruct (B3 u D) as (w & W). congruence. }
  destruct (expand_tag (ds ++ e1)%list tag) as [n|] eqn:ET; [|discriminate]. rewrite (tag_rename _ _ _ n SE); auto; [|apply U; now left].
  destruct (expand_attrs (ds ++ e1)%list rest) as [b|] eqn:EA; [|discriminate]. rewrite (attrs_rename _ _ _ b SE B2 EA).
  destruct (all_some (map (resolve (ds ++ e1)%list) kids)) as [k|] eqn:EK; [|discriminate].
  rewrite (all_some_rename (resolve (ds ++ e1)%list) (resolve (map new_binding ds ++ e2)%list) (rename r) kids k); auto.
  intros c z I Z. apply (IH c I (ds ++ e1)%list); auto.
  - intros p Ip. apply U. right. apply in_app_iff. right. apply in_flat_map. eauto.
  - destruct D as [D|[_ K]]; [now left|]. destruct DE as [DE|DE]; [now left|]. right. split; [now left|]. inversion K; auto.
Qed.
End Renaming.
Lemma renaming_resolves r x y : renaming r x -> resolve [] x = Some y -> resolve [] (rename r x) = Some y.
Proof.
  intros [A P F D] E. eapply (resolve_rename r (prefixes x)); eauto.
  - destruct D as [D|(D1 & D2 & D3 & _)]; auto.
  - intros p I. reflexivity.
  - destruct D as [D|(D1 & D2 & D3 & D4 & D5)]; auto.
Qed.

(** ** Undeclared prefixes *)
Lemma prefixed_attr p l : has_colon p = false -> p <> "xmlns" -> prefixes_of_attr (p ++ ":" ++ l) = [p].
Proof.
  intros C N. unfold prefixes_of_attr. rewrite no_xmlns, strip_xmlns_none, partition_colon by auto.
  replace (has_colon (p ++ ":" ++ l)) with true by (rewrite !colon_app; symmetry; apply orb_true_r). reflexivity.
Qed.
Lemma sort_declares a : forall ds rest, sort_attrs a = Some (ds, rest) ->
  (forall p u, In (p, u) ds -> p = "" \/ exists n v, In (n, v) a /\ strip_prefix "xmlns:" n = Some p) /\
  (forall n v p, In (n, v) a -> In p (prefixes_of_attr n) -> p = "" \/ (exists v, In ("xmlns:" ++ p, v) a) \/ exists l v, In (p, l, v) rest).
Proof.
  induction a as [|[n v] a IH]; intros ds rest E; [injection E as <- <-; split; [intros ? ? []|intros ? ? ? []]|].
  cbn [sort_attrs] in E. destruct (split_name n) as [[p l]|] eqn:S; [|discriminate]. destruct (sort_attrs a) as [[ds' rest']|] eqn:SA; [|discriminate].
  destruct (IH ds' rest' eq_refl) as [D1 D2]. clear IH.
  assert (D1' : forall p u, In (p, u) ds' -> p = "" \/ exists n0 v0, In (n0, v0) ((n, v) :: a) /\ strip_prefix "xmlns:" n0 = Some p).
  { intros q u I. destruct (D1 q u I) as [->|(n0 & v0 & J & K)]; [now left|]. right. exists n0, v0. split; [now right|exact K]. }
  apply split_inv in S as [(-> & -> & C & ST)|(NP & -> & C & CL & ST)].
  - cbn [String.eqb andb] in E. destruct (String.eqb_spec n "xmlns") as [->|NX].
    + destruct (declaration_ok "" v); [|discriminate]. injection E as <- <-. split.
      * intros q u [I|I]; [injection I as <- <-; now left|eauto].
      * intros n0 v0 q [I|I] J; [injection I as <- <-; cbn in J; destruct J as [<-|[]]; now left|].
        destruct (D2 n0 v0 q I J) as [H|[(v1 & H)|H]]; auto. right. left. exists v1. now right.
    + injection E as <- <-. split; [exact D1'|]. intros n0 v0 q [I|I] J.
      * injection I as <- <-. exfalso. unfold prefixes_of_attr in J. apply String.eqb_neq in NX. rewrite NX, strip_xmlns_local, C in J by exact C. exact J.
      * destruct (D2 n0 v0 q I J) as [H|[(v1 & H)|(l1 & v1 & H)]]; auto; right; [left; exists v1; now right|right; exists l1, v1; now right].
  - assert (NE := NP). apply String.eqb_neq in NE. rewrite NE in E. cbn [andb] in E. destruct (String.eqb_spec p "xmlns") as [->|NX].
    + destruct (declaration_ok l v); [|discriminate]. injection E as <- <-. change ("xmlns" ++ ":" ++ l) with ("xmlns:" ++ l) in *. split.
      * intros q u [I|I]; [|eauto]. injection I as <- <-. right. exists ("xmlns:" ++ l), v. split; [now left|]. apply strip_app.
      * intros n0 v0 q [I|I] J.
        -- injection I as <- <-. change (In q [l]) in J. destruct J as [<-|[]]. right. left. exists v. now left.
        -- destruct (D2 n0 v0 q I J) as [H|[(v1 & H)|H]]; auto. right. left. exists v1. now right.
    + injection E as <- <-. split; [exact D1'|]. intros n0 v0 q [I|I] J.
      * injection I as <- <-. assert (J' : In q (prefixes_of_attr (p ++ ":" ++ l))) by exact J. rewrite prefixed_attr in J' by auto. destruct J' as [<-|[]]. right. right. exists l, v. now left.
      * destruct (D2 n0 v0 q I J) as [H|[(v1 & H)|(l1 & v1 & H)]]; auto; right; [left; exists v1; now right|right; exists l1, v1; now right].
Qed.
Lemma expand_bound e rest : forall b p l v, expand_attrs e rest = Some b -> In (p, l, v) rest -> p = "" \/ p = "xml" \/ exists u, assoc p e = Some u.
Proof.
  induction rest as [|[[p l] v] rest IH]; intros b q m w E I; [destruct I|]. cbn [expand_attrs] in E.
  destruct (if p =? "" then Some l else match lookup e p with Some u => Some (in_namespace u l) | None => None end) as [n|] eqn:N; [|discriminate].
  destruct (expand_attrs e rest) as [b'|]; [|discriminate]. destruct I as [I|I]; [|eapply IH; eauto]. injection I as <- <- <-.
  destruct (String.eqb_spec p "") as [->|NE]; [now left|]. unfold lookup in N. destruct (String.eqb_spec p "xml") as [->|NX]; [auto|]. destruct (assoc p e) as [u|]; [eauto|discriminate].
Qed.
Lemma assoc_In {A} k (l : list (string * A)) v : assoc k l = Some v -> In (k, v) l.
Proof. induction l as [|[k' v'] l IH]; [discriminate|]. cbn. destruct (String.eqb_spec k k') as [->|N]; [intros E; injection E as <-; now left|auto]. Qed.
Lemma resolved_bound x : forall e y p, resolve e x = Some y -> In p (prefixes x) -> p = "" \/ p = "xml" \/ (exists u, assoc p e = Some u) \/ In p (declared_prefixes x).
Proof.
  induction x as [tag a t kids tails IH] using xml_ind'. intros e y p E I. cbn [resolve prefixes declared_prefixes] in *.
  destruct (sort_attrs a) as [[ds rest]|] eqn:SA; [|discriminate]. destruct (sort_declares a ds rest SA) as [D1 D2].
  destruct (expand_tag (ds ++ e)%list tag) as [n|] eqn:ET; [|discriminate]. destruct (expand_attrs (ds ++ e)%list rest) as [b|] eqn:EA; [|discriminate].
  destruct (all_some (map (resolve (ds ++ e)%list) kids)) as [k|] eqn:EK; [|discriminate].
  assert (B : forall q u, assoc q (ds ++ e)%list = Some u -> q = "" \/ (exists u, assoc q e = Some u) \/ In q (declared_prefixes (Elem tag a t kids tails))).
  { intros q u A. rewrite assoc_app in A. destruct (assoc q ds) as [w|] eqn:AD; [|eauto]. apply assoc_In in AD. destruct (D1 _ _ AD) as [->|(n0 & v0 & J & K)]; [now left|].
    right. right. cbn [declared_prefixes]. apply in_app_iff. left. apply in_flat_map. exists (n0, v0). split; [exact J|]. cbn [fst]. rewrite K. now left. }
  cbn [declared_prefixes] in B. destruct I as [I|I].
  - subst p. unfold prefix_of_tag. unfold expand_tag in ET. destruct (split_name tag) as [[q l]|] eqn:S; [|discriminate]. apply split_inv in S as [(-> & -> & C & ST)|(NP & -> & C & CL & ST)].
    + rewrite C. now left.
    + replace (has_colon (q ++ ":" ++ l)) with true by (rewrite !colon_app; symmetry; apply orb_true_r). rewrite partition_colon by exact C. cbn [fst]. apply String.eqb_neq in NP. rewrite NP in ET.
      unfold lookup in ET. destruct (String.eqb_spec q "xml") as [->|NX]; [auto|]. destruct (assoc q (ds ++ e)%list) as [u|] eqn:A; [|discriminate]. destruct (B q u A) as [H|H]; auto.
  - apply in_app_iff in I as [I|I].
    + apply in_flat_map in I as ([n0 v0] & J & K). destruct (D2 n0 v0 p J K) as [H|[(v1 & H)|(l1 & v1 & H)]]; [now left| |].
      * right. right. right. apply in_app_iff. left. apply in_flat_map. exists ("xmlns:" ++ p, v1). split; [exact H|]. cbn [fst]. rewrite strip_app. now left.
      * destruct (expand_bound _ _ _ _ _ _ EA H) as [X|[X|(u & X)]]; auto. destruct (B p u X) as [Y|Y]; auto.
    + apply in_flat_map in I as (c & J & K). assert (Z : exists z, resolve (ds ++ e)%list c = Some z).
      { clear - EK J. revert k EK. induction kids as [|c' kids IH]; [destruct J|]. intros k EK. cbn [map all_some] in EK. destruct (resolve (ds ++ e)%list c') as [z|] eqn:R; [|discriminate].
        destruct J as [->|J]; [eauto|]. destruct (all_some (map (resolve (ds ++ e)%list) kids)) as [ks|]; [|discriminate]. eapply IH; eauto. }
      destruct Z as (z & Z). destruct (IH c J _ _ p Z K) as [H|[H|[(u & H)|H]]]; auto.
      * destruct (B p u H) as [Y|Y]; auto.
      * right. right. right. apply in_app_iff. right. apply in_flat_map. eauto.
Qed.

(** ** Other namespaces *)
Definition no_brace (s : string) : Prop := all_chars (fun c => c <> "}"%char) s.
Lemma name_no_brace n : name_ok n -> no_brace n.
Proof.
  intros [_ H]. unfold no_brace. induction n as [|c n IH]; [exact I|]. destruct H as [H1 H2]. split; [|now apply IH]. intros ->. discriminate H1.
Qed.
Lemma last_brace a : forall b n m, no_brace n -> no_brace m -> a ++ "}" ++ n = b ++ "}" ++ m -> a = b.
Proof.
  induction a as [|c a IH]; intros [|d b] n m N M E; [reflexivity| | |].
  - exfalso. cbn in E. injection E as _ E. subst. clear - N. induction b as [|c b IH]; [destruct N; congruence|]. destruct N. auto.
  - exfalso. cbn in E. injection E as _ E. subst. clear - M. induction a as [|c a IH]; [destruct M; congruence|]. destruct M. auto.
  - cbn [append] in E. injection E as -> E. f_equal. exact (IH b n m N M E).
Qed.
Lemma strip_inv p : forall s t, strip_prefix p s = Some t -> s = p ++ t.
Proof.
  induction p as [|c p IH]; intros s t E; [now injection E as ->|]. destruct s as [|d s]; [discriminate|]. cbn in E. destruct (Ascii.eqb_spec c d) as [->|]; [|discriminate]. cbn. f_equal. auto.
Qed.
Lemma other_tag u n m : u <> "" -> u <> arxml_uri -> name_ok n -> name_ok m -> clean_tag (in_namespace u n) <> m.
Proof.
  intros U1 U2 N M E. unfold in_namespace in E. apply String.eqb_neq in U1. rewrite U1 in E. unfold clean_tag in E.
  destruct (strip_prefix ("{" ++ arxml_uri ++ "}") ("{" ++ u ++ "}" ++ n)) as [l|] eqn:S.
  - subst l. apply strip_inv in S. apply U2. cbn [append] in S. injection S as S. change (u ++ "}" ++ n = arxml_uri ++ "}" ++ m) in S. eapply last_brace; [| |exact S]; now apply name_no_brace.
  - subst m. destruct M as [M _]. discriminate M.
Qed.
