(** Proofs about namespaces: the model resolves names as SScope.v says. *)
From Verif Require Import Base PBase MNames MNum MXml SXml SSpell PSpell PXml PXml2 MNs SNs SScope PNs PNs2.
Local Open Scope string_scope.
Local Ltac splits := repeat match goal with |- _ /\ _ => split end.

(** ** Names of parsed trees *)
Inductive named : xml -> Prop :=
| named_elem tag a t kids tails : name_ok tag -> (forall n v, In (n, v) a -> name_ok n) -> NoDup (map fst a) ->
    (forall k, In k kids -> named k) -> named (Elem tag a t kids tails).
Lemma attributes_named a s : attributes a s -> (forall n v, In (n, v) a -> name_ok n) /\ NoDup (map fst a).
Proof.
  induction 1 as [w _|w n w1 w2 q v s a r _ _ N _ _ _ _ I _ [H1 H2]]; [split; [intros n v []|constructor]|].
  split; [|constructor; auto]. intros m u [E|J]; [injection E as <- _; exact N|eauto].
Qed.
Scheme spelled_mut := Minimality for spelled Sort Prop with spelled_kids_mut := Minimality for spelled_kids Sort Prop.
Lemma spelled_named x s : spelled x s -> named x.
Proof.
  apply (spelled_mut (fun x _ => named x) (fun ks _ _ => forall k, In k ks -> named k)).
  - intros tag a s0 N A. destruct (attributes_named a s0 A). constructor; auto. intros k [].
  - intros tag a s0 t u kids tails v w N A _ _ K _. destruct (attributes_named a s0 A). now constructor.
  - intros k [].
  - intros y e t u kids tails v _ Y _ _ K k [<-|I]; auto.
Qed.
Lemma parsed_named s x : parse s = Ok x -> named x.
Proof. intros P. apply parse_iff in P. destruct P as [x mark decl before e after _ _ _ S _]. eapply spelled_named; eauto. Qed.

(** ** Splitting names *)
Lemma all_chars_app P a b : all_chars P (a ++ b) <-> all_chars P a /\ all_chars P b.
Proof. induction a as [|c a IH]; cbn; [tauto|]. rewrite IH. tauto. Qed.
Lemma split_spec n p l : name_ok n -> split_name n = Some (p, l) <->
  (p = "" /\ l = n /\ prefix_ok n) \/ (prefix_ok p /\ prefix_ok l /\ n = p ++ ":" ++ l).
Proof.
  intros N. split.
  - intros S. apply split_inv in S as [(-> & -> & C & _)|(P & -> & CP & CL & c & r & -> & SC)]; [left; repeat split; auto; apply N|right].
    destruct N as [N1 N2]. apply all_chars_app in N2 as [N2 [_ N3]]. splits; auto; split; auto; split; auto.
    destruct p as [|d p]; [congruence|]. exact N1.
  - intros [(-> & -> & [_ C])|([[P1 P2] CP] & [[L1 L2] CL] & ->)].
    + now apply split_local.
    + destruct l as [|c r]; [destruct L1|]. apply split_prefixed; auto. intros ->. destruct P1.
Qed.

(** ** Bindings *)
Definition agree (env : bindings) (c : list attrs) : Prop :=
  (forall p u, p <> "xml" -> (assoc p env = Some u <-> bound c p u)) /\ (forall p u, assoc p env = Some u -> u = "" -> p = "").
Lemma declaring_split p : p = "" \/ prefix_ok p -> split_name (declaring p) = Some (if String.eqb p "" then ("", "xmlns") else ("xmlns", p)).
Proof.
  intros [->|P]; [reflexivity|]. unfold declaring. destruct (String.eqb_spec p "") as [->|N]; [destruct P as [[[] _] _]|].
  change ("xmlns:" ++ p) with ("xmlns" ++ ":" ++ p). destruct P as [[P1 _] C]. destruct p as [|d p]; [destruct P1|]. now apply split_prefixed.
Qed.
Lemma declaration_spec p u : declaration_ok p u = true <-> allowed p u.
Proof.
  unfold declaration_ok, allowed. destruct (String.eqb_spec p "") as [->|N0].
  - rewrite andb_true_iff, !negb_true_iff, !String.eqb_neq. intuition discriminate.
  - destruct (String.eqb_spec p "xml") as [->|N1].
    + rewrite String.eqb_eq. split; [intros ->; repeat split; try discriminate; auto|]. tauto.
    + rewrite !andb_true_iff, !negb_true_iff, !String.eqb_neq. intuition.
Qed.
Lemma declaring_inj p q : declaring p = declaring q -> p = q.
Proof.
  unfold declaring. destruct (String.eqb_spec p "") as [->|P], (String.eqb_spec q "") as [->|Q]; intros E; try reflexivity; try discriminate. now injection E.
Qed.
(** The declarations among the attributes. *)
Lemma sort_decls a : forall ds rest, (forall n v, In (n, v) a -> name_ok n) -> sort_attrs a = Some (ds, rest) ->
  (forall p u, In (p, u) ds <-> In (declaring p, u) a) /\ (forall p u, In (p, u) ds -> (p = "" \/ prefix_ok p) /\ allowed p u).
Proof.
  induction a as [|[n v] a IH]; intros ds rest N E; [injection E as <- <-; split; [reflexivity|intros p u []]|]. cbn [sort_attrs] in E.
  destruct (split_name n) as [[p l]|] eqn:S; [|discriminate]. destruct (sort_attrs a) as [[ds' rest']|]; [|discriminate].
  destruct (IH ds' rest' ltac:(intros; eapply N; right; eauto) eq_refl) as [H1 H2]. apply split_spec in S; [|exact (N n v (or_introl eq_refl))].
  destruct S as [(-> & -> & L)|(P & L & ->)].
  - destruct (String.eqb_spec n "xmlns") as [->|NX]; cbn [andb String.eqb] in E.
    + change (("xmlns" =? "")%string) with false in E. destruct (declaration_ok "" v) eqn:D; [|discriminate]. injection E as <- <-. apply declaration_spec in D. split.
      * intros q u. cbn [In]. rewrite H1. split; (intros [I|I]; [|auto]).
        -- injection I as <- <-. now left.
        -- left. assert (X : declaring "" = declaring q) by (cbn; congruence). apply declaring_inj in X. congruence.
      * intros q u [I|I]; [|auto]. injection I as <- <-. auto.
    + injection E as <- <-. split; [|exact H2]. intros q u. cbn [In]. rewrite H1. split; [auto|]. intros [I|I]; [exfalso|exact I]. injection I as I _.
      unfold declaring in I. destruct (q =? ""); [congruence|]. rewrite I in L. destruct L as [_ C]. rewrite (colon_app "xmlns:") in C. discriminate.
  - assert (NE : (p =? "") = false) by (apply String.eqb_neq; intros ->; destruct P as [[[] _] _]). rewrite NE in E. cbn [andb] in E.
    destruct (String.eqb_spec p "xmlns") as [->|NX].
    + destruct (declaration_ok l v) eqn:D; [|discriminate]. injection E as <- <-. apply declaration_spec in D.
      assert (X : declaring l = "xmlns" ++ ":" ++ l) by (unfold declaring; destruct (String.eqb_spec l "") as [->|]; [destruct L as [[[] _] _]|reflexivity]). split.
      * intros q u. cbn [In]. rewrite H1. split; (intros [I|I]; [|auto]).
        -- injection I as <- <-. left. now rewrite X.
        -- left. injection I as I1 I2. rewrite I2. f_equal. apply declaring_inj. rewrite X. exact I1.
      * intros q u [I|I]; [|auto]. injection I as <- <-. auto.
    + injection E as <- <-. split; [|exact H2]. intros q u. cbn [In]. rewrite H1. split; [auto|]. intros [I|I]; [exfalso|exact I]. injection I as I _.
      unfold declaring in I. destruct (q =? ""); [now apply (f_equal has_colon) in I; rewrite !colon_app in I; cbn in I; rewrite orb_true_r in I|].
      apply NX. assert (J : p ++ ":" ++ l = "xmlns" ++ ":" ++ q) by exact I. apply (f_equal (partition_at ":")) in J. rewrite !partition_colon in J by (apply P || reflexivity). congruence.
Qed.
Lemma assoc_unique (l : bindings) p u : (forall q v w, In (q, v) l -> In (q, w) l -> v = w) -> assoc p l = Some u <-> In (p, u) l.
Proof.
  intros F. split; [apply assoc_In|]. induction l as [|[q v] l IH]; [intros []|]. intros I. cbn. destruct (String.eqb_spec p q) as [->|N].
  - f_equal. eapply F; [left; reflexivity|exact I].
  - destruct I as [E|I]; [congruence|]. apply IH; auto. intros q' v' w' A B. eapply F; right; eauto.
Qed.
Lemma unique_keys {B} (a : list (string * B)) : NoDup (map fst a) -> forall n v w, In (n, v) a -> In (n, w) a -> v = w.
Proof.
  induction a as [|[m x] a IH]; intros N n v w; [intros []|]. cbn [map fst] in N. inversion N as [|? ? X Y]; subst. intros [E|I] [F|J]; try congruence; eauto.
  - injection E as -> ->. destruct X. apply in_map_iff. exists (n, w). auto.
  - injection F as -> ->. destruct X. apply in_map_iff. exists (n, v). auto.
Qed.
Lemma agree_inner env c a ds rest : agree env c -> (forall n v, In (n, v) a -> name_ok n) -> NoDup (map fst a) -> sort_attrs a = Some (ds, rest) ->
  agree (ds ++ env)%list (a :: c).
Proof.
  intros [A1 A2] N D S. destruct (sort_decls a ds rest N S) as [H1 H2].
  assert (U : forall p u, assoc p ds = Some u <-> In (declaring p, u) a).
  { intros p u. rewrite <- H1. apply assoc_unique. intros q v w I J. apply H1 in I, J. eapply unique_keys; eauto. }
  split.
  - intros p u NX. rewrite assoc_app. destruct (assoc p ds) as [w|] eqn:E.
    + apply U in E. split.
      * intros F. injection F as <-. now apply bound_here.
      * intros B. inversion B as [|? ? ? ? _ I|? ? ? ? _ I _]; subst; [congruence|f_equal; eapply unique_keys; eauto|]. destruct I. apply in_map_iff. exists (declaring p, w). auto.
    + assert (X : ~ In (declaring p) (map fst a)).
      { intros I. apply in_map_iff in I as ([m w] & F & I). cbn in F. subst. apply U in I. congruence. }
      rewrite A1 by exact NX. split; [now apply bound_outer|]. intros B. inversion B as [|? ? ? ? _ I|? ? ? ? _ _ I]; subst; [congruence| |exact I].
      destruct X. apply in_map_iff. exists (declaring p, u). auto.
  - intros p u. rewrite assoc_app. destruct (assoc p ds) as [w|] eqn:E; [|apply A2]. intros F. injection F as <-. apply assoc_In, H2 in E as [_ (_ & _ & _ & E)]. exact E.
Qed.
Lemma agree_lookup env c p u : agree env c -> lookup env p = Some u <-> bound c p u.
Proof.
  intros [A _]. unfold lookup. destruct (String.eqb_spec p "xml") as [->|N]; [|now apply A]. split.
  - intros E. injection E as <-. constructor.
  - intros B. inversion B; subst; congruence.
Qed.
Lemma in_some u l : u <> "" -> in_namespace u l = "{" ++ u ++ "}" ++ l.
Proof. intros N. unfold in_namespace. apply String.eqb_neq in N. now rewrite N. Qed.
Lemma lookup_some env c p u : agree env c -> prefix_ok p -> lookup env p = Some u -> u <> "".
Proof.
  intros [_ A] P. unfold lookup. destruct (p =? "xml"); [intros E; injection E as <-; discriminate|]. intros E ->. specialize (A p "" E eq_refl). subst. destruct P as [[[] _] _].
Qed.
Lemma tag_spec env c n m : agree env c -> name_ok n -> expand_tag env n = Some m <-> element_name c n m.
Proof.
  intros A N. unfold expand_tag. split.
  - destruct (split_name n) as [[p l]|] eqn:S; [|discriminate]. apply split_spec in S; [|exact N]. destruct S as [(-> & -> & L)|(P & L & ->)].
    + cbn [String.eqb]. destruct (assoc "" env) as [u|] eqn:E.
      * apply (proj1 A) in E; [|discriminate]. destruct (String.eqb_spec u "") as [->|NU]; intros F; injection F as <-; [now apply element_undone|]. rewrite in_some by exact NU. now apply element_default.
      * intros F. injection F as <-. apply element_plain; [exact L|]. intros u B. apply (proj1 A) in B; [congruence|discriminate].
    + destruct (String.eqb_spec p "") as [->|_]; [destruct P as [[[] _] _]|]. destruct (lookup env p) as [u|] eqn:E; [|discriminate]. intros F. injection F as <-.
      rewrite in_some by (exact (lookup_some env c p u A P E)). apply element_prefixed; auto. now apply (agree_lookup env).
  - intros H. inversion H as [p l u P L B|l u L B NU|l L B|l L B]; subst.
    + rewrite (proj2 (split_spec _ p l N)) by auto. destruct (String.eqb_spec p "") as [->|_]; [destruct P as [[[] _] _]|]. apply (agree_lookup env) in B; [|exact A]. rewrite B.
      f_equal. apply in_some. exact (lookup_some env c p u A P B).
    + rewrite (proj2 (split_spec _ "" n N)) by auto. cbn [String.eqb]. apply (proj1 A) in B; [|discriminate]. rewrite B. f_equal. now apply in_some.
    + rewrite (proj2 (split_spec _ "" m N)) by auto. cbn [String.eqb]. apply (proj1 A) in B; [|discriminate]. now rewrite B.
    + rewrite (proj2 (split_spec _ "" m N)) by auto. cbn [String.eqb]. destruct (assoc "" env) as [u|] eqn:E; [|reflexivity]. apply (proj1 A) in E; [|discriminate]. destruct (B u E).
Qed.
Lemma attrs_spec env c a : agree env c -> forall ds rest b, (forall n v, In (n, v) a -> name_ok n) -> sort_attrs a = Some (ds, rest) ->
  expand_attrs env rest = Some b <-> kept c a b /\ NoDup (map fst b).
Proof.
  intros A. induction a as [|[n v] a IH]; intros ds rest b N E.
  - injection E as <- <-. cbn. split; [intros F; injection F as <-; split; constructor|]. intros [K _]. inversion K. reflexivity.
  - cbn [sort_attrs] in E. destruct (split_name n) as [[p l]|] eqn:S; [|discriminate]. destruct (sort_attrs a) as [[ds' rest']|]; [|discriminate].
    assert (Nn := N n v (or_introl eq_refl)). assert (SP := S). apply split_spec in S; [|exact Nn].
    specialize (IH ds' rest'). assert (N' : forall n v, In (n, v) a -> name_ok n) by (intros; eapply N; right; eauto).
    assert (KI : forall d, kept c ((n, v) :: a) d ->
      (exists q, n = declaring q /\ (q = "" \/ prefix_ok q) /\ allowed q v /\ kept c a d) \/
      (exists d', local_name n /\ d = (n, v) :: d' /\ kept c a d') \/
      (exists q m u d', prefix_ok q /\ q <> "xmlns" /\ prefix_ok m /\ bound c q u /\ n = q ++ ":" ++ m /\ d = ("{" ++ u ++ "}" ++ m, v) :: d' /\ kept c a d')).
    { intros d K. remember ((n, v) :: a) as na eqn:EQ. destruct K as [|q u a1 b1 Q AL K|n1 v1 a1 b1 L K|q m u v1 a1 b1 Q X L B K]; [discriminate| | |]; injection EQ as EQ1 EQ2 EQ3; rewrite <- ?EQ1, <- ?EQ2, <- ?EQ3 in *; clear EQ1 EQ2 EQ3.
      - left. exists q. auto.
      - right; left. exists b1. auto.
      - right; right. exists q, m, u, b1. auto 10. }
    assert (CONS : forall m b', expand_attrs env rest' = Some b' -> (if existsb (fun q => String.eqb m (fst q)) b' then None else Some ((m, v) :: b')) = Some b <-> b = (m, v) :: b' /\ NoDup (map fst b)).
    { intros m b' X. apply IH in X; [|exact N'|reflexivity]. destruct X as [_ ND]. destruct (existsb (fun q => String.eqb m (fst q)) b') eqn:EX.
      - split; [discriminate|]. intros [-> D]. cbn [map fst] in D. inversion D as [|? ? NI _]; subst. apply existsb_fst in NI. congruence.
      - apply existsb_fst in EX. split; [intros F; injection F as <-; split; [reflexivity|constructor; auto]|]. now intros [-> _]. }
    destruct S as [(-> & -> & L)|(P & L & ->)].
    + destruct (String.eqb_spec n "xmlns") as [->|NX]; cbn [andb String.eqb] in E.
      * change (("xmlns" =? "")%string) with false in E. destruct (declaration_ok "" v) eqn:D; [|discriminate]. injection E as <- <-. apply declaration_spec in D.
        rewrite (IH b N' eq_refl). split; intros [K ND]; (split; [|exact ND]).
        -- change "xmlns" with (declaring ""). apply kept_declaration; auto.
        -- apply KI in K as [(q & _ & _ & _ & K)|[(d' & (_ & _ & X) & _)|(q & m & u & d' & Q & _ & _ & _ & F & _)]]; [exact K|congruence|]. apply (f_equal has_colon) in F. rewrite !colon_app in F. cbn in F. rewrite orb_true_r in F. discriminate.
      * injection E as <- <-. cbn [expand_attrs String.eqb]. assert (LN : local_name n) by (destruct L; repeat split; auto; apply Nn).
        destruct (expand_attrs env rest') as [b'|] eqn:X.
        -- rewrite (CONS n b' eq_refl). destruct (proj1 (IH b' N' eq_refl) eq_refl) as [K' ND']. split; intros [K ND]; (split; [|exact ND]); [subst; now apply kept_plain|].
           apply KI in K as [(q & F & Q & _ & _)|[(d' & _ & -> & K)|(q & m & u & d' & Q & _ & _ & _ & F & _)]].
           ++ exfalso. unfold declaring in F. destruct (q =? ""); [congruence|]. rewrite F in L. destruct L as [_ C]. rewrite (colon_app "xmlns:") in C. discriminate.
           ++ f_equal. cbn [map fst] in ND. assert (ND2 : NoDup (map fst d')) by (now inversion ND). assert (X2 : Some b' = Some d') by (apply IH; auto). congruence.
           ++ exfalso. rewrite F in L. destruct L as [_ C]. rewrite !colon_app in C. cbn in C. rewrite orb_true_r in C. discriminate.
        -- split; [discriminate|]. intros [K ND]. exfalso. apply KI in K as [(q & F & Q & _ & _)|[(d' & _ & -> & K)|(q & m & u & d' & Q & _ & _ & _ & F & _)]].
           ++ unfold declaring in F. destruct (q =? ""); [congruence|]. rewrite F in L. destruct L as [_ C]. rewrite (colon_app "xmlns:") in C. discriminate.
           ++ assert (ND2 : NoDup (map fst d')) by (now inversion ND). assert (X2 : None = Some d') by (apply IH; auto). discriminate.
           ++ rewrite F in L. destruct L as [_ C]. rewrite !colon_app in C. cbn in C. rewrite orb_true_r in C. discriminate.
    + assert (NE : (p =? "") = false) by (apply String.eqb_neq; intros ->; destruct P as [[[] _] _]). rewrite NE in E. cbn [andb] in E.
      assert (SPLIT : forall q m, prefix_ok q -> prefix_ok m -> p ++ ":" ++ l = q ++ ":" ++ m -> p = q /\ l = m).
      { intros q m Q M F. apply (f_equal (partition_at ":")) in F. rewrite !partition_colon in F by (apply P || apply Q). injection F as -> ->. auto. }
      assert (XM : prefix_ok "xmlns") by (split; [split; [reflexivity|repeat split]|reflexivity]).
      destruct (String.eqb_spec p "xmlns") as [->|NX].
      * destruct (declaration_ok l v) eqn:D; [|discriminate]. injection E as <- <-. apply declaration_spec in D. rewrite (IH b N' eq_refl).
        assert (X : declaring l = "xmlns" ++ ":" ++ l) by (unfold declaring; destruct (String.eqb_spec l "") as [->|]; [destruct L as [[[] _] _]|reflexivity]).
        split; intros [K ND]; (split; [|exact ND]).
        -- rewrite <- X. apply kept_declaration; auto.
        -- apply KI in K as [(q & _ & _ & _ & K)|[(d' & (_ & C & _) & _)|(q & m & u & d' & Q & NQ & M & _ & F & _)]]; [exact K| |].
           ++ rewrite !colon_app in C. cbn in C. discriminate.
           ++ destruct (SPLIT q m Q M F). congruence.
      * injection E as <- <-. cbn [expand_attrs]. rewrite NE.
        assert (KI' : forall d, kept c ((p ++ ":" ++ l, v) :: a) d -> exists u d', bound c p u /\ d = ("{" ++ u ++ "}" ++ l, v) :: d' /\ kept c a d').
        { intros d K. apply KI in K as [(q & F & Q & _ & _)|[(d' & (_ & C & _) & _)|(q & m & u & d' & Q & NQ & M & B & F & -> & K)]].
          - exfalso. destruct Q as [E|Q].
            + rewrite E in F. apply (f_equal has_colon) in F. rewrite !colon_app in F. cbn in F. rewrite orb_true_r in F. discriminate.
            + assert (NQ : q <> "") by (intros E; rewrite E in Q; destruct Q as [[[] _] _]). unfold declaring in F. apply String.eqb_neq in NQ. rewrite NQ in F.
              assert (J : p ++ ":" ++ l = "xmlns" ++ ":" ++ q) by exact F. destruct (SPLIT "xmlns" q XM Q J). congruence.
          - rewrite !colon_app in C. cbn in C. rewrite orb_true_r in C. discriminate.
          - destruct (SPLIT q m Q M F) as [F1 F2]. rewrite <- F1 in B. rewrite <- F2. exists u, d'. auto. }
        destruct (lookup env p) as [u|] eqn:LU.
        -- assert (NU : u <> "") by (exact (lookup_some env c p u A P LU)). assert (B := LU). apply (agree_lookup env c) in B; [|exact A]. rewrite in_some by exact NU.
           destruct (expand_attrs env rest') as [b'|] eqn:X.
           ++ rewrite (CONS _ b' eq_refl). destruct (proj1 (IH b' N' eq_refl) eq_refl) as [K' ND']. split; intros [K ND]; (split; [|exact ND]); [subst; now apply kept_prefixed|].
              apply KI' in K as (u' & d' & B' & -> & K). apply (agree_lookup env c) in B'; [|exact A]. rewrite LU in B'. injection B' as <-.
              f_equal. assert (ND2 : NoDup (map fst d')) by (now inversion ND). assert (X2 : Some b' = Some d') by (apply IH; auto). congruence.
           ++ split; [discriminate|]. intros [K ND]. exfalso. apply KI' in K as (u' & d' & B' & -> & K). assert (ND2 : NoDup (map fst d')) by (now inversion ND). assert (X2 : None = Some d') by (apply IH; auto). discriminate.
        -- split; [discriminate|]. intros [K ND]. exfalso. apply KI' in K as (u' & d' & B' & -> & K). apply (agree_lookup env c) in B'; [|exact A]. congruence.
Qed.
Lemma kept_sorts c a b : kept c a b -> (forall n v, In (n, v) a -> name_ok n) -> exists ds rest, sort_attrs a = Some (ds, rest).
Proof.
  induction 1 as [|p u a b P AL K IH|n v a b L K IH|p l u v a b P X L B K IH]; intros N; [do 2 eexists; reflexivity| | |];
    (destruct IH as (ds & rest & IH); [intros; eapply N; right; eauto|]); cbn [sort_attrs]; rewrite IH.
  - rewrite (declaring_split p P). apply declaration_spec in AL. destruct (String.eqb_spec p "") as [->|NP].
    + cbn [String.eqb andb Ascii.eqb Bool.eqb]. rewrite AL. eauto.
    + change ("xmlns" =? "") with false. cbn [andb]. change ("xmlns" =? "xmlns") with true. cbv iota. rewrite AL. eauto.
  - destruct L as (N1 & C & X). rewrite (split_local n N1 C). apply String.eqb_neq in X. rewrite X. cbn. eauto.
  - rewrite (proj2 (split_spec _ p l (N _ v (or_introl eq_refl)))) by auto. assert (NE : (p =? "") = false) by (apply String.eqb_neq; intros ->; destruct P as [[[] _] _]). rewrite NE. cbn [andb].
    apply String.eqb_neq in X. rewrite X. eauto.
Qed.
Lemma all_some_spec {A B} (f : A -> option B) l : forall m, all_some (map f l) = Some m <-> Forall2 (fun x y => f x = Some y) l m.
Proof.
  induction l as [|x l IH]; intros m; cbn.
  - split; [intros E; injection E as <-; constructor|]. intros F. inversion F. reflexivity.
  - split.
    + destruct (f x) as [y|] eqn:E; [|discriminate]. destruct (all_some (map f l)) as [ys|] eqn:F; [|discriminate]. intros G. injection G as <-. constructor; [exact E|]. now apply IH.
    + intros F. inversion F as [|? y ? ys E G]; subst. rewrite E. apply IH in G. now rewrite G.
Qed.
Lemma Forall2_In {A B} (P Q : A -> B -> Prop) l : forall m, (forall x y, In x l -> P x y -> Q x y) -> Forall2 P l m -> Forall2 Q l m.
Proof. induction l as [|x l IH]; intros m H F; inversion F; subst; constructor; [apply H; auto; now left|]. apply IH; auto. intros; apply H; auto. now right. Qed.
Lemma resolve_spec x : named x -> forall env c, agree env c -> forall y, resolve env x = Some y <-> means c x y.
Proof.
  induction x as [tag a t kids tails IH] using xml_ind'. intros H env c A y. inversion H as [? ? ? ? ? N AN D K]; subst. cbn [resolve]. split.
  - destruct (sort_attrs a) as [[ds rest]|] eqn:S; [|discriminate]. assert (A' := agree_inner env c a ds rest A AN D S).
    destruct (expand_tag _ tag) as [n|] eqn:E1; [|discriminate]. destruct (expand_attrs _ rest) as [b|] eqn:E2; [|discriminate]. destruct (all_some _) as [ks|] eqn:E3; [|discriminate].
    intros E. injection E as <-. apply (tag_spec _ _ tag n A' N) in E1. apply (attrs_spec _ _ a A' ds rest b AN S) in E2 as [E2 ND]. apply all_some_spec in E3.
    constructor; auto. eapply Forall2_In; [|exact E3]. intros k z I. now apply IH; auto.
  - intros M. inversion M as [? ? tag' ? b ? ? kids' ? E1 E2 ND E3]; subst. destruct (kept_sorts _ a b E2 AN) as (ds & rest & S). rewrite S. assert (A' := agree_inner env c a ds rest A AN D S).
    rewrite (proj2 (tag_spec _ _ tag tag' A' N) E1), (proj2 (attrs_spec _ _ a A' ds rest b AN S) (conj E2 ND)).
    rewrite (proj2 (all_some_spec _ kids kids')); [reflexivity|]. eapply Forall2_In; [|exact E3]. intros k z I. now apply IH; auto.
Qed.
Lemma names_iff s y : parse_names s = Ok y <-> exists x, spelled_document x s /\ means [] x y.
Proof.
  assert (A : agree [] []).
  { split; [|discriminate]. intros p u N. split; [discriminate|]. intros B. inversion B. congruence. }
  unfold parse_names. split.
  - destruct (parse s) as [x|e] eqn:P; [|discriminate]. destruct (resolve [] x) as [z|] eqn:R; [|discriminate]. intros E. injection E as <-. exists x. split; [now apply parse_iff|].
    eapply resolve_spec; eauto. eapply parsed_named; eauto.
  - intros (x & P & M). apply parse_iff in P. rewrite P. rewrite (proj2 (resolve_spec x (parsed_named s x P) [] [] A y) M). reflexivity.
Qed.
