(** Proofs about writing documents (C39). *)
From Coq Require Import Permutation.
From Verif Require Import Base PBase MHeap SHeap PHeap MWork SWork PWork PTmpl.

(** ** Configured documents *)

Lemma same_except_refl d h : same_except d h h.
Proof. split; [reflexivity|]. intros i o E. exists o. auto 10. Qed.

Lemma same_except_trans d a b c : same_except d a b -> same_except d b c -> same_except d a c.
Proof.
  intros [L1 H1] [L2 H2]. split; [congruence|]. intros i o E.
  destruct (H1 i o E) as (o1 & E1 & K1 & N1 & X1). destruct (H2 i o1 E1) as (o2 & E2 & K2 & N2 & X2).
  exists o2. split; [exact E2|]. split; [congruence|]. split; [congruence|].
  intros D. destruct (X1 D) as (A & B & C), (X2 D) as (A' & B' & C'). repeat split; congruence.
Qed.

Lemma same_except_get d h h' i : same_except d h h' ->
  match get h i with
  | Some o => exists o', get h' i = Some o' /\ o_kind o' = o_kind o /\ o_name o' = o_name o /\
      (i <> d -> o_packages o' = o_packages o /\ o_elements o' = o_elements o /\ o_map o' = o_map o)
  | None => get h' i = None
  end.
Proof.
  intros [L H]. destruct (get h i) as [o|] eqn:E; [exact (H i o E)|].
  unfold get in *. apply nth_error_None in E. apply nth_error_None. lia.
Qed.

Lemma same_except_ids d h h' : same_except d h h' -> same_ids h h'.
Proof. intros [_ H] i o E. destruct (H i o E) as (o' & E' & K & N & _). eauto. Qed.

Lemma first_named_se d h h' n l : same_except d h h' -> first_named h' n l = first_named h n l.
Proof.
  intros S. induction l as [|i l IH]; [reflexivity|]. cbn [first_named].
  pose proof (same_except_get d h h' i S) as X.
  destruct (get h i) as [o|]; [destruct X as (o' & -> & _ & -> & _)|rewrite X]; now rewrite IH.
Qed.

Lemma item_find_se d h h' : same_except d h h' -> has_kind KColl h d ->
  forall f p ref, item_find f h' p ref = item_find f h p ref.
Proof.
  intros S (do & Ed & Kd) f. induction f as [|f IH]; intros p ref; [reflexivity|]. cbn [item_find].
  pose proof (same_except_get d h h' p S) as X.
  destruct (get h p) as [o|] eqn:E; [|now rewrite X].
  destruct X as (o' & -> & K & N & C). rewrite K.
  destruct (Nat.eq_dec p d) as [->|D].
  - change (nth_error h d) with (get h d) in Ed. rewrite E in Ed. injection Ed as ->. now rewrite Kd.
  - destruct (C D) as (_ & Ee & Em). rewrite Ee, Em. destruct (o_kind o); auto.
    + destruct (partition_slash (strip_slash ref)) as [n rest].
      destruct (assoc n (o_map o)); auto. now rewrite IH.
    + now rewrite (first_named_se d h h').
Qed.

Lemma coll_find_se d h h' c : same_except d h h' -> has_kind KColl h d -> c <> d ->
  forall ref, coll_find h' c ref = coll_find h c ref.
Proof.
  intros S K D ref. unfold coll_find. pose proof (same_except_get d h h' c S) as X.
  destruct (get h c) as [o|] eqn:E; [|now rewrite X].
  destruct X as (o' & -> & _ & _ & C). destruct (C D) as (_ & _ & ->).
  destruct (partition_slash (strip_slash ref)) as [n rest].
  destruct (assoc n (o_map o)); auto. now rewrite (item_find_se d h h').
Qed.

Lemma same_except_kind d h h' k i : same_except d h h' -> has_kind k h i <-> has_kind k h' i.
Proof.
  intros S. pose proof (same_except_get d h h' i S) as X. unfold has_kind.
  change (nth_error h i) with (get h i). change (nth_error h' i) with (get h' i).
  destruct (get h i) as [o|].
  - destruct X as (o' & -> & K & _). split; intros (x & [= <-] & Y); eexists; split; eauto; congruence.
  - rewrite X. split; intros (x & Y & _); discriminate.
Qed.

Lemma resolved_se d h h' ws refs ps : same_except d h h' -> has_kind KColl h d -> ws <> d ->
  resolved h ws refs ps -> resolved h' ws refs ps.
Proof.
  intros S K D. induction 1; [constructor|apply re_found|apply re_none]; auto;
    rewrite ?(coll_find_se d h h' ws S K D); auto. now apply (same_except_kind d h h').
Qed.

Lemma name_of_se d h h' i : same_except d h h' -> name_of h' i = name_of h i.
Proof.
  intros S. pose proof (same_except_get d h h' i S) as X. unfold name_of.
  change (nth_error h i) with (get h i). change (nth_error h' i) with (get h' i).
  destruct (get h i); [destruct X as (o' & -> & _ & -> & _)|rewrite X]; reflexivity.
Qed.

(** One append to a document. *)
Lemma coll_append_effect h d do p po :
  get h d = Some do -> get h p = Some po -> o_kind po = KPkg -> o_kind do = KColl ->
  match assoc (o_name po) (o_map do) with
  | Some _ => coll_append h d p = (h, Err ValueError)
  | None => exists h', coll_append h d p = (h', Ok tt) /\ same_except d h h' /\
      get h' d = Some (add_package (o_name po) p do) /\
      (exists po', get h' p = Some po' /\ o_parent po' = Some d) /\
      (forall j o, j <> p -> j <> d -> get h j = Some o -> get h' j = Some o)
  end.
Proof.
  intros Ed Ep KP KD. unfold coll_append. rewrite Ed, Ep, KP.
  destruct (assoc (o_name po) (o_map do)) eqn:A; [reflexivity|].
  assert (D : p <> d) by (intros ->; congruence).
  eexists. split; [reflexivity|]. fold (attach add_package h d p (o_name po)). split; [|split; [|split]].
  - split; [unfold attach; now rewrite !upd_length|]. intros i o E.
    change (nth_error (attach add_package h d p (o_name po)) i) with (get (attach add_package h d p (o_name po)) i).
    change (nth_error h i) with (get h i) in E. rewrite get_attach, E.
    eexists. split; [reflexivity|].
    destruct (Nat.eqb_spec d i) as [->|N], (Nat.eqb_spec p i) as [->|N2]; cbn; auto 10;
      (split; [reflexivity|]; split; [reflexivity|]; intros Y; try contradiction; auto).
  - rewrite get_attach, Ed, Nat.eqb_refl. replace (Nat.eqb p d) with false by (symmetry; now apply Nat.eqb_neq).
    reflexivity.
  - rewrite get_attach, Ep, Nat.eqb_refl. replace (Nat.eqb d p) with false by (symmetry; apply Nat.eqb_neq; congruence).
    eexists. split; reflexivity.
  - intros j o N1 N2 E. rewrite get_attach, E.
    replace (Nat.eqb d j) with false by (symmetry; apply Nat.eqb_neq; congruence).
    replace (Nat.eqb p j) with false by (symmetry; apply Nat.eqb_neq; congruence). reflexivity.
Qed.

Lemma doc_map h d do n : Inv h -> get h d = Some do -> o_kind do = KColl ->
  (assoc n (o_map do) <> None <-> In n (map (name_of h) (o_packages do))).
Proof.
  intros I E K. destruct (I d do E) as [_ G2 _ G4 _ _ _]. destruct G2 as [P _]; [right; exact K|].
  assert (NE : o_elements do = []).
  { destruct (o_elements do) as [|x l]; [reflexivity|]. specialize (G4 x (or_introl eq_refl)). rewrite K in G4. destruct G4. }
  assert (M : Permutation (map fst (o_map do)) (map (name_of h) (o_packages do))).
  { unfold kids in P. rewrite NE, app_nil_r in P. apply (Permutation_map fst) in P.
    rewrite map_map in P. exact P. }
  split.
  - intros A. eapply Permutation_in; [exact M|].
    destruct (in_dec string_dec n (map fst (o_map do))) as [X|X]; [exact X|].
    apply assoc_none in X. contradiction.
  - intros A X. apply assoc_none in X. apply X. eapply Permutation_in; [symmetry; exact M|exact A].
Qed.

Lemma packages_of_get h d o : get h d = Some o -> packages_of h d = o_packages o.
Proof. unfold packages_of, get. now intros ->. Qed.

Lemma put_inv h ws d refs : Inv h -> has_kind KColl h d -> ws <> d ->
  forall h' r, put_packages h ws d refs = (h', r) ->
  Inv h' /\ same_except d h h' /\
  (forall ps, resolved h ws refs ps ->
     (r = Ok tt <-> NoDup (map (name_of h) ps) /\ (forall p, In p ps -> ~ In (name_of h p) (map (name_of h) (packages_of h d)))) /\
     (r <> Ok tt -> r = Err ValueError)) /\
  (r = Ok tt -> exists ps, resolved h ws refs ps /\ packages_of h' d = packages_of h d ++ ps /\
     forall p, In p ps -> parent_is h' p (Some d)) /\
  (forall i o, get h i = Some o -> get h' i = Some o \/ i = d \/ parent_is h' i (Some d)).
Proof.
  intros I KD D. revert h I KD. induction refs as [|r refs IH]; intros h I KD h' x E; cbn [put_packages] in E.
  - injection E as <- <-. split; [exact I|]. split; [apply same_except_refl|]. split; [|split].
    + intros ps R. inversion R; subst. split; [|congruence]. split; [|reflexivity]. intros _.
      split; [constructor|]. intros p [].
    + intros _. exists []. rewrite app_nil_r. split; [constructor|]. split; [reflexivity|]. intros p [].
    + auto.
  - destruct (coll_find h ws r) as [[p|]|e] eqn:F.
    + destruct (is_kind KPkg h p) eqn:KP.
      2:{ injection E as <- <-. split; [exact I|]. split; [apply same_except_refl|]. split; [|split].
          - intros ps R. inversion R as [|? ? p' ? F' KP'|? ? ? F']; subst; [|congruence].
            rewrite F in F'. injection F' as <-. apply is_kind_has in KP'. congruence.
          - discriminate.
          - auto. }
      apply is_kind_has in KP. pose proof KP as (po & Ep & KPo). pose proof KD as (do & Ed & KDo).
      change (nth_error h p) with (get h p) in Ep. change (nth_error h d) with (get h d) in Ed.
      pose proof (coll_append_effect h d do p po Ed Ep KPo KDo) as CA.
      assert (NP : name_of h p = o_name po) by (unfold name_of; change (nth_error h p) with (get h p); now rewrite Ep).
      destruct (assoc (o_name po) (o_map do)) as [z|] eqn:A.
      * rewrite CA in E. injection E as <- <-. split; [exact I|]. split; [apply same_except_refl|].
        split; [|split; [discriminate|auto]].
        intros ps R. inversion R as [|? ? p' ps' F' KP' R'|? ? ? F']; subst; [|congruence].
        rewrite F in F'. injection F' as <-. split; [|reflexivity]. split; [discriminate|].
        intros (_ & N). exfalso. apply (N p); [now left|]. rewrite NP, (packages_of_get h d do Ed).
        apply (doc_map h d do _ I Ed KDo). congruence.
      * destruct CA as (h1 & C1 & S1 & Gd & (po1 & Gp & Pp) & Rest).
        rewrite C1 in E.
        assert (I1 : Inv h1).
        { pose proof (inv_coll_append h d p I) as X. rewrite C1 in X. apply X. eauto. }
        assert (KD1 : has_kind KColl h1 d) by now apply (same_except_kind d h h1).
        assert (PK1 : packages_of h1 d = packages_of h d ++ [p]).
        { rewrite (packages_of_get _ _ _ Gd), (packages_of_get _ _ _ Ed). reflexivity. }
        destruct (IH h1 I1 KD1 h' x E) as (I2 & S2 & T2 & P2 & O2).
        split; [exact I2|]. split; [eapply same_except_trans; eauto|]. split; [|split].
        -- intros ps R. inversion R as [|? ? p' ps' F' KP' R'|? ? ? F']; subst; [|congruence].
           rewrite F in F'. injection F' as <-.
           destruct (T2 ps' (resolved_se d h h1 ws refs ps' S1 KD D R')) as (T & Er). split; [|exact Er].
           rewrite T. rewrite PK1, map_app. cbn [map]. rewrite NP.
           assert (NM : forall l, map (name_of h1) l = map (name_of h) l).
           { intros l. apply map_ext. intros a. now apply (name_of_se d). }
           rewrite !NM. rewrite (name_of_se d h h1 p S1), NP. split.
           ++ intros (N1 & N2). split.
              ** constructor; [|exact N1]. intros J. apply in_map_iff in J as (y & Y1 & Y2).
                 apply (N2 y Y2). rewrite (name_of_se d h h1 y S1), Y1. apply in_or_app. right. now left.
              ** intros y [<-|J].
                 --- rewrite NP. intros J. rewrite (packages_of_get h d do Ed) in J.
                     apply (doc_map h d do _ I Ed KDo) in J. congruence.
                 --- intros Y. apply (N2 y J). rewrite (name_of_se d h h1 y S1). apply in_or_app. auto.
           ++ intros (N1 & N2). inversion N1 as [|? ? N3 N4]; subst. split; [exact N4|].
              intros y J Y. rewrite (name_of_se d h h1 y S1) in Y. apply in_app_iff in Y as [Y|[Y|[]]].
              ** apply (N2 y); [now right|exact Y].
              ** apply N3. rewrite Y. now apply in_map.
        -- intros ->. destruct (P2 eq_refl) as (ps & R & PK & PA). exists (p :: ps). split; [|split].
           ++ apply re_found; auto.
              assert (S1' : same_except d h1 h).
              { destruct S1 as [L S]. split; [congruence|]. intros i o1 E1. change (nth_error h1 i) with (get h1 i) in E1.
                pose proof (same_except_get d h h1 i (conj L S)) as X. destruct (get h i) as [o|] eqn:Ei.
                - destruct X as (o' & Eo & K & N & Y). rewrite E1 in Eo. injection Eo as <-. exists o.
                  split; [exact Ei|]. split; [congruence|]. split; [congruence|]. intros Di.
                  destruct (Y Di) as (Y1 & Y2 & Y3). repeat split; congruence.
                - congruence. }
              eapply resolved_se; eauto.
           ++ rewrite PK, PK1, <- app_assoc. reflexivity.
           ++ intros y [<-|J]; [|auto].
              destruct (O2 p po1 Gp) as [O|[O|O]]; [exists po1; auto| |exact O].
              exfalso. subst p. congruence.
        -- intros i o Ei. destruct (Nat.eq_dec i d) as [->|Nd]; [auto|].
           destruct (Nat.eq_dec i p) as [->|Np].
           ++ destruct (O2 p po1 Gp) as [O|[O|O]]; auto. right. right. exists po1. auto.
           ++ destruct (O2 i o (Rest i o Np Nd Ei)) as [O|[O|O]]; auto.
    + destruct (IH h I KD h' x E) as (I2 & S2 & T2 & P2 & O2).
      split; [exact I2|]. split; [exact S2|]. split; [|split; [|exact O2]].
      * intros ps R. inversion R as [|? ? p' ps' F' KP' R'|? ? ? F']; subst; [congruence|auto].
      * intros ->. destruct (P2 eq_refl) as (ps & R & PK & PA). exists ps. split; [now apply re_none|auto].
    + injection E as <- <-. split; [exact I|]. split; [apply same_except_refl|]. split; [|split].
      * intros ps R. inversion R; congruence.
      * discriminate.
      * auto.
Qed.

Lemma resolved_fun h ws refs ps ps' : resolved h ws refs ps -> resolved h ws refs ps' -> ps = ps'.
Proof.
  intros R; revert ps'; induction R as [|r rs p ps F K R IH|r rs ps F R IH]; intros ps' R'; inversion R'; subst; auto; try congruence.
  - rewrite F in *. match goal with H : Ok _ = Ok _ |- _ => injection H as -> end. f_equal. auto.
Qed.
