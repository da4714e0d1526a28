(** Proofs about the package map (C62) and about later lookups (C63). *)
From Verif Require Import Base PBase MHeap SHeap PHeap MWork SWork PWork MMap.

(** [h'] has everything [h] has: kinds and names stay, name maps and member lists keep what they hold. *)
Definition ext (h h' : heap) : Prop := forall i o, get h i = Some o ->
  exists o', get h' i = Some o' /\ o_kind o' = o_kind o /\ o_name o' = o_name o /\
    (forall n q, assoc n (o_map o) = Some q -> assoc n (o_map o') = Some q) /\
    exists new, o_elements o' = o_elements o ++ new.
Lemma ext_refl h : ext h h.
Proof. intros i o E. exists o. repeat split; auto. exists []. now rewrite app_nil_r. Qed.
Lemma ext_trans a b c : ext a b -> ext b c -> ext a c.
Proof.
  intros A B i o E. destruct (A i o E) as (o1 & E1 & K1 & N1 & M1 & (l1 & L1)). destruct (B i o1 E1) as (o2 & E2 & K2 & N2 & M2 & (l2 & L2)).
  exists o2. repeat split; try congruence; auto. exists (l1 ++ l2). now rewrite L2, L1, app_assoc.
Qed.
Lemma ext_grown h h' : grown h h' -> ext h h'.
Proof.
  intros G i o E. destruct (G i o E) as (o' & E' & K & N & _ & L & _ & (m & M)). exists o'. repeat split; auto.
  - intros n q A. now rewrite M, assoc_app, A.
  - exists []. now rewrite app_nil_r.
Qed.
Lemma ext_same h h' : ext h h' -> same_ids h h'.
Proof. intros G i o E. destruct (G i o E) as (o' & E' & K & N & _). eauto. Qed.
Lemma assoc_set_keeps {A} n k (v : A) m q : assoc k m = None -> assoc n m = Some q -> assoc n (assoc_set k v m) = Some q.
Proof.
  intros H K. destruct (String.eqb_spec n k) as [->|D]; [congruence|]. rewrite assoc_set_other; auto.
Qed.
Lemma ext_attach reg h p i po n : (reg = add_package \/ reg = add_element) -> get h p = Some po -> assoc n (o_map po) = None -> ext h (attach reg h p i n).
Proof.
  intros R Ep A j o E. rewrite get_attach, E. eexists. split; [reflexivity|].
  destruct (Nat.eqb_spec p j) as [->|D].
  - rewrite Ep in E. injection E as <-. destruct R as [-> | ->], (Nat.eqb i j); cbn; (repeat split; auto; [intros; now apply assoc_set_keeps|]);
      first [now exists [i]|exists []; now rewrite app_nil_r].
  - destruct (Nat.eqb i j); cbn; repeat split; auto; exists []; now rewrite app_nil_r.
Qed.
Lemma ext_pkg_append h p i : ext h (fst (pkg_append h p i)).
Proof.
  unfold pkg_append. destruct (get h p) as [po|] eqn:Ep; [|apply ext_refl]. destruct (get h i) as [io|] eqn:Ei; [|apply ext_refl].
  destruct (o_kind io); try apply ext_refl; (destruct (assoc (o_name io) (o_map po)) eqn:A; [apply ext_refl|]);
    cbn [fst]; eapply ext_attach; eauto.
Qed.
Lemma ext_coll_append h p i : ext h (fst (coll_append h p i)).
Proof.
  unfold coll_append. destruct (get h p) as [po|] eqn:Ep; [|apply ext_refl]. destruct (get h i) as [io|] eqn:Ei; [|apply ext_refl].
  destruct (o_kind io); try apply ext_refl; (destruct (assoc (o_name io) (o_map po)) eqn:A; [apply ext_refl|]);
    cbn [fst]; eapply ext_attach; eauto.
Qed.
Lemma ext_member h c i : ext h (fst (add_member h c i)).
Proof.
  unfold add_member. destruct (get h c) as [co|] eqn:Ec; [|apply ext_refl]. destruct (get h i) as [io|] eqn:Ei; [|apply ext_refl].
  assert (X : ext h (upd (upd h i (set_parent c)) c (add_member_to i))).
  { intros j o E. rewrite !get_upd, E. destruct (Nat.eqb c j), (Nat.eqb i j); cbn; eexists; (split; [reflexivity|]); cbn; repeat split; auto;
      first [now exists [i]|exists []; now rewrite app_nil_r]. }
  destruct (o_kind co), (o_kind io); first [exact X|apply ext_refl].
Qed.
Lemma ext_step h o : Inv h -> ext h (fst (step h o)).
Proof.
  intros H. destruct o as [k n|p i|c i|p n|c r|p r|c i]; cbn [step].
  - cbn. intros i o E. exists o. rewrite get_alloc. destruct (Nat.eqb_spec i (List.length h)) as [->|D]; [apply get_lt in E; lia|].
    repeat split; auto. exists []. now rewrite app_nil_r.
  - destruct (is_kind KPkg h p); [apply ext_pkg_append|apply ext_refl].
  - destruct (is_kind KColl h c); [apply ext_coll_append|apply ext_refl].
  - destruct (is_kind KPkg h p || is_kind KColl h p) eqn:K; [|apply ext_refl].
    assert (X : exists po, get h p = Some po) by (apply Bool.orb_true_iff in K as [K|K]; apply is_kind_spec in K as (po & K & _); eauto). destruct X as (po & Ep).
    destruct (create_package h p n) as [h1 [q|e]] eqn:C; cbn [fst].
    + apply ext_grown. eapply grown_create; eauto.
    + unfold create_package in C. rewrite Ep in C. destruct (assoc n (o_map po)); [|discriminate C]. injection C as <- _. apply ext_refl.
  - destruct (is_kind KColl h c) eqn:K; [|apply ext_refl]. apply is_kind_spec in K. destruct (coll_make h c r) as [h1 x] eqn:C.
    destruct (coll_make_inv h c r h1 x H K C) as (_ & G & _). apply ext_grown in G. now destruct x.
  - destruct (is_kind KPkg h p) eqn:K; [|apply ext_refl]. apply is_kind_spec in K. destruct (pkg_make (S (String.length r)) h p r) as [h1 x] eqn:C.
    destruct (pkg_make_inv _ h p r h1 x H K C) as (_ & G & _). apply ext_grown in G. now destruct x.
  - apply ext_member.
Qed.
Lemma ext_steps ops h : Inv h -> ext h (fold_left (fun h o => fst (step h o)) ops h).
Proof.
  revert h. induction ops as [|o ops IH]; cbn [fold_left]; intros h H; [apply ext_refl|].
  eapply ext_trans; [apply ext_step, H|]. apply IH, inv_step, H.
Qed.
(** Lookups *)
Lemma first_named_app h h' n l new i : same_ids h h' -> (forall j, In j l -> j < List.length h) ->
  first_named h n l = Some i -> first_named h' n (l ++ new) = Some i.
Proof.
  intros S L. rewrite <- (first_named_same h h' n l S L). clear L. induction l as [|j l IH]; cbn; [discriminate|].
  destruct (get h' j) as [o|]; auto. destruct (String.eqb (o_name o) n); auto.
Qed.
Lemma item_find_ext f h h' p ref i : Inv h -> ext h h' -> item_find f h p ref = Ok (Some i) -> item_find f h' p ref = Ok (Some i).
Proof.
  intros H G. revert p ref; induction f as [|f IH]; intros p ref E; [discriminate|]. cbn [item_find] in *.
  destruct (get h p) as [po|] eqn:Ep; [|discriminate]. destruct (G p po Ep) as (po' & Ep' & K & N & M & (new & L)). rewrite Ep', K.
  destruct (o_kind po) eqn:KP; try discriminate.
  - destruct (partition_slash (strip_slash ref)) as [n rest]. destruct (assoc n (o_map po)) as [q|] eqn:A; [|discriminate]. rewrite (M _ _ A).
    destruct (String.eqb rest ""); auto.
  - injection E as E. rewrite L. f_equal. apply (first_named_app h h'); [now apply ext_same| |exact E].
    intros j J. apply (g_kids h p po (H p po Ep)). unfold kids. apply in_or_app. now right.
Qed.
Lemma coll_find_ext h h' c ref i : Inv h -> ext h h' -> coll_find h c ref = Ok (Some i) -> coll_find h' c ref = Ok (Some i).
Proof.
  intros H G E. unfold coll_find in *. destruct (get h c) as [co|] eqn:Ec; [|discriminate]. destruct (G c co Ec) as (co' & -> & K & N & M & _).
  destruct (partition_slash (strip_slash ref)) as [n rest]. destruct (assoc n (o_map co)) as [q|] eqn:A; [|discriminate]. rewrite (M _ _ A).
  destruct (String.eqb rest ""); auto. eapply item_find_ext; eauto.
Qed.
(** The package map *)
Lemma fill_spec c : forall l h m h' m' x, Inv h -> (exists co, get h c = Some co /\ o_kind co = KColl) -> fill_packages h c m l = (h', m', x) ->
  Inv h' /\ grown h h' /\ (forall k, ~ In k (map fst l) -> assoc k m' = assoc k m) /\
  (x = Ok tt -> forall k, In k (map fst l) -> assoc k m' <> None) /\
  (x = Ok tt -> NoDup (map fst l) -> forall k r, In (k, r) l -> exists p, assoc k m' = Some p /\ coll_find h' c r = Ok (Some p)) /\
  ((forall k p, assoc k m = Some p -> kd h p = Some KPkg) -> forall k p, assoc k m' = Some p -> kd h' p = Some KPkg).
Proof.
  induction l as [|[k r] l IH]; intros h m h' m' x H C E; cbn [fill_packages] in E.
  - injection E as <- <- <-. split; [exact H|]. split; [apply grown_refl|]. split; [auto|]. split; [intros _ ? []|]. split; [intros _ _ ? ? []|auto].
  - destruct (coll_make h c r) as [h1 [p|e]] eqn:M.
    + destruct (coll_make_inv h c r h1 _ H C M) as (H1 & G1 & K1). destruct C as (co & Ec & KC).
      assert (C1 : exists co, get h1 c = Some co /\ o_kind co = KColl).
      { destruct (G1 c co Ec) as (co' & E1 & K & _). exists co'. split; [exact E1|congruence]. }
      destruct (IH h1 (assoc_set k p m) h' m' x H1 C1 E) as (H' & G' & A & B & D & F). split; [exact H'|]. split; [eapply grown_trans; eauto|]. split; [|split; [|split]].
      * intros k' N. cbn in N. rewrite A by tauto. apply assoc_set_other. intros ->. tauto.
      * intros X k' I. cbn in I. destruct (in_dec string_dec k' (map fst l)) as [J|J]; [now apply B|]. destruct I as [<-|I]; [|contradiction]. rewrite A by exact J. rewrite assoc_set_same. discriminate.
      * intros X ND k' r' [I|I]; inversion ND as [|? ? N1 N2]; subst.
        -- injection I as <- <-. exists p. split; [rewrite A by exact N1; apply assoc_set_same|].
           destruct (coll_make_find h c co r h1 p H Ec KC M) as (Fd & _). exact (coll_find_grown h1 h' c r p H1 G' Fd).
        -- apply D; auto.
      * intros O k' p' I. apply (F) with k'; [|exact I]. intros k2 p2. destruct (string_dec k2 k) as [->|N].
        -- rewrite assoc_set_same. intros Q. injection Q as <-. now apply K1.
        -- rewrite assoc_set_other by exact N. intros Q. apply (same_kd h h1); [now apply grown_same|]. now apply O with k2.
    + injection E as <- <- <-. destruct (coll_make_inv h c r h1 _ H C M) as (H1 & G1 & _). split; [exact H1|]. split; [exact G1|]. split; [auto|]. split; [discriminate|]. split; [discriminate|].
      intros O k' p' I. apply (same_kd h h1); [now apply grown_same|]. now apply O with k'.
Qed.
Lemma get_package_ok m k p : get_package m k = Ok p <-> assoc k m = Some p.
Proof. unfold get_package. destruct m as [|[a b] m]; [split; discriminate|]. destruct (assoc k ((a, b) :: m)); split; congruence. Qed.
(** States of a workspace with a map: what [map_run] keeps. *)
Definition map_inv (c : nat) (s : heap * list (string * nat)) : Prop :=
  Inv (fst s) /\ (exists co, get (fst s) c = Some co /\ o_kind co = KColl) /\ forall k p, assoc k (snd s) = Some p -> kd (fst s) p = Some KPkg.
Lemma ext_coll h h' c : ext h h' -> (exists co, get h c = Some co /\ o_kind co = KColl) -> exists co, get h' c = Some co /\ o_kind co = KColl.
Proof. intros X (co & E & K). destruct (X c co E) as (co' & E' & K' & _). exists co'. split; congruence. Qed.
Lemma kd_pkg h p : kd h p = Some KPkg -> exists po, get h p = Some po /\ o_kind po = KPkg.
Proof. unfold kd. destruct (get h p) as [po|]; [|discriminate]. intros E. injection E as E. eauto. Qed.
Lemma map_step_spec c s o : map_inv c s -> map_inv c (map_step c s o) /\ ext (fst s) (fst (map_step c s o)).
Proof.
  destruct s as [h m]. intros (H & C & K). cbn [fst snd] in *. destruct o as [l|k e|o]; cbn [map_step].
  - unfold create_package_map. destruct (fill_packages h c [] l) as [[h' m'] x] eqn:E. cbn [fst]. destruct (fill_spec c l h [] h' m' x H C E) as (H' & G & _ & _ & _ & F).
    apply ext_grown in G. split; [|exact G]. split; [exact H'|]. split; [exact (ext_coll _ _ _ G C)|]. cbn [fst snd]. apply F. discriminate.
  - unfold ws_add. destruct (get_package m k) as [p|x] eqn:P; [|split; [split; [exact H|split; [exact C|exact K]]|apply ext_refl]]. apply get_package_ok in P.
    pose proof (ext_pkg_append h p e) as X. split; [|exact X]. split; [apply inv_pkg_append; auto; apply kd_pkg; eapply K; eauto|]. split; [exact (ext_coll _ _ _ X C)|].
    cbn [fst snd]. intros k' p' I. apply (same_kd h); [now apply ext_same|]. eapply K; eauto.
  - pose proof (ext_step h o H) as X. split; [|exact X]. split; [apply inv_step, H|]. split; [exact (ext_coll _ _ _ X C)|].
    cbn [fst snd]. intros k' p' I. apply (same_kd h); [now apply ext_same|]. eapply K; eauto.
Qed.
Lemma map_run_spec c ops : forall s, map_inv c s -> map_inv c (map_run c ops s) /\ ext (fst s) (fst (map_run c ops s)).
Proof.
  induction ops as [|o ops IH]; intros s I; [split; [exact I|apply ext_refl]|]. cbn. destruct (map_step_spec c s o I) as (J & X).
  destruct (IH _ J) as (L & Y). split; [exact L|]. eapply ext_trans; eauto.
Qed.
Lemma listed_ext h h' p n i : Inv h -> Inv h' -> ext h h' -> listed_child h p n i -> listed_child h' p n i.
Proof.
  intros H H' X L. destruct L as (po & Ep & B & L). change (nth_error h p) with (get h p) in Ep.
  assert (A : assoc n (o_map po) = Some i) by (apply (assoc_listed h p po n i H Ep B); exists po; auto).
  destruct (X p po Ep) as (po' & Ep' & K & _ & M & _). apply (assoc_listed h' p po' n i H' Ep'); [unfold is_box in *; rewrite K; exact B|]. now apply M.
Qed.
Lemma path_ext h h' p ns i : Inv h -> Inv h' -> ext h h' -> path h p ns i -> path h' p ns i.
Proof.
  intros H H' X. induction 1 as [p n i L|p n q ns i L P IH].
  - constructor. exact (listed_ext h h' p n i H H' X L).
  - econstructor; [exact (listed_ext h h' p n q H H' X L)|exact IH].
Qed.
Lemma fill_path c : forall l h m h' m', reachable h -> has_kind KColl h c -> fill_packages h c m l = (h', m', Ok tt) -> NoDup (map fst l) ->
  forall k r, In (k, r) l -> exists p ns lead trail, assoc k m' = Some p /\ coll_find h' c r = Ok (Some p) /\ path h' c ns p /\
    r = (lead ++ join "/" ns ++ trail)%string /\ (lead = "" \/ lead = "/") /\ (trail = "" \/ trail = "/").
Proof.
  induction l as [|[k r] l IH]; intros h m h' m' R C E ND k' r' I; [destruct I|]. cbn [fill_packages] in E.
  destruct (coll_make h c r) as [h1 [p|e]] eqn:M; [|discriminate]. pose proof (inv_reachable h R) as H.
  destruct C as (co & Ec & KC). destruct (coll_make_inv h c r h1 _ H (ex_intro _ co (conj Ec KC)) M) as (H1 & G1 & K1).
  assert (R1 : reachable h1).
  { destruct R as [ops ->]. exists (ops ++ [OMake c r]). unfold run. rewrite fold_left_app. cbn [fold_left step]. fold (run ops).
    unfold is_kind. change (nth_error (run ops) c) with (get (run ops) c) in Ec. rewrite Ec, KC, M. reflexivity. }
  assert (C1 : has_kind KColl h1 c) by (destruct (G1 c co Ec) as (co' & E1 & K & _); exists co'; split; [exact E1|congruence]).
  cbn [map fst] in ND. inversion ND as [|? ? N1 N2]; subst. destruct I as [I|I].
  - injection I as <- <-. destruct (made_found h c r h1 p (R) (ex_intro _ co (conj Ec KC)) M) as (F & _ & ns & lead & trail & P & T & Le & Tr).
    assert (C1' : exists co, get h1 c = Some co /\ o_kind co = KColl) by exact C1.
    destruct (fill_spec c l h1 (assoc_set k p m) h' m' (Ok tt) H1 C1' E) as (H' & G' & A & _). exists p, ns, lead, trail.
    split; [rewrite A by exact N1; apply assoc_set_same|]. split; [exact (coll_find_grown h1 h' c r p H1 G' F)|]. split; [exact (path_ext h1 h' c ns p H1 H' (ext_grown _ _ G') P)|auto].
  - exact (IH h1 (assoc_set k p m) h' m' R1 C1 E N2 k' r' I).
Qed.
Lemma reach_step h o : reachable h -> reachable (fst (step h o)).
Proof. intros [ops ->]. exists (ops ++ [o]). unfold run. now rewrite fold_left_app. Qed.
Lemma reach_fill c : forall l h m, reachable h -> has_kind KColl h c -> reachable (fst (fst (fill_packages h c m l))).
Proof.
  induction l as [|[k r] l IH]; intros h m R C; [exact R|]. cbn [fill_packages].
  pose proof (reach_step h (OMake c r) R) as S. destruct C as (co & Ec & KC). cbn [step] in S. unfold is_kind in S. change (nth_error h c) with (get h c) in Ec. rewrite Ec, KC in S.
  destruct (coll_make h c r) as [h1 [p|e]] eqn:M; [|exact S]. cbn [fst] in S. apply IH; [exact S|].
  destruct (coll_make_inv h c r h1 _ (inv_reachable h R) (ex_intro _ co (conj Ec KC)) M) as (_ & G & _).
  destruct (G c co Ec) as (co' & E1 & K & _). exists co'. split; [exact E1|congruence].
Qed.
Lemma map_step_reach c s o : map_inv c s -> reachable (fst s) -> reachable (fst (map_step c s o)).
Proof.
  destruct s as [h m]. intros (H & C & K) R. cbn [fst snd] in *. destruct o as [l|k e|o]; cbn [map_step fst].
  - unfold create_package_map. now apply reach_fill.
  - unfold ws_add. destruct (get_package m k) as [p|x] eqn:P; [|exact R]. apply get_package_ok in P. apply K, kd_pkg in P as (po & Ep & KP).
    pose proof (reach_step h (OPkgAppend p e) R) as S. cbn [step] in S. unfold is_kind in S. now rewrite Ep, KP in S.
  - now apply reach_step.
Qed.
Lemma map_run_reach c ops : forall s, map_inv c s -> reachable (fst s) -> reachable (fst (map_run c ops s)).
Proof.
  induction ops as [|o ops IH]; intros s I R; [exact R|]. apply IH; [now apply map_step_spec|now apply map_step_reach].
Qed.
