(** Proofs about whole runs of write_documents (C67). *)
From Coq Require Import Permutation Sorted.
From Verif Require Import Base PBase MHeap SHeap PHeap MWork SWork PWork PTmpl PDocs PDocs2 SReload SRun PropsDocs PropsReload.
Ltac splits := repeat match goal with |- _ /\ _ => split end.

(** ** What is kept *)
Lemma ck_refl D h : contents_kept D h h.
Proof. intros i o E. exists o. auto 10. Qed.
Lemma ck_weaken D D' h h' : (forall x, In x D -> In x D') -> contents_kept D h h' -> contents_kept D' h h'.
Proof. intros S C i o E. destruct (C i o E) as (o' & E' & K & N & X). exists o'. splits; auto. Qed.
Lemma ck_trans D a b c : contents_kept D a b -> contents_kept D b c -> contents_kept D a c.
Proof.
  intros A B i o E. destruct (A i o E) as (o1 & E1 & K1 & N1 & X1). destruct (B i o1 E1) as (o2 & E2 & K2 & N2 & X2). exists o2. splits; try congruence.
  intros NI. destruct (X1 NI) as (P & Q & M), (X2 NI) as (P' & Q' & M'). splits; congruence.
Qed.
Lemma ck_se d h h' : same_except d h h' -> contents_kept [d] h h'.
Proof. intros [_ S] i o E. destruct (S i o E) as (o' & E' & K & N & X). exists o'. splits; auto. intros NI. apply X. intros ->. apply NI. now left. Qed.
Lemma ck_kept D h h' : kept h h' -> contents_kept D h h'.
Proof. intros K i o E. destruct (K i o E) as (o' & E' & K' & N & P & L & M & _). exists o'. splits; auto. Qed.
Lemma ck_kind D h h' k i : contents_kept D h h' -> has_kind k h i -> has_kind k h' i.
Proof. intros C (o & E & K). destruct (C i o E) as (o' & E' & K' & _). exists o'. split; congruence. Qed.
Lemma ck_kind_back D h h' k k' i : contents_kept D h h' -> has_kind k h i -> has_kind k' h' i -> k = k'.
Proof. intros C (o & E & K) (o1 & E1 & K1). destruct (C i o E) as (o' & E' & K' & _). congruence. Qed.
Lemma ck_name D h h' i o : contents_kept D h h' -> nth_error h i = Some o -> name_of h' i = name_of h i.
Proof. intros C E. destruct (C i o E) as (o' & E' & _ & N & _). unfold name_of. now rewrite E, E'. Qed.

Definition colls (D : list nat) (h : heap) : Prop := forall d, In d D -> has_kind KColl h d.
Lemma not_coll D h i o : colls D h -> nth_error h i = Some o -> o_kind o <> KColl -> ~ In i D.
Proof. intros C E K I. destruct (C i I) as (o' & E' & K'). congruence. Qed.
Lemma kid_get h i o j : Inv h -> get h i = Some o -> In j (o_packages o) \/ In j (o_elements o) -> exists jo, get h j = Some jo.
Proof.
  intros H E I. assert (L : j < List.length h) by (apply (g_kids h i o (H i o E)); unfold kids; apply in_or_app; tauto).
  destruct (get h j) as [jo|] eqn:J; [eauto|]. apply nth_error_None in J. lia.
Qed.
Lemma first_named_ck D h h' n l : contents_kept D h h' -> (forall j, In j l -> exists jo, get h j = Some jo) -> first_named h' n l = first_named h n l.
Proof.
  intros C. induction l as [|j l IH]; intros G; cbn [first_named]; [reflexivity|]. destruct (G j (or_introl eq_refl)) as (jo & E).
  destruct (C j jo E) as (jo' & E' & _ & N & _). unfold get in *. rewrite E, E', N, IH; auto. intros; apply G; now right.
Qed.
Lemma item_find_ck D h h' : Inv h -> colls D h -> contents_kept D h h' -> forall f p o ref, get h p = Some o -> item_find f h' p ref = item_find f h p ref.
Proof.
  intros H CD C. induction f as [|f IH]; intros p o ref E; [reflexivity|]. cbn [item_find].
  destruct (C p o E) as (o' & E' & K & N & X). change (nth_error h' p) with (get h' p) in E'. rewrite E, E', K. destruct (o_kind o) eqn:KO; auto.
  - destruct X as (P & L & M); [eapply not_coll; eauto; congruence|]. rewrite M. destruct (partition_slash (strip_slash ref)) as [n rest].
    destruct (assoc n (o_map o)) as [q|] eqn:A; [|reflexivity]. destruct (String.eqb rest ""); [reflexivity|].
    destruct (assoc_listed h p o n q H E (or_introl KO)) as (L1 & _). destruct (L1 A) as (o2 & E2 & _ & I & (qo & Q & _)). eapply IH. exact Q.
  - destruct X as (P & L & M); [eapply not_coll; eauto; congruence|]. rewrite L. f_equal. eapply first_named_ck; eauto. intros j I. eapply kid_get; eauto.
Qed.
Lemma coll_find_ck D h h' ws : Inv h -> colls D h -> contents_kept D h h' -> has_kind KColl h ws -> ~ In ws D ->
  forall ref, coll_find h' ws ref = coll_find h ws ref.
Proof.
  intros H CD C (o & E & K) NI ref. unfold coll_find. destruct (C ws o E) as (o' & E' & _ & _ & X). destruct (X NI) as (_ & _ & M).
  change (nth_error h ws) with (get h ws) in E. change (nth_error h' ws) with (get h' ws) in E'. rewrite E, E', M.
  destruct (partition_slash (strip_slash ref)) as [n rest]. destruct (assoc n (o_map o)) as [q|] eqn:A; [|reflexivity]. destruct (String.eqb rest ""); [reflexivity|].
  destruct (assoc_listed h ws o n q H E (or_intror K)) as (L1 & _). destruct (L1 A) as (o2 & E2 & _ & I & (qo & Q & _)). eapply item_find_ck; eauto.
Qed.
Lemma found_get h ws r p : Inv h -> coll_find h ws r = Ok (Some p) -> exists o, get h p = Some o.
Proof.
  intros H E. assert (IF : forall f q ref, item_find f h q ref = Ok (Some p) -> exists o, get h p = Some o).
  { induction f as [|f IH]; intros q ref F; [discriminate|]. cbn [item_find] in F. destruct (get h q) as [o|] eqn:Q; [|discriminate].
    destruct (o_kind o) eqn:K; try discriminate.
    - destruct (partition_slash (strip_slash ref)) as [n rest]. destruct (assoc n (o_map o)) as [x|] eqn:A; [|discriminate].
      destruct (assoc_listed h q o n x H Q (or_introl K)) as (L1 & _). destruct (L1 A) as (_ & _ & _ & _ & (xo & X & _)).
      destruct (String.eqb rest ""); [injection F as <-; eauto|eauto].
    - injection F as F. clear - F. induction (o_elements o) as [|j l IH]; cbn [first_named] in F; [discriminate|].
      destruct (get h j) as [jo|] eqn:J; [|auto]. destruct (String.eqb (o_name jo) _); [injection F as <-; eauto|auto]. }
  unfold coll_find in E. destruct (get h ws) as [o|] eqn:W; [|discriminate]. destruct (partition_slash (strip_slash r)) as [n rest].
  destruct (assoc n (o_map o)) as [x|] eqn:A; [|discriminate].
  destruct (String.eqb rest ""); [injection E as <-|eauto].
  assert (B : o_kind o = KPkg \/ o_kind o = KColl).
  { destruct (o_kind o) eqn:K; auto; exfalso; destruct (g_nobox h ws o (H ws o W)) as [_ M]; try (rewrite M in A; discriminate); rewrite K; intros [?|?]; discriminate. }
  destruct (assoc_listed h ws o n x H W B) as (L1 & _). destruct (L1 A) as (_ & _ & _ & _ & (xo & X & _)). eauto.
Qed.
Lemma resolved_ck D h h' ws refs ps : Inv h -> colls D h -> contents_kept D h h' -> has_kind KColl h ws -> ~ In ws D ->
  resolved h ws refs ps <-> resolved h' ws refs ps.
Proof.
  intros H CD C KW NI. pose proof (coll_find_ck D h h' ws H CD C KW NI) as F. split.
  - induction 1; [constructor|apply re_found|apply re_none]; rewrite ?F; auto. eapply ck_kind; eauto.
  - induction 1 as [|r rs p ps' FP KP R IH|r rs ps' FP R IH]; [constructor|apply re_found|apply re_none]; rewrite ?F in FP; auto.
    destruct (found_get h ws r p H FP) as (o & E). assert (K : has_kind (o_kind o) h p) by (exists o; auto). rewrite (ck_kind_back D h h' _ KPkg p C K KP) in K. exact K.
Qed.
Lemma packages_ck D h h' i o : contents_kept D h h' -> nth_error h i = Some o -> ~ In i D -> packages_of h' i = packages_of h i.
Proof. intros C E NI. destruct (C i o E) as (o' & E' & _ & _ & X). destruct (X NI) as (P & _). unfold packages_of. now rewrite E, E'. Qed.
Lemma resolved_kind h ws refs ps p : resolved h ws refs ps -> In p ps -> has_kind KPkg h p.
Proof. intros R I. induction R; [destruct I| |auto]. destruct I as [->|I]; auto. Qed.
Lemma names_ck D h h' l : contents_kept D h h' -> (forall p, In p l -> has_kind KPkg h p) -> map (name_of h') l = map (name_of h) l.
Proof. intros C K. apply map_ext_in. intros p I. destruct (K p I) as (o & E & _). eapply ck_name; eauto. Qed.
Lemma packages_kind h d p : Inv h -> In p (packages_of h d) -> has_kind KPkg h p.
Proof.
  intros H I. unfold packages_of in I. destruct (nth_error h d) as [o|] eqn:E; [|destruct I]. pose proof (g_pkgs h d o (H d o E) p I) as X.
  unfold kd, get in X. destruct (nth_error h p) as [po|] eqn:P; [|discriminate]. exists po. split; congruence.
Qed.
Lemma fits_ck D h h' ws dc : Inv h -> colls D h -> contents_kept D h h' -> has_kind KColl h ws -> ~ In ws D ->
  has_kind KColl h (dc_doc dc) -> ~ In (dc_doc dc) D -> fits h ws dc <-> fits h' ws dc.
Proof.
  intros H CD C KW NI (do & Ed & _) ND. unfold fits. rewrite (packages_ck D h h' _ do C Ed ND).
  assert (PN : map (name_of h') (packages_of h (dc_doc dc)) = map (name_of h) (packages_of h (dc_doc dc))) by (eapply names_ck; eauto; intros; eapply packages_kind; eauto).
  rewrite PN. split; intros (ps & R & N & X); exists ps.
  - pose proof (fun p => resolved_kind h ws _ ps p R) as KP. rewrite (names_ck D h h' ps C KP). splits; [now apply (resolved_ck D h h')|exact N|].
    intros p I. destruct (KP p I) as (po & Ep & _). rewrite (ck_name D h h' p po C Ep). auto.
  - apply (resolved_ck D h h') in R; auto. pose proof (fun p => resolved_kind h ws _ ps p R) as KP. rewrite (names_ck D h h' ps C KP) in N. splits; auto.
    intros p I. destruct (KP p I) as (po & Ep & _). rewrite <- (ck_name D h h' p po C Ep). auto.
Qed.
Lemma package_ck D h h' c id : Inv h -> colls D h -> contents_kept D h h' ->
  forall p t, has_kind KPkg h p -> package_of h' c id p t <-> package_of h c id p t.
Proof.
  intros H CD C. assert (F : forall p t, package_of h c id p t -> package_of h' c id p t).
  { intros p t T. induction T as [p o ps E K N En _ F] using package_of_ind'. destruct (C p o E) as (o' & E' & K' & N' & X).
    destruct X as (P & L & M); [eapply not_coll; eauto; congruence|]. rewrite <- L. econstructor; eauto; try congruence; [|rewrite P; exact F].
    intros e I. rewrite L in I. destruct (En e I) as (eo & Ee & Ne). destruct (C e eo Ee) as (eo' & Ee' & _ & Ne' & _). exists eo'. split; congruence. }
  assert (B : forall p t, package_of h' c id p t -> has_kind KPkg h p -> package_of h c id p t).
  { intros p t T. induction T as [p o' ps E' K' N' En _ F2] using package_of_ind'. intros (o & E & K). destruct (C p o E) as (o2 & E2 & K2 & N2 & X).
    rewrite E' in E2. injection E2 as <-. destruct X as (P & L & M); [eapply not_coll; eauto; congruence|]. rewrite L. econstructor; eauto; try congruence.
    - intros e I. destruct (En e) as (eo' & Ee' & Ne'); [now rewrite L|]. destruct (kid_get h p o e H E (or_intror I)) as (eo & Ee).
      destruct (C e eo Ee) as (eo2 & Ee2 & _ & Ne & _). exists eo. split; [exact Ee|congruence].
    - rewrite <- P. clear - F2 H E P. assert (KK : forall q, In q (o_packages o') -> has_kind KPkg h q).
      { intros q I. rewrite P in I. apply (packages_kind h p q H). unfold packages_of. now rewrite E. }
      clear P E. induction F2 as [|q t l ts Q F IH]; constructor; [apply Q, KK; now left|]. apply IH. intros; apply KK; now right. }
  intros p t K. split; auto.
Qed.
Lemma saved_ck root D h h' ws dc f : Inv h -> colls D h -> contents_kept D h h' -> has_kind KColl h ws -> ~ In ws D ->
  has_kind KColl h (dc_doc dc) -> ~ In (dc_doc dc) D -> saved_document root h' ws dc f -> saved_document root h ws dc f.
Proof.
  intros H CD C KW NI (do & Ed & _) ND (P & F & (ps & R & PK) & T). unfold saved_document. splits; auto.
  - exists ps. split; [now apply (resolved_ck D h h')|]. now rewrite PK, (packages_ck D h h' _ do C Ed ND).
  - intros c id p t K. eapply iff_trans; [apply T; eapply ck_kind; eauto|eapply package_ck; eauto].
Qed.

(** ** One configured document *)
Lemma put_reachable ws d : forall refs h h' r, reachable h -> has_kind KColl h d -> put_packages h ws d refs = (h', r) -> reachable h'.
Proof.
  induction refs as [|r refs IH]; intros h h' x R K E; cbn [put_packages] in E; [injection E as <- <-; exact R|].
  destruct (coll_find h ws r) as [[p|]|e]; [|eauto|injection E as <- <-; exact R]. destruct (is_kind KPkg h p) eqn:IP; [|injection E as <- <-; exact R].
  assert (IK : is_kind KColl h d = true) by (destruct K as (o & Eo & Ko); unfold is_kind, get; now rewrite Eo, Ko).
  pose proof (reachable_step h (OCollAppend d p) R) as R1. cbn [step] in R1. rewrite IK in R1.
  destruct (coll_append h d p) as [h1 [u|e]] eqn:A; cbn [fst] in R1; [|injection E as <- <-; exact R1]. eapply IH; eauto.
  destruct K as (o & Eo & Ko). unfold is_kind in IP. destruct (get h p) as [po|] eqn:Ep; [|discriminate].
  assert (KP : o_kind po = KPkg) by (destruct (o_kind po); congruence). pose proof (coll_append_effect h d o p po Eo Ep KP Ko) as X.
  destruct (assoc (o_name po) (o_map o)); [congruence|]. destruct X as (h2 & A2 & S & _). assert (h2 = h1) by congruence. subst h2.
  apply (same_except_kind d h h1 KColl d S). exists o. auto.
Qed.
Lemma write_doc_cases root h ws dc : reachable h -> has_kind KColl h (dc_doc dc) -> ws <> dc_doc dc ->
  (fits h ws dc /\ exists h' f, write_doc root h ws dc = (h', Ok f) /\ f_heap f = h' /\ saved_document root h ws dc f /\ reachable h' /\ contents_kept [dc_doc dc] h h') \/
  (~ fits h ws dc /\ exists h' e, write_doc root h ws dc = (h', Err e)).
Proof.
  intros R K D. destruct (write_doc root h ws dc) as [h' [f|e]] eqn:W.
  - left. destruct (C39_document_contents root h ws dc h' f R K D W) as (FP & FD & FH & S & ps & Rs & PK). split.
    + exists ps. split; [exact Rs|]. apply (proj1 (C39_document_written_iff root h ws dc ps R K D Rs)). eauto.
    + exists h', f. assert (CK : contents_kept [dc_doc dc] h h') by now apply ck_se. unfold saved_document. splits; auto.
      * exists ps. split; [exact Rs|]. now rewrite FH, FD.
      * intros c id p t KP. rewrite FH. eapply package_ck; eauto; [now apply inv_reachable|]. intros x [<-|[]]. exact K.
      * unfold write_doc in W. destruct (put_packages h ws (dc_doc dc) (dc_refs dc)) as [h1 [u|e]] eqn:P; [|discriminate].
        assert (E1 : h1 = h') by congruence. subst h1. eapply put_reachable; eauto.
  - right. split; [|eauto]. intros (ps & Rs & X). apply (proj1 (C39_document_written_iff root h ws dc ps R K D Rs)) in X as (h2 & f & W2). congruence.
Qed.

(** ** All configured documents *)
Lemma own_next h h' ws dc ds : own_documents h ws (dc :: ds) -> contents_kept [dc_doc dc] h h' -> own_documents h' ws ds.
Proof.
  intros (N & K) C. cbn [map] in N. inversion N; subst. split; [auto|]. intros x I. destruct (K x (or_intror I)). split; auto. eapply ck_kind; eauto.
Qed.
Lemma own_colls h ws ds : own_documents h ws ds -> colls (map dc_doc ds) h.
Proof. intros (_ & K) d I. apply in_map_iff in I as (dc & <- & I). now apply K. Qed.
Lemma own_not h ws ds : own_documents h ws ds -> ~ In ws (map dc_doc ds).
Proof. intros (_ & K) I. apply in_map_iff in I as (dc & E & I). now apply (K dc I). Qed.
Lemma own_head h ws dc ds : own_documents h ws (dc :: ds) -> has_kind KColl h (dc_doc dc) /\ ws <> dc_doc dc /\ ~ In (dc_doc dc) (map dc_doc ds).
Proof. intros (N & K). cbn [map] in N. inversion N; subst. destruct (K dc (or_introl eq_refl)). splits; auto. Qed.

Definition stage (D : list nat) (h : heap) (f : file) : Prop := reachable (f_heap f) /\ contents_kept D h (f_heap f).
Lemma stage_back D D' h h1 f : (forall x, In x D -> In x D') -> contents_kept D' h h1 -> stage D h1 f -> stage D' h f.
Proof. intros S C (R & X). split; [exact R|]. eapply ck_trans; [exact C|]. eapply ck_weaken; eauto. Qed.

Lemma fits_next h h1 ws dc ds x : reachable h -> has_kind KColl h ws -> own_documents h ws (dc :: ds) -> contents_kept [dc_doc dc] h h1 -> In x ds ->
  fits h ws x <-> fits h1 ws x.
Proof.
  intros R KW O C I. destruct (own_head _ _ _ _ O) as (KD & D & ND). apply (fits_ck [dc_doc dc]); auto.
  - now apply inv_reachable.
  - intros d [<-|[]]. exact KD.
  - intros [E|[]]. congruence.
  - destruct O as (_ & K). apply K. now right.
  - intros [E|[]]. apply ND. rewrite E. now apply in_map.
Qed.
Lemma saved_next root h h1 ws dc ds xs fs : reachable h -> has_kind KColl h ws -> own_documents h ws (dc :: ds) -> contents_kept [dc_doc dc] h h1 ->
  (forall x, In x xs -> In x ds) -> Forall2 (saved_document root h1 ws) xs fs -> Forall2 (saved_document root h ws) xs fs.
Proof.
  intros R KW O C Sub F. destruct (own_head _ _ _ _ O) as (KD & D & ND). induction F as [|x f xs fs S F IH]; constructor; [|apply IH; intros; apply Sub; now right].
  assert (I : In x ds) by (apply Sub; now left). eapply (saved_ck root [dc_doc dc]); eauto.
  - now apply inv_reachable.
  - intros d [<-|[]]. exact KD.
  - intros [E|[]]. congruence.
  - destruct O as (_ & K). apply K. now right.
  - intros [E|[]]. apply ND. rewrite E. now apply in_map.
Qed.
Lemma write_docs_ok root ws : forall ds h, reachable h -> has_kind KColl h ws -> own_documents h ws ds -> (forall dc, In dc ds -> fits h ws dc) ->
  exists h' fs, write_docs root h ws ds = (h', fs, Ok tt) /\ Forall2 (saved_document root h ws) ds fs /\ reachable h' /\ contents_kept (map dc_doc ds) h h' /\
    Forall (stage (map dc_doc ds) h) fs.
Proof.
  induction ds as [|dc ds IH]; intros h R KW O F; cbn [write_docs].
  - exists h, []. splits; auto; try constructor. apply ck_refl.
  - destruct (own_head _ _ _ _ O) as (KD & D & ND). destruct (write_doc_cases root h ws dc R KD D) as [(_ & h1 & f & W & FH & S & R1 & C1)|(NF & _)]; [|destruct NF; apply F; now left].
    destruct (IH h1 R1) as (h2 & fs & W2 & S2 & R2 & C2 & T2).
    + eapply ck_kind; eauto.
    + eapply own_next; eauto.
    + intros x I. apply (fits_next h h1 ws dc ds x); auto. apply F. now right.
    + assert (C1' : contents_kept (map dc_doc (dc :: ds)) h h1) by (eapply ck_weaken; [|exact C1]; intros x [<-|[]]; now left).
      rewrite W, W2. exists h2, (f :: fs). splits; auto.
      * constructor; [exact S|]. eapply saved_next; eauto.
      * eapply ck_trans; [exact C1'|]. eapply ck_weaken; [|exact C2]. intros x I. now right.
      * constructor; [split; rewrite FH; auto|]. eapply Forall_impl; [|exact T2]. intros g G. apply (stage_back (map dc_doc ds) _ h h1); [intros x I; now right|exact C1'|exact G].
Qed.
Lemma write_docs_fails root ws d b : forall a h, reachable h -> has_kind KColl h ws -> own_documents h ws (a ++ d :: b) -> (forall dc, In dc a -> fits h ws dc) -> ~ fits h ws d ->
  exists h' fs e, write_docs root h ws (a ++ d :: b) = (h', fs, Err e) /\ Forall2 (saved_document root h ws) a fs.
Proof.
  induction a as [|dc a IH]; intros h R KW O F NF; cbn [write_docs app].
  - destruct (own_head _ _ _ _ O) as (KD & D & ND). destruct (write_doc_cases root h ws d R KD D) as [(X & _)|(_ & h1 & e & W)]; [contradiction|]. rewrite W. eauto 6.
  - destruct (own_head _ _ _ _ O) as (KD & D & ND). destruct (write_doc_cases root h ws dc R KD D) as [(_ & h1 & f & W & FH & S & R1 & C1)|(N & _)]; [|destruct N; apply F; now left].
    destruct (IH h1 R1) as (h2 & fs & e & W2 & S2).
    + eapply ck_kind; eauto.
    + eapply own_next; eauto.
    + intros x I. apply (fits_next h h1 ws dc (a ++ d :: b) x); auto; [apply in_or_app; now left|]. apply F. now right.
    + intros X. apply NF. apply (fits_next h h1 ws dc (a ++ d :: b) d); auto. apply in_or_app. right. now left.
    + rewrite W, W2. exists h2, (f :: fs), e. split; [reflexivity|]. constructor; [exact S|]. eapply saved_next; eauto. intros x I. apply in_or_app. now left.
Qed.

(** ** References of packages *)
Definition refs_kept (h h' : heap) : Prop := forall i s, has_kind KPkg h i -> calc_ref h i = Ok (Some s) -> calc_ref h' i = Ok (Some s).
Lemma put_changes ws d : forall refs h h' r, Inv h -> has_kind KColl h d -> ws <> d -> put_packages h ws d refs = (h', r) ->
  forall i o, get h i = Some o -> get h' i = Some o \/ i = d \/ (parent_is h' i (Some d) /\ exists r, In r refs /\ coll_find h ws r = Ok (Some i)).
Proof.
  induction refs as [|r refs IH]; intros h h' x H K D E i o Ei; cbn [put_packages] in E; [injection E as <- <-; auto|].
  destruct (coll_find h ws r) as [[p|]|e] eqn:FP; [| |injection E as <- <-; auto].
  2:{ destruct (IH h h' x H K D E i o Ei) as [X|[X|(X & r' & I & Y)]]; auto. right. right. split; [exact X|]. exists r'. split; [now right|exact Y]. }
  destruct (is_kind KPkg h p) eqn:IP; [|injection E as <- <-; auto]. pose proof K as K0. destruct K as (do & Ed & Kd). unfold is_kind in IP. destruct (get h p) as [po|] eqn:Ep; [|discriminate].
  assert (KP : o_kind po = KPkg) by (destruct (o_kind po); congruence). pose proof (coll_append_effect h d do p po Ed Ep KP Kd) as X.
  pose proof (inv_coll_append h d p H K0) as H1.
  destruct (assoc (o_name po) (o_map do)); [rewrite X in E; injection E as <- <-; auto|]. destruct X as (h1 & A & S & Gd & (po1 & Gp & Pp) & Rest). rewrite A in E, H1. cbn [fst] in H1.
  destruct (Nat.eq_dec i d) as [->|Nd]; [auto|]. assert (K1 : has_kind KColl h1 d) by (apply (same_except_kind d h h1 KColl d S); exact K0).
  destruct (Nat.eq_dec i p) as [->|Np].
  - right. right. split; [|exists r; split; [now left|exact FP]]. destruct (IH h1 h' x H1 K1 D E p po1 Gp) as [Y|[Y|(Y & _)]]; [exists po1; auto|contradiction|exact Y].
  - destruct (IH h1 h' x H1 K1 D E i o (Rest i o Np Nd Ei)) as [Y|[Y|(Y & r' & I & Z)]]; auto. right. right. split; [exact Y|]. exists r'. split; [now right|].
    rewrite (coll_find_se d h h1 ws S K0 D) in Z. exact Z.
Qed.
Lemma coll_up h c : Inv h -> has_kind KColl h c -> up h c [] c.
Proof. intros H (o & E & K). eapply up_end; [exact E|]. apply (g_coll h c o (H c o E) K). Qed.
Lemma up_put h h' d i l c : Inv h -> Inv h' -> same_except d h h' -> has_kind KColl h d ->
  (forall j o, get h j = Some o -> get h' j = Some o \/ j = d \/ (parent_is h' j (Some d) /\ exists b, parent_is h j (Some b) /\ has_kind KColl h b)) ->
  has_kind KPkg h i -> up h i l c -> has_kind KColl h c ->
  exists l' c', up h' i l' c' /\ has_kind KColl h' c' /\ l' <> [] /\ l <> [] /\ map (nm h') (i :: removelast l') = map (nm h) (i :: removelast l).
Proof.
  intros H H' S KD CH KI U KC. revert KI. induction U as [i o E P|i o p l r E P U IH]; intros (io & Ei & Ki).
  - exfalso. destruct KC as (co & Ec & Kc). congruence.
  - change (nth_error h i) with (get h i) in Ei. rewrite E in Ei. injection Ei as <-. assert (NMi : nm h' i = nm h i) by (apply (name_of_se d h h' i S)).
    destruct (CH i o E) as [G|[->|((o' & G & P') & b & (ob & Gb & Pb) & KB)]].
    + destruct (g_parent h i o (H i o E) p P) as (po & Ep & B). assert (BK : o_kind po = KPkg \/ o_kind po = KColl) by (rewrite Ki in B; now destruct B).
      destruct BK as [BK|BK].
      * destruct IH as (l' & c' & U' & KC' & N' & N & M); [exact KC|exists po; auto|]. exists (p :: l'), c'. splits; auto; try discriminate; [econstructor; eauto|].
        destruct l' as [|a l']; [easy|]. destruct l as [|a' l]; [easy|]. cbn [removelast] in *. cbn [map] in *. rewrite NMi. now f_equal.
      * assert (KP : has_kind KColl h p) by (exists po; auto). destruct (up_det h p l r [] p U (coll_up h p H KP)) as (-> & ->). exists [p], p.
        assert (KP' : has_kind KColl h' p) by now apply (same_except_kind d h h'). splits; auto; try discriminate; [econstructor; eauto; now apply coll_up|]. cbn. now rewrite NMi.
    + exfalso. destruct KD as (od & Ed & Kd). change (nth_error h d) with (get h d) in Ed. congruence.
    + change (nth_error h i) with (get h i) in Gb. rewrite E in Gb. injection Gb as <-. rewrite P in Pb. injection Pb as ->.
      destruct (up_det h b l r [] b U (coll_up h b H KB)) as (-> & ->). exists [d], d. assert (KD' : has_kind KColl h' d) by now apply (same_except_kind d h h').
      splits; auto; try discriminate; [econstructor; eauto; now apply coll_up|]. cbn. now rewrite NMi.
Qed.
Lemma put_refs root h ws dc h' f : reachable h -> has_kind KColl h (dc_doc dc) -> ws <> dc_doc dc -> top_level h ws [dc] -> write_doc root h ws dc = (h', Ok f) -> refs_kept h h'.
Proof.
  intros R K D T W i s KI C. unfold write_doc in W. destruct (put_packages h ws (dc_doc dc) (dc_refs dc)) as [h1 [u|e]] eqn:P; [|discriminate]. assert (E1 : h1 = h') by congruence. subst h1. clear W.
  pose proof (inv_reachable h R) as H. destruct (put_inv h ws (dc_doc dc) (dc_refs dc) H K D _ _ P) as (H' & S & _).
  destruct (calc_ref_some h i s H C) as (l & c & U & KC & NL). assert (KC0 : has_kind KColl h c) by (unfold kd, get in KC; destruct (nth_error h c) as [co|] eqn:Ec; [|discriminate]; exists co; split; congruence).
  destruct (up_put h h' (dc_doc dc) i l c H H' S K) as (l' & c' & U' & KC' & N' & _ & M); auto.
  - intros j o Ej. destruct (put_changes ws (dc_doc dc) _ h h' _ H K D P j o Ej) as [X|[X|(X & r & I & F)]]; auto. right. right. split; [exact X|]. exact (T dc r j (or_introl eq_refl) I F).
  - assert (NC : kd h i <> Some KColl) by (destruct KI as (o & E & Ki); unfold kd, get; rewrite E; congruence).
    assert (NC' : kd h' i <> Some KColl) by (destruct (proj1 (same_except_kind (dc_doc dc) h h' KPkg i S) KI) as (o & E & Ki); unfold kd, get; rewrite E; congruence).
    rewrite (calc_ref_up h i l c H U NC), KC in C. rewrite (calc_ref_up h' i l' c' H' U' NC'). destruct KC' as (co & Ec & Kc). unfold kd, get. rewrite Ec, Kc, M. exact C.
Qed.
Lemma top_next root h ws dc ds h' f : reachable h -> has_kind KColl h ws -> own_documents h ws (dc :: ds) -> top_level h ws (dc :: ds) -> write_doc root h ws dc = (h', Ok f) -> top_level h' ws ds.
Proof.
  intros R KW O T W x r p I Ir F. destruct (own_head _ _ _ _ O) as (KD & D & ND). pose proof (inv_reachable h R) as H.
  unfold write_doc in W. destruct (put_packages h ws (dc_doc dc) (dc_refs dc)) as [h1 [u|e]] eqn:P; [|discriminate]. assert (E1 : h1 = h') by congruence. subst h1. clear W.
  destruct (put_inv h ws (dc_doc dc) (dc_refs dc) H KD D _ _ P) as (H' & S & _). rewrite (coll_find_se (dc_doc dc) h h' ws S KD D) in F.
  destruct (found_get h ws r p H F) as (o & E). destruct (T x r p (or_intror I) Ir F) as (c & PC & KC).
  destruct (put_changes ws (dc_doc dc) _ h h' _ H KD D P p o E) as [G|[->|(G & _)]].
  - exists c. split; [destruct PC as (o' & E' & X); change (nth_error h p) with (get h p) in E'; exists o; split; [exact G|congruence]|]. now apply (same_except_kind (dc_doc dc) h h').
  - exfalso. destruct PC as (o' & E' & X). destruct KD as (od & Ed & Kd). rewrite Ed in E'. injection E' as <-. pose proof (g_coll h _ od (H _ od Ed) Kd). congruence.
  - exists (dc_doc dc). split; [exact G|]. now apply (same_except_kind (dc_doc dc) h h').
Qed.
Lemma write_docs_refs root ws : forall ds h h' fs, reachable h -> has_kind KColl h ws -> own_documents h ws ds -> (forall dc, In dc ds -> fits h ws dc) -> top_level h ws ds ->
  write_docs root h ws ds = (h', fs, Ok tt) -> refs_kept h h'.
Proof.
  induction ds as [|dc ds IH]; intros h h' fs R KW O F T E; cbn [write_docs] in E; [injection E as <- <-; intros i s _ C; exact C|].
  destruct (own_head _ _ _ _ O) as (KD & D & ND). destruct (write_doc_cases root h ws dc R KD D) as [(_ & h1 & f & W & FH & S & R1 & C1)|(NF & _)]; [|destruct NF; apply F; now left].
  rewrite W in E. destruct (write_docs root h1 ws ds) as [[h2 gs] x] eqn:W2. injection E as <- <- ->. intros i s K C.
  refine (IH h1 h2 gs R1 _ _ _ _ W2 i s _ _).
  - eapply ck_kind; eauto.
  - eapply own_next; eauto.
  - intros y I. apply (fits_next h h1 ws dc ds y); auto. apply F. now right.
  - exact (top_next root h ws dc ds h1 f R KW O T W).
  - eapply ck_kind; eauto.
  - refine (put_refs root h ws dc h1 f R KD D _ W i s K C). intros y r p [<-|[]] Ir Fp. exact (T dc r p (or_introl eq_refl) Ir Fp).
Qed.

(** ** Mappings *)
Lemma file_ck D h h' root m ns l e f : contents_kept D h h' -> (forall y, In y l -> exists o, get h y = Some o) -> In e l -> file_ok h' root m ns l e f -> file_ok h root m ns l e f.
Proof.
  intros C G I (P & q & OP & B & S & N). assert (NM : forall y, In y l -> name_of h' y = name_of h y) by (intros y Iy; destruct (G y Iy) as (o & E); eapply ck_name; eauto).
  assert (B' : forall x, In x (elements_of (f_heap f) q) <-> belongs h (m_suffixes m) l e x).
  { intros x. rewrite B. unfold belongs. split; (intros [->|(Ix & s & Is & Ne & En)]; [auto|right; split; [exact Ix|]; exists s]).
    - rewrite (NM x), (NM e) in En; auto.
    - rewrite (NM x), (NM e); auto. }
  split; [rewrite P, (NM e); auto|]. exists q. splits; auto.
  assert (IN : forall x, In x (elements_of (f_heap f) q) -> In x l) by (intros x Ix; apply B' in Ix as [->|(Ix & _)]; auto).
  clear - S IN NM. induction S as [|x xs S IH F]; constructor; [apply IH; intros; apply IN; now right|]. rewrite Forall_forall in *. intros y Iy. unfold leb_name in *.
  rewrite <- (NM x), <- (NM y); [auto|apply IN; now right|apply IN; now left].
Qed.
Lemma write_mapped_heap root h m pkg l e h' f : write_mapped root h m pkg l e = (h', Ok f) -> f_heap f = h'.
Proof.
  unfold write_mapped. destruct (alloc h KColl "") as [h1 d]. destruct (calc_ref h1 pkg) as [r|x]; [|discriminate].
  destruct (coll_make h1 d _) as [h2 [q|x]]; [|discriminate]. destruct (append_all h2 q _) as [h3 [u|x]]; [|discriminate]. intros E. injection E as <- <-. reflexivity.
Qed.
Lemma write_matched_stages root m pkg po ns :
  ns <> [] -> (forall n, In n ns -> valid_name n) -> o_kind po = KPkg -> NoDup (filter (fun s => negb (String.eqb s "")) (m_suffixes m)) ->
  forall todo h h' fs, reachable h -> get h pkg = Some po -> calc_ref h pkg = Ok (Some (abs ns)) -> (forall e, In e todo -> In e (o_elements po)) ->
  write_matched root h m pkg (o_elements po) todo = (h', fs, Ok tt) -> Forall (stage [] h) fs.
Proof.
  intros NE V KP ND. induction todo as [|e todo IH]; intros h h' fs R Ep C Sub E; cbn [write_matched] in E; [injection E as <- <-; constructor|].
  destruct (write_mapped_ok root h m pkg po ns e R Ep KP NE V C (Sub e (or_introl eq_refl)) ND) as (h1 & f & W & K1 & R1 & F1). rewrite W in E.
  destruct (write_matched root h1 m pkg (o_elements po) todo) as [[h2 gs] x] eqn:W2. injection E as <- <- ->.
  pose proof (write_mapped_heap root h m pkg _ e h1 f W) as FH. constructor; [split; rewrite FH; [exact R1|now apply ck_kept]|].
  assert (Ep1 : get h1 pkg = Some po) by (destruct (K1 pkg po Ep) as (o' & E' & _ & _ & _ & _ & _ & X); rewrite E', X; auto).
  assert (T : Forall (stage [] h1) gs).
  { eapply (IH h1); eauto; [|intros; apply Sub; now right]. eapply kept_ref; eauto; now apply inv_reachable. }
  eapply Forall_impl; [|exact T]. intros g G. apply (stage_back [] [] h h1); auto. now apply ck_kept.
Qed.
Lemma mapping_ok root D h h1 ws m : reachable h -> reachable h1 -> colls D h -> contents_kept D h h1 -> refs_kept h h1 -> has_kind KColl h ws -> ~ In ws D ->
  mapping_fits h ws m ->
  exists h2 fs, gen_mapping root h1 ws m = (h2, fs, Ok tt) /\ kept h1 h2 /\ reachable h2 /\ saved_mapping root h ws m fs /\ Forall (stage D h) fs.
Proof.
  intros R R1 CD C RK KW NW (ND & M). pose proof (inv_reachable h R) as H. pose proof (coll_find_ck D h h1 ws H CD C KW NW (m_ref m)) as FE. destruct M as [M|(pkg & ns & F & KP & NE & V & CR)].
  - unfold gen_mapping. rewrite FE, M. exists h1, []. splits; auto; [apply kept_refl|now apply saved_nothing].
  - rewrite F in FE. pose proof KP as (o & E & K). destruct (C pkg o E) as (o1 & E1 & K1 & N1 & X). destruct X as (P & L & MM); [eapply not_coll; eauto; congruence|].
    assert (K1' : o_kind o1 = KPkg) by congruence. pose proof (RK pkg _ KP CR) as CR1.
    destruct (gen_mapping_ok root h1 ws m pkg o1 ns R1 FE E1 K1' NE V CR1 ND) as (h2 & fs & G & KT & R2 & F2). exists h2, fs. splits; auto.
    + eapply saved_elements; eauto. rewrite L in F2.
      assert (EX : forall y, In y (o_elements o) -> exists yo, get h y = Some yo) by (intros y I; eapply kid_get; eauto).
      assert (Sub : forall e, In e (filter (m_type m) (o_elements o)) -> In e (o_elements o)) by (intros e I; now apply filter_In in I).
      clear - F2 C EX Sub. induction F2 as [|e f es fs FO F IH]; constructor; [eapply file_ck; eauto; apply Sub; now left|]. apply IH. intros; apply Sub; now right.
    + unfold gen_mapping in G. rewrite FE in G. unfold get in G. rewrite E1, K1' in G.
      assert (T : Forall (stage [] h1) fs).
      { refine (write_matched_stages root m pkg o1 ns NE V K1' ND _ h1 h2 fs R1 E1 CR1 _ G). intros e I. now apply filter_In in I. }
      eapply Forall_impl; [|exact T]. intros g G0. apply (stage_back [] D h h1); [intros x []|exact C|exact G0].
Qed.
Lemma write_maps_ok root D h ws : reachable h -> colls D h -> has_kind KColl h ws -> ~ In ws D -> forall ms h1, reachable h1 -> contents_kept D h h1 -> refs_kept h h1 ->
  (forall m, In m ms -> mapping_fits h ws m) ->
  exists h2 gs, write_maps root h1 ws ms = (h2, List.concat gs, Ok tt) /\ contents_kept D h h2 /\ reachable h2 /\ Forall2 (saved_mapping root h ws) ms gs /\ Forall (Forall (stage D h)) gs.
Proof.
  intros R CD KW NW. induction ms as [|m ms IH]; intros h1 R1 C RK F; cbn [write_maps].
  - exists h1, []. splits; auto; constructor.
  - destruct (mapping_ok root D h h1 ws m R R1 CD C RK KW NW (F m (or_introl eq_refl))) as (h2 & fs & G & KT & R2 & S & T). rewrite G.
    destruct (IH h2 R2) as (h3 & gs & W & C3 & R3 & S3 & T3).
    + eapply ck_trans; [exact C|]. now apply ck_kept.
    + intros i s K X. pose proof (RK i s K X) as X1. apply (ck_kind D h h1) in K; auto. destruct K as (o & E & K). eapply (kept_ref h1 h2); eauto; now apply inv_reachable.
    + intros x I. apply F. now right.
    + rewrite W. exists h3, (fs :: gs). splits; auto.
Qed.
