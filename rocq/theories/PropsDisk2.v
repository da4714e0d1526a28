(** C75: the files on disk after a run of Workspace.write_documents that fails. *)
From Verif Require Import Base PBase MHeap SHeap PHeap MWork SWork PWork PDocs PDocs2 MCodec SCodec MArxml SArxml PArxml SReload SRun PropsArxml PropsDocs PropsReload PRun PropsRun MFile SSave PropsSave PropsFile SDisk PropsDisk.
Open Scope nat_scope.
Open Scope list_scope.
Ltac splits := repeat match goal with |- _ /\ _ => split end.

Lemma untouched_by docs ops s : (forall p d, In (p, d) docs -> good_document d) -> savings docs ops (Ok tt) -> forall p, ~ In p (map fst docs) -> run_io s ops p = s p.
Proof.
  intros G SV p N. destruct (C65_interrupted_saves docs ops (List.length ops) s G SV) as (sv & cu & la & E & _ & _ & _ & C). rewrite firstn_all in C. apply C.
  intros I. apply N. rewrite E, !map_app. rewrite map_app in I. apply in_app_or in I as [I|I]; apply in_or_app; [now left|right]. apply in_or_app. now left.
Qed.
Lemma docs_before root ws d b : forall a h h1 fs, write_docs root h ws a = (h1, fs, Ok tt) ->
  write_docs root h ws (a ++ d :: b) = let '(h2, gs, x) := write_docs root h1 ws (d :: b) in (h2, fs ++ gs, x).
Proof.
  induction a as [|x a IH]; intros h h1 fs W.
  - injection W as <- <-. cbn [app]. now destruct (write_docs root h ws (d :: b)) as [[? ?] ?].
  - cbn [app]. change (write_docs root h ws (x :: a ++ d :: b)) with (match MWork.write_doc root h ws x with (h1, Err e) => (h1, [], Err e) | (h1, Ok f) => let '(h2, fs, y) := write_docs root h1 ws (a ++ d :: b) in (h2, f :: fs, y) end).
    change (write_docs root h ws (x :: a)) with (match MWork.write_doc root h ws x with (h1, Err e) => (h1, [], Err e) | (h1, Ok f) => let '(h2, fs, y) := write_docs root h1 ws a in (h2, f :: fs, y) end) in W.
    destruct (MWork.write_doc root h ws x) as [h3 [f|e]]; [|discriminate]. destruct (write_docs root h3 ws a) as [[h4 gs] [[]|e]] eqn:E; [|discriminate]. injection W as <- <-.
    rewrite (IH h3 h4 gs E). now destruct (write_docs root h4 ws (d :: b)) as [[h5 k] y].
Qed.
Lemma docs_paths root ws : forall a h h1 fs, write_docs root h ws a = (h1, fs, Ok tt) -> map f_path fs = map (fun dc => out_path root (dc_path dc)) a.
Proof.
  induction a as [|x a IH]; intros h h1 fs W; [now injection W as _ <-|].
  change (write_docs root h ws (x :: a)) with (match MWork.write_doc root h ws x with (h1, Err e) => (h1, [], Err e) | (h1, Ok f) => let '(h2, fs, y) := write_docs root h1 ws a in (h2, f :: fs, y) end) in W.
  unfold MWork.write_doc in W at 1. destruct (put_packages h ws (dc_doc x) (dc_refs x)) as [h3 [u|e]]; [|discriminate]. destruct (write_docs root h3 ws a) as [[h4 gs] [[]|e]] eqn:E; [|discriminate].
  injection W as _ <-. cbn. now rewrite (IH _ _ _ E).
Qed.
Lemma maps_before root ws m b : forall a h h1 fs, write_maps root h ws a = (h1, fs, Ok tt) -> write_maps root h ws (a ++ m :: b) = let '(h2, gs, x) := write_maps root h1 ws (m :: b) in (h2, fs ++ gs, x).
Proof.
  induction a as [|x a IH]; intros h h1 fs W.
  - injection W as <- <-. cbn [app]. now destruct (write_maps root h ws (m :: b)) as [[? ?] ?].
  - cbn [app]. rewrite write_maps_cons in W. rewrite (write_maps_cons root h). destruct (gen_mapping root h ws x) as [[h3 gs] [u|e]]; [|discriminate].
    destruct (write_maps root h3 ws a) as [[h4 gs'] [[]|e]] eqn:E; [|discriminate]. injection W as <- <-.
    rewrite (IH h3 h4 gs' E). destruct (write_maps root h4 ws (m :: b)) as [[h5 k] y]. now rewrite app_assoc.
Qed.

(** When a document of the run cannot be put together, the documents before it are complete on disk, with every element that is due in them, and all other files are as
    they were: in particular those of the document that failed, of the documents after it, and of the mappings. *)
Theorem C75_failing_document root h ws a d b ms : can_run h ws a [] -> own_documents h ws (a ++ d :: b) -> ~ fits h ws d ->
  exists h' files e, write_documents root h ws (a ++ d :: b) ms = (h', files, Err e) /\ map f_path files = map (fun dc => out_path root (dc_path dc)) a /\
    forall c id docs ops s, run_saves c id files docs -> savings docs ops (Ok tt) ->
      (NoDup (map f_path files) -> forall path ns x, due root h ws a [] path ns x -> exists text, run_io s ops path = Some text /\ has_element text ns (norm_ARElement (c x))) /\
      (forall path, ~ In path (map (fun dc => out_path root (dc_path dc)) a) -> run_io s ops path = s path).
Proof.
  intros CR O NF. pose proof CR as (R & KW & OA & T & F & _). destruct (write_docs_ok root ws a h R KW OA F) as (h1 & fs & W & _).
  destruct (write_docs_fails root ws d b a h R KW O F NF) as (h2 & fs2 & e & W2 & S2). exists h2, fs2, e.
  assert (fs2 = fs) as ->.
  { rewrite (docs_before root ws d b a h h1 fs W) in W2. destruct (write_docs root h1 ws (d :: b)) as [[h3 gs] x] eqn:E. injection W2 as _ <- _.
    assert (LS : List.length a = List.length (fs ++ gs)) by (clear -S2; induction S2; cbn; congruence). clear S2. rename LS into S2. pose proof (f_equal (@List.length _) (docs_paths root ws a h h1 fs W)) as L. rewrite !map_length in L. rewrite app_length in S2. destruct gs; [now rewrite app_nil_r|cbn in S2; lia]. }
  assert (WD : write_documents root h ws a [] = (h1, fs, Ok tt)) by (unfold write_documents; rewrite W; cbn; now rewrite app_nil_r).
  splits; [unfold write_documents; now rewrite W2|eapply docs_paths; eauto|]. intros c id docs ops s RS SV. split.
  - intros ND path ns x D. eapply (C75_completed root h ws a []); eauto.
  - intros p N. apply (untouched_by docs); [apply (saves_good c id fs docs (run_reachable _ _ _ _ _ _ _ CR WD) RS)|exact SV|]. now rewrite (saves_paths _ _ _ _ RS), (docs_paths root ws a h h1 fs W).
Qed.
(** When the package of a mapping cannot be looked up, or is no package, the files of all documents and of the mappings before it are complete. *)
Theorem C75_failing_mapping root h ws ds a m b : can_run h ws ds a ->
  ((exists e, coll_find h ws (m_ref m) = Err e) \/ (exists x, coll_find h ws (m_ref m) = Ok (Some x) /\ ~ has_kind KPkg h x)) ->
  exists h' files e, write_documents root h ws ds (a ++ m :: b) = (h', files, Err e) /\
    forall c id docs ops s, run_saves c id files docs -> savings docs ops (Ok tt) ->
      (NoDup (map f_path files) -> forall path ns x, due root h ws ds a path ns x -> exists text, run_io s ops path = Some text /\ has_element text ns (norm_ARElement (c x))) /\
      (forall path, ~ In path (map f_path files) -> run_io s ops path = s path).
Proof.
  intros CR B. pose proof CR as (R & KW & O & T & F & M). destruct (write_docs_ok root ws ds h R KW O F) as (h1 & fs & W & S & R1 & C1 & _).
  destruct (write_maps_ok root (map dc_doc ds) h ws R (own_colls h ws ds O) KW (own_not h ws ds O) a h1 R1 C1 (write_docs_refs root ws ds h h1 fs R KW O F T W) M) as (h2 & gs & W2 & C2 & R2 & S2 & _).
  assert (WD : write_documents root h ws ds a = (h2, fs ++ List.concat gs, Ok tt)) by (unfold write_documents; now rewrite W, W2).
  destruct (C67_failing_mapping root h ws ds a m b R KW O T F M B) as (h3 & fs3 & gs3 & e & W3 & S3 & S4). 
  assert (E : exists h4 e', write_documents root h ws ds (a ++ m :: b) = (h4, fs ++ List.concat gs, Err e')).
  { unfold write_documents. rewrite W, (maps_before root ws m b a h1 h2 _ W2).
    pose proof (inv_reachable h R) as H. pose proof (coll_find_ck (map dc_doc ds) h h2 ws H (own_colls h ws ds O) C2 KW (own_not h ws ds O) (m_ref m)) as FE. cbn [write_maps]. unfold gen_mapping. rewrite FE.
    destruct B as [(y & ->)|(x & FX & NK)]; [rewrite app_nil_r; eauto|]. rewrite FX. destruct (found_get h ws (m_ref m) x H FX) as (o & E). destruct (C2 x o E) as (o' & E' & K & _). change (nth_error h2 x) with (get h2 x) in E'. rewrite E', K.
    destruct (o_kind o) eqn:KO; try (rewrite app_nil_r; eauto). destruct NK. exists o. auto. }
  destruct E as (h4 & e' & E). exists h4, (fs ++ List.concat gs), e'. split; [exact E|]. intros c id docs ops s RS SV. split.
  - intros ND path ns x D. eapply (C75_completed root h ws ds a); eauto.
  - intros p N. apply (untouched_by docs); [apply (saves_good c id _ docs (run_reachable _ _ _ _ _ _ _ CR WD) RS)|exact SV|]. now rewrite (saves_paths _ _ _ _ RS).
Qed.

(** ** Examples: the second document should have the package twice; the mapping names an element *)
Definition fail_ws : heap := run [ONew KColl ""; OMake 0 "/P"; ONew KElem "U"; OPkgAppend 1 2; ONew KColl ""; ONew KColl ""].
Definition twice : docconf := mkDoc 4 "q.arxml" ["/P"; "/P"].
Lemma fail_can : can_run fail_ws 0 disk_docs [].
Proof.
  unfold can_run. splits.
  - eexists. reflexivity.
  - eexists. split; reflexivity.
  - split; [repeat constructor; intros []|]. intros dc [<-|[]]. split; [eexists; split; reflexivity|discriminate].
  - intros dc r p [<-|[]] [<-|[]] F. vm_compute in F. injection F as <-. exists 0. split; eexists; split; reflexivity.
  - intros dc [<-|[]]. exists [1]. splits; [apply re_found; [reflexivity|eexists; split; reflexivity|constructor]|repeat constructor; intros []|intros p _ []].
  - intros m [].
Qed.
Example C75_failing_document_example : can_run fail_ws 0 disk_docs [] /\ own_documents fail_ws 0 (disk_docs ++ [twice]) /\ ~ fits fail_ws 0 twice /\
  due (Some "out") fail_ws 0 disk_docs [] "out/p.arxml" ["P"; "U"] 2.
Proof.
  split; [exact fail_can|]. splits.
  - split; [cbn; repeat constructor; cbn; intuition discriminate|]. intros dc [<-|[<-|[]]]; (split; [eexists; split; reflexivity|discriminate]).
  - intros (ps & R & N & _). cbn [twice dc_refs] in R. inversion R as [|? ? p ps' F _ R' E|? ? ? F]; subst; [|vm_compute in F; discriminate].
    inversion R' as [|? ? q ps'' F' _ _ E|? ? ? F']; subst; [|vm_compute in F'; discriminate]. vm_compute in F, F'. injection F as <-. injection F' as <-.
    cbn [map] in N. inversion N as [|? ? X _]; subst. apply X. now left.
  - refine (due_configured (Some "out") fail_ws 0 disk_docs [] (mkDoc 3 "p.arxml" ["/P"]) "/P" 1 ["U"] 2 _ _ _ _ _); [now left|now left|reflexivity| |left; eexists; split; reflexivity].
    constructor. eexists. splits; [reflexivity|now left|right; now left|eexists; split; reflexivity].
Qed.
Example C75_failing_mapping_example : can_run fail_ws 0 disk_docs [] /\ exists x, coll_find fail_ws 0 (m_ref (mkMap "/P/U" (fun _ => true) [])) = Ok (Some x) /\ ~ has_kind KPkg fail_ws x.
Proof. split; [exact fail_can|]. exists 2. split; [reflexivity|]. intros (o & E & K). vm_compute in E. injection E as <-. discriminate K. Qed.

Print Assumptions C75_failing_document.
Print Assumptions C75_failing_mapping.
