(** C67: a whole run of Workspace.write_documents. *)
From Verif Require Import Base PBase MHeap SHeap PHeap MWork SWork PWork PDocs PDocs2 MCodec SCodec MArxml SArxml PArxml SReload SRun PropsArxml PropsDocs PropsReload PRun.
Ltac splits := repeat match goal with |- _ /\ _ => split end.

(** When every document and every mapping can be carried out, and the documents are configured with packages of the workspace itself, the run writes
    all of them: first the configured documents, in order, then the files of the mappings, in order.  What each file holds is said in terms of the
    workspace before the run, so no document depends on the others or on their order.  The run changes nothing but the documents and parents. *)
Theorem C67_run root h ws ds ms : reachable h -> has_kind KColl h ws -> own_documents h ws ds -> top_level h ws ds ->
  (forall dc, In dc ds -> fits h ws dc) -> (forall m, In m ms -> mapping_fits h ws m) ->
  exists h' fs gs, write_documents root h ws ds ms = (h', fs ++ List.concat gs, Ok tt) /\
    Forall2 (saved_document root h ws) ds fs /\ Forall2 (saved_mapping root h ws) ms gs /\ contents_kept (map dc_doc ds) h h'.
Proof.
  intros R KW O T F M. destruct (write_docs_ok root ws ds h R KW O F) as (h1 & fs & W & S & R1 & C1 & _).
  destruct (write_maps_ok root (map dc_doc ds) h ws R (own_colls h ws ds O) KW (own_not h ws ds O) ms h1 R1 C1 (write_docs_refs root ws ds h h1 fs R KW O F T W) M) as (h2 & gs & W2 & C2 & _ & S2 & _).
  exists h2, fs, gs. unfold write_documents. rewrite W, W2. auto.
Qed.

(** The first document that cannot be put together ends the run: the documents before it are written, nothing else is. *)
Theorem C67_first_failure root h ws a d b ms : reachable h -> has_kind KColl h ws -> own_documents h ws (a ++ d :: b) ->
  (forall dc, In dc a -> fits h ws dc) -> ~ fits h ws d ->
  exists h' fs e, write_documents root h ws (a ++ d :: b) ms = (h', fs, Err e) /\ Forall2 (saved_document root h ws) a fs.
Proof.
  intros R KW O F NF. destruct (write_docs_fails root ws d b a h R KW O F NF) as (h1 & fs & e & W & S). exists h1, fs, e. unfold write_documents. rewrite W. auto.
Qed.

Lemma ck_listed D h h' a n q : contents_kept D h h' -> ~ In a D -> listed_child h a n q -> listed_child h' a n q.
Proof.
  intros C NI (o & E & B & I & (qo & Q & N)). destruct (C a o E) as (o' & E' & K & _ & X). destruct (X NI) as (P & L & _). destruct (C q qo Q) as (qo' & Q' & _ & N' & _).
  exists o'. rewrite K, P, L. splits; auto. exists qo'. split; congruence.
Qed.
Lemma ck_path D h h' a ns x : Inv h -> colls D h -> contents_kept D h h' -> ~ In a D -> path h a ns x -> path h' a ns x.
Proof.
  intros H CD C NI P. induction P as [a n x L|a n q ns x L P IH]; [constructor; eapply ck_listed; eauto|]. econstructor; [eapply ck_listed; eauto|]. apply IH.
  intros I. destruct (CD q I) as (qo & Q & KQ). destruct L as (o & E & _ & J & _). destruct J as [J|J].
  - pose proof (g_pkgs h a o (H a o E) q J) as X. unfold kd, get in X. rewrite Q in X. congruence.
  - pose proof (g_elems h a o (H a o E) q J) as X. unfold kd, get in X. rewrite Q in X. destruct (o_kind o); try congruence; destruct X; congruence.
Qed.
Lemma ck_element D h h' x : contents_kept D h h' -> is_element h x -> is_element h' x.
Proof. intros C [K|K]; [left|right]; eapply ck_kind; eauto. Qed.
Lemma Forall2_with {A B} (P : A -> B -> Prop) (Q : B -> Prop) a l m : Forall2 P l m -> Forall Q m -> In a l -> exists b, In b m /\ P a b /\ Q b.
Proof. induction 1 as [|x y l m Pxy F IH]; intros G I; [destruct I|]. inversion G; subst. destruct I as [->|I]; [exists y; splits; auto; now left|]. destruct IH as (b & Ib & X); auto. exists b. split; [now right|exact X]. Qed.

(** After a run every element below a configured package is in the file of its document: the file, loaded again, has it below the name of the
    package, in the place it had in the workspace. *)
Theorem C67_configured_reload root h ws ds ms dc r p ns x : reachable h -> has_kind KColl h ws -> own_documents h ws ds -> top_level h ws ds ->
  (forall dc, In dc ds -> fits h ws dc) -> (forall m, In m ms -> mapping_fits h ws m) ->
  In dc ds -> In r (dc_refs dc) -> coll_find h ws r = Ok (Some p) -> path h p ns x -> is_element h x ->
  exists h' files f, write_documents root h ws ds ms = (h', files, Ok tt) /\ In f files /\ f_path f = out_path root (dc_path dc) /\
    forall c id doc, document_of (f_heap f) c id (f_doc f) doc -> good_contents (f_heap f) c id (f_doc f) (doc_schema_version doc) ->
      exists text loaded, write_file doc = Ok text /\ (forall v stop, snd (read_str v text stop) = Ok loaded) /\
        stands (doc_packages loaded) (name_of h p :: ns) (norm_ARElement (c x)).
Proof.
  intros R KW O T F M Id Ir FP P EX. destruct (write_docs_ok root ws ds h R KW O F) as (h1 & fs & W & S & R1 & C1 & G1).
  destruct (write_maps_ok root (map dc_doc ds) h ws R (own_colls h ws ds O) KW (own_not h ws ds O) ms h1 R1 C1 (write_docs_refs root ws ds h h1 fs R KW O F T W) M) as (h2 & gs & W2 & C2 & _ & S2 & _).
  destruct (Forall2_with _ _ dc ds fs S G1 Id) as (f & If & (FPa & FD & (ps & Rs & PK) & _) & (RF & CF)). exists h2, (fs ++ List.concat gs), f. unfold write_documents. rewrite W, W2. splits; auto.
  { apply in_or_app. now left. }
  intros c id doc DO G. pose proof (inv_reachable h R) as H. pose proof (inv_reachable _ RF) as HF.
  destruct (C24_document_round_trip doc (document_good _ c id _ doc HF DO G)) as (text & TX & RD). exists text, (norm_document doc). splits; auto; [intros; now rewrite RD|].
  cbn [norm_document doc_packages]. apply norm_stands. exists (c x). split; [reflexivity|].
  assert (Ip : In p ps).
  { clear - Rs Ir FP. induction Rs as [|r' rs q ps FQ KQ Rs IH|r' rs ps FQ Rs IH]; [destruct Ir| |]; (destruct Ir as [->|Ir]; [try (left; congruence); congruence|try right; auto]). }
  pose proof (resolved_kind h ws _ ps p Rs Ip) as KP. pose proof KP as (po & Ep & Kp).
  eapply document_path; eauto; [eapply ck_element; eauto|]. econstructor; [|eapply (ck_path (map dc_doc ds) h); eauto; [now apply own_colls with ws|eapply not_coll; eauto; [now apply own_colls with ws|congruence]]].
  destruct DO as (o & E & K & _). exists o. splits; auto.
  - left. unfold packages_of in PK at 1. rewrite E in PK. rewrite PK. apply in_or_app. auto.
  - destruct (CF p po Ep) as (po' & Ep' & _ & Np & _). exists po'. split; [exact Ep'|]. unfold name_of. now rewrite Ep.
Qed.

Lemma only_path_leads h d ns q : Inv h -> (has_kind KColl h d \/ has_kind KPkg h d) -> only_path h d ns q -> forall x, In x (elements_of h q) -> path h d (ns ++ [name_of h x]) x.
Proof.
  intros H K OP. assert (ST : forall d p, has_kind KColl h d \/ has_kind KPkg h d -> In p (packages_of h d) -> listed_child h d (name_of h p) p /\ has_kind KPkg h p).
  { intros d' p K' I. pose proof (packages_kind h d' p H I) as KP. split; [|exact KP]. unfold packages_of in I. destruct (nth_error h d') as [o|] eqn:E; [|destruct I].
    exists o. splits; auto; [destruct K' as [(o' & E' & K')|(o' & E' & K')]; rewrite E in E'; injection E' as <-; auto|]. destruct KP as (po & Ep & _). exists po. split; [exact Ep|]. unfold name_of. now rewrite Ep. }
  assert (EL : forall q x, has_kind KPkg h q -> In x (elements_of h q) -> listed_child h q (name_of h x) x).
  { intros q' x (o & E & Ko) I. unfold elements_of in I. rewrite E in I. exists o. splits; auto. destruct (kid_get h q' o x H E (or_intror I)) as (xo & X). exists xo. split; [exact X|]. unfold name_of, get in *. now rewrite X. }
  induction OP as [d n q P E N PQ|d n p ns q P E N OP IH]; intros x I.
  - destruct (ST d q K) as (L & KQ); [rewrite P; now left|]. rewrite N in L. cbn. econstructor; [exact L|]. constructor. now apply EL.
  - destruct (ST d p K) as (L & KQ); [rewrite P; now left|]. rewrite N in L. cbn. econstructor; [exact L|]. apply IH; auto.
Qed.

(** After a run every element of the chosen types of a mapped package has a file named after it.  The file, loaded again, holds the element, and
    those that belong to it, under the path of the package. *)
Theorem C67_generated_reload root h ws ds ms m pkg po ns e x : reachable h -> has_kind KColl h ws -> own_documents h ws ds -> top_level h ws ds ->
  (forall dc, In dc ds -> fits h ws dc) -> (forall m, In m ms -> mapping_fits h ws m) ->
  In m ms -> coll_find h ws (m_ref m) = Ok (Some pkg) -> nth_error h pkg = Some po -> calc_ref h pkg = Ok (Some (abs ns)) -> ns <> [] -> (forall n, In n ns -> valid_name n) ->
  In e (o_elements po) -> m_type m e = true -> belongs h (m_suffixes m) (o_elements po) e x ->
  exists h' files f, write_documents root h ws ds ms = (h', files, Ok tt) /\ In f files /\ f_path f = out_path root (name_of h e ++ ".arxml") /\
    forall c id doc, document_of (f_heap f) c id (f_doc f) doc -> good_contents (f_heap f) c id (f_doc f) (doc_schema_version doc) ->
      exists text loaded, write_file doc = Ok text /\ (forall v stop, snd (read_str v text stop) = Ok loaded) /\
        stands (doc_packages loaded) (ns ++ [name_of h x]) (norm_ARElement (c x)).
Proof.
  intros R KW O T F M Im FM Ep CR NE V Ie Te B. destruct (write_docs_ok root ws ds h R KW O F) as (h1 & fs & W & S & R1 & C1 & G1).
  destruct (write_maps_ok root (map dc_doc ds) h ws R (own_colls h ws ds O) KW (own_not h ws ds O) ms h1 R1 C1 (write_docs_refs root ws ds h h1 fs R KW O F T W) M) as (h2 & gs & W2 & C2 & _ & S2 & G2).
  destruct (Forall2_with _ _ m ms gs S2 G2 Im) as (g & Ig & SM & SG).
  assert (FO : exists f, In f g /\ file_ok h root m ns (o_elements po) e f /\ stage (map dc_doc ds) h f).
  { inversion SM as [N|pkg' o ns' fs' F' E' K' NE' V' CR' FO]; subst; [congruence|]. rewrite FM in F'. injection F' as <-. rewrite Ep in E'. injection E' as <-.
    assert (NN : ns' = ns).
    { assert (X : Ok (Some (abs ns)) = Ok (Some (abs ns'))) by congruence. assert (J : join (String slash "") ns = join (String slash "") ns') by now injection X. rewrite <- (split_join slash ns), <- (split_join slash ns'); auto; [congruence| |]; intros n I; [apply V'|apply V]; auto. }
    subst ns'. destruct (Forall2_with _ _ e _ g FO SG) as (f & If & X); [apply filter_In; auto|]. eauto. }
  destruct FO as (f & If & (FPa & q & OP & BE & _) & (RF & CF)). exists h2, (fs ++ List.concat gs), f. unfold write_documents. rewrite W, W2. splits; auto.
  { apply in_or_app. right. apply in_concat. eauto. }
  intros c id doc DO G. pose proof (inv_reachable h R) as H. pose proof (inv_reachable _ RF) as HF.
  destruct (C24_document_round_trip doc (document_good _ c id _ doc HF DO G)) as (text & TX & RD). exists text, (norm_document doc). splits; auto; [intros; now rewrite RD|].
  cbn [norm_document doc_packages]. apply norm_stands. exists (c x). split; [reflexivity|].
  assert (KP : o_kind po = KPkg) by (inversion SM as [N|pkg' o ns' fs' F' E' K' NE' V' CR' FO]; subst; congruence).
  assert (Ix : In x (o_elements po)) by (destruct B as [->|(I & _)]; auto).
  assert (EX : is_element h x).
  { pose proof (g_elems h pkg po (H pkg po Ep) x Ix) as X. rewrite KP in X. unfold kd, get in X. destruct (nth_error h x) as [xo|] eqn:XE; [|destruct X; discriminate]. destruct X as [X|X]; [left|right]; exists xo; split; congruence. }
  assert (NX : name_of (f_heap f) x = name_of h x) by (destruct EX as [(xo & XE & _)|(xo & XE & _)]; eapply ck_name; eauto).
  eapply document_path; eauto; [eapply ck_element; eauto|]. rewrite <- NX. eapply only_path_leads; eauto; [|now apply BE].
  left. destruct DO as (o & E & K & _). exists o. auto.
Qed.

Lemma write_maps_cons root h ws m r : write_maps root h ws (m :: r) =
  match gen_mapping root h ws m with (h1, f, Err e) => (h1, f, Err e) | (h1, f, Ok _) => let '(h2, fs, x) := write_maps root h1 ws r in (h2, f ++ fs, x) end.
Proof. reflexivity. Qed.
(** A mapping whose reference does not lead to a package ends the run with an error.  The configured documents and the mappings before it are written,
    nothing else is. *)
Theorem C67_failing_mapping root h ws ds a m b : reachable h -> has_kind KColl h ws -> own_documents h ws ds -> top_level h ws ds ->
  (forall dc, In dc ds -> fits h ws dc) -> (forall m, In m a -> mapping_fits h ws m) ->
  ((exists e, coll_find h ws (m_ref m) = Err e) \/ (exists x, coll_find h ws (m_ref m) = Ok (Some x) /\ ~ has_kind KPkg h x)) ->
  exists h' fs gs e, write_documents root h ws ds (a ++ m :: b) = (h', fs ++ List.concat gs, Err e) /\
    Forall2 (saved_document root h ws) ds fs /\ Forall2 (saved_mapping root h ws) a gs.
Proof.
  intros R KW O T F M B. destruct (write_docs_ok root ws ds h R KW O F) as (h1 & fs & W & S & R1 & C1 & _).
  destruct (write_maps_ok root (map dc_doc ds) h ws R (own_colls h ws ds O) KW (own_not h ws ds O) a h1 R1 C1 (write_docs_refs root ws ds h h1 fs R KW O F T W) M) as (h2 & gs & W2 & C2 & R2 & S2 & _).
  assert (WA : forall a h1 h2 fs, write_maps root h1 ws a = (h2, fs, Ok tt) -> write_maps root h1 ws (a ++ m :: b) = let '(h3, gs, x) := write_maps root h2 ws (m :: b) in (h3, fs ++ gs, x)).
  { clear. induction a as [|x a IH]; intros h1 h2 fs W.
    - injection W as <- <-. cbn [app]. destruct (write_maps root h1 ws (m :: b)) as [[? ?] ?]. reflexivity.
    - cbn [app]. rewrite write_maps_cons in W. rewrite (write_maps_cons root h1). destruct (gen_mapping root h1 ws x) as [[h3 gs] [u|e]]; [|discriminate].
      destruct (write_maps root h3 ws a) as [[h4 gs'] [[]|e]] eqn:E; [|discriminate]. injection W as <- <-.
      rewrite (IH h3 h4 gs' E). destruct (write_maps root h4 ws (m :: b)) as [[h5 k] y]. now rewrite app_assoc. }
  assert (G : exists e, gen_mapping root h2 ws m = (h2, [], Err e)).
  { pose proof (inv_reachable h R) as H. pose proof (coll_find_ck (map dc_doc ds) h h2 ws H (own_colls h ws ds O) C2 KW (own_not h ws ds O) (m_ref m)) as FE. unfold gen_mapping. rewrite FE.
    destruct B as [(e & ->)|(x & FX & NK)]; [eauto|]. rewrite FX. destruct (found_get h ws (m_ref m) x H FX) as (o & E). destruct (C2 x o E) as (o' & E' & K & _). change (nth_error h2 x) with (get h2 x) in E'. rewrite E', K.
    destruct (o_kind o) eqn:KO; eauto. destruct NK. exists o. auto. }
  destruct G as (e & G). exists h2, fs, gs, e. unfold write_documents. rewrite W, (WA a h1 h2 _ W2). cbn [write_maps]. rewrite G, app_nil_r. auto.
Qed.

(** Within a mapping the same holds: the files before the element that fails are written. *)
Theorem C67_files_before_failure root h m pkg l a e b h1 fs h2 x : write_matched root h m pkg l a = (h1, fs, Ok tt) -> write_mapped root h1 m pkg l e = (h2, Err x) ->
  write_matched root h m pkg l (a ++ e :: b) = (h2, fs, Err x).
Proof.
  revert h fs. induction a as [|y a IH]; intros h fs W F; cbn [write_matched app] in *.
  - injection W as <- <-. now rewrite F.
  - destruct (write_mapped root h m pkg l y) as [h3 [f|z]]; [|discriminate]. destruct (write_matched root h3 m pkg l a) as [[h4 gs] [[]|z]] eqn:E; [|discriminate]. injection W as <- <-. now rewrite (IH h3 gs E F).
Qed.

(** ** What does not hold *)

(** A document configured with a package inside another one changes the paths in the generated documents: the elements of /A/B are written under /B. *)
Theorem C67_nested_package_refuted : exists h ws dc m h' f g q, reachable h /\ own_documents h ws [dc] /\ fits h ws dc /\ mapping_fits h ws m /\
  coll_find h ws "/A/B" = Ok (Some 2) /\ calc_ref h 2 = Ok (Some "/A/B") /\ m_ref m = "/A/B" /\
  write_documents None h ws [dc] [m] = (h', [f; g], Ok tt) /\ only_path (f_heap g) (f_doc g) ["B"] q.
Proof.
  exists (run [ONew KColl ""; OMake 0 "/A/B"; ONew KElem "E"; OPkgAppend 2 3; ONew KColl ""]), 0, (mkDoc 4 "b.arxml" ["/A/B"]), (mkMap "/A/B" (fun i => Nat.eqb i 3) []).
  do 3 eexists. exists 6. splits; try reflexivity.
  - eexists. reflexivity.
  - split; [repeat constructor; intros []|]. intros dc [<-|[]]. split; [eexists; split; reflexivity|discriminate].
  - exists [2]. splits; [apply re_found; [reflexivity|eexists; split; reflexivity|constructor]|repeat constructor; intros []|intros p _ []].
  - split; [constructor|]. right. exists 2, ["A"; "B"]. splits; try reflexivity; [eexists; split; reflexivity|discriminate|]. intros n [<-|[<-|[]]]; split; reflexivity || discriminate.
  - apply op_here; reflexivity.
Qed.

(** Two elements of the same name in two mapped packages are written to the same file: the first is overwritten. *)
Theorem C67_same_file_refuted : exists h ws ma mb h' f g, reachable h /\ mapping_fits h ws ma /\ mapping_fits h ws mb /\ m_ref ma <> m_ref mb /\
  write_documents None h ws [] [ma; mb] = (h', [f; g], Ok tt) /\ f_path f = f_path g /\
  exists qa qb, only_path (f_heap f) (f_doc f) ["A"] qa /\ only_path (f_heap g) (f_doc g) ["B"] qb /\ elements_of (f_heap f) qa <> elements_of (f_heap g) qb.
Proof.
  exists (run [ONew KColl ""; OMake 0 "/A"; OMake 0 "/B"; ONew KElem "E"; OPkgAppend 1 3; ONew KElem "E"; OPkgAppend 2 4]), 0, (mkMap "/A" (fun i => Nat.leb 3 i) []), (mkMap "/B" (fun i => Nat.leb 3 i) []).
  do 3 eexists. splits; try reflexivity; try discriminate.
  - eexists. reflexivity.
  - split; [constructor|]. right. exists 1, ["A"]. splits; try reflexivity; [eexists; split; reflexivity|discriminate|]. intros n [<-|[]]; split; reflexivity || discriminate.
  - split; [constructor|]. right. exists 2, ["B"]. splits; try reflexivity; [eexists; split; reflexivity|discriminate|]. intros n [<-|[]]; split; reflexivity || discriminate.
  - exists 6, 8. splits; [apply op_here; reflexivity|apply op_here; reflexivity|discriminate].
Qed.

(** ** Examples *)
Definition run_ws : heap := run [ONew KColl ""; OMake 0 "/P"; OMake 0 "/Q/R"; ONew KElem "U"; OPkgAppend 1 4; ONew KComp "C"; OPkgAppend 3 5; ONew KElem "C_Impl"; OPkgAppend 3 6; ONew KColl ""; ONew KColl ""].
Definition run_docs : list docconf := [mkDoc 7 "p.arxml" ["/P"]; mkDoc 8 "q.arxml" ["/Q"; "/Missing"]].
Definition run_maps : list mapping := [mkMap "/Q/R" (fun i => Nat.eqb i 5) ["_Impl"]; mkMap "/Nowhere" (fun _ => true) []].
Example C67_example : reachable run_ws /\ has_kind KColl run_ws 0 /\ own_documents run_ws 0 run_docs /\ top_level run_ws 0 run_docs /\
  (forall dc, In dc run_docs -> fits run_ws 0 dc) /\ (forall m, In m run_maps -> mapping_fits run_ws 0 m).
Proof.
  splits.
  - eexists. reflexivity.
  - eexists. split; reflexivity.
  - split; [repeat constructor; cbn; intuition discriminate|]. intros dc [<-|[<-|[]]]; (split; [eexists; split; reflexivity|discriminate]).
  - intros dc r p [<-|[<-|[]]] I F.
    + destruct I as [<-|[]]. vm_compute in F. injection F as <-. exists 0. split; eexists; split; reflexivity.
    + destruct I as [<-|[<-|[]]]; vm_compute in F; [|discriminate]. injection F as <-. exists 0. split; eexists; split; reflexivity.
  - intros dc [<-|[<-|[]]]; [exists [1]|exists [2]]; (splits; [|repeat constructor; intros []|intros p _ []]).
    + apply re_found; [reflexivity|eexists; split; reflexivity|constructor].
    + apply re_found; [reflexivity|eexists; split; reflexivity|]. apply re_none; [reflexivity|constructor].
  - intros m [<-|[<-|[]]]; (split; [repeat constructor; intros []|]); [right|left; reflexivity].
    exists 3, ["Q"; "R"]. splits; try reflexivity; [eexists; split; reflexivity|discriminate|]. intros n [<-|[<-|[]]]; split; reflexivity || discriminate.
Qed.
Example C67_example_files : map f_path (snd (fst (write_documents (Some "out") run_ws 0 run_docs run_maps))) = ["out/p.arxml"; "out/q.arxml"; "out/C.arxml"].
Proof. reflexivity. Qed.
(** A second document with the package of the first twice: it does not fit, the first is written. *)
Example C67_failure_example : ~ fits run_ws 0 (mkDoc 8 "q.arxml" ["/P"; "/P"]) /\
  map f_path (snd (fst (write_documents None run_ws 0 [mkDoc 7 "p.arxml" ["/P"]; mkDoc 8 "q.arxml" ["/P"; "/P"]] run_maps))) = ["p.arxml"].
Proof.
  split; [|reflexivity]. intros (ps & R & N & _). assert (ps = [1; 1]) as ->; [|cbn in N; inversion N; subst; apply H1; now left].
  eapply resolved_fun; [exact R|]. apply re_found; [reflexivity|eexists; split; reflexivity|]. apply re_found; [reflexivity|eexists; split; reflexivity|constructor].
Qed.
(** A suffix listed twice fails at the element that has such a partner; the file before is written. *)
Example C67_mapping_failure_example :
  write_documents None (run [ONew KColl ""; OMake 0 "/A"; ONew KComp "B"; OPkgAppend 1 2; ONew KComp "C"; OPkgAppend 1 3; ONew KElem "C_Impl"; OPkgAppend 1 4]) 0 [] [mkMap "/A" (fun i => Nat.leb i 3) ["_Impl"; "_Impl"]]
  = (fst (fst (write_documents None (run [ONew KColl ""; OMake 0 "/A"; ONew KComp "B"; OPkgAppend 1 2; ONew KComp "C"; OPkgAppend 1 3; ONew KElem "C_Impl"; OPkgAppend 1 4]) 0 [] [mkMap "/A" (fun i => Nat.leb i 3) ["_Impl"; "_Impl"]])),
     [mkFile "B.arxml" 5 (fst (fst (write_documents None (run [ONew KColl ""; OMake 0 "/A"; ONew KComp "B"; OPkgAppend 1 2; ONew KComp "C"; OPkgAppend 1 3; ONew KElem "C_Impl"; OPkgAppend 1 4]) 0 [] [mkMap "/A" (fun i => Nat.eqb i 2) []])))],
     Err DuplicateElement).
Proof. reflexivity. Qed.

Print Assumptions C67_run.
Print Assumptions C67_first_failure.
Print Assumptions C67_failing_mapping.
Print Assumptions C67_files_before_failure.
Print Assumptions C67_configured_reload.
Print Assumptions C67_generated_reload.
Print Assumptions C67_nested_package_refuted.
Print Assumptions C67_same_file_refuted.
