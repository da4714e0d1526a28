(** C75: the files on disk during and after a run of Workspace.write_documents. *)
From Verif Require Import Base PBase MHeap SHeap PHeap MWork SWork PWork PDocs PDocs2 MCodec SCodec MArxml SArxml PArxml SReload SRun PropsArxml PropsDocs PropsReload PRun PropsRun MFile SSave PropsSave PropsFile SDisk.
Open Scope nat_scope.
Open Scope list_scope.
Ltac splits := repeat match goal with |- _ /\ _ => split end.

(** The documents of a run, with the paths they are saved to: [c] and [id] are the contents of the objects, which survive a round trip (C24). *)
Definition run_saves (c : nat -> ARElement) (id : nat -> identifiable) (files : list file) (docs : list (string * document)) : Prop :=
  Forall2 (fun f pd => fst pd = f_path f /\ document_of (f_heap f) c id (f_doc f) (snd pd) /\ good_contents (f_heap f) c id (f_doc f) (doc_schema_version (snd pd))) files docs.
(** Every document and every mapping can be carried out (as in C67). *)
Definition can_run (h : heap) (ws : nat) (ds : list docconf) (ms : list mapping) : Prop :=
  reachable h /\ has_kind KColl h ws /\ own_documents h ws ds /\ top_level h ws ds /\ (forall dc, In dc ds -> fits h ws dc) /\ (forall m, In m ms -> mapping_fits h ws m).

Lemma run_reachable root h ws ds ms h' files : can_run h ws ds ms -> write_documents root h ws ds ms = (h', files, Ok tt) -> Forall (fun f => reachable (f_heap f)) files.
Proof.
  intros (R & KW & O & T & F & M) W0. destruct (write_docs_ok root ws ds h R KW O F) as (h1 & fs & W & S & R1 & C1 & G1).
  destruct (write_maps_ok root (map dc_doc ds) h ws R (own_colls h ws ds O) KW (own_not h ws ds O) ms h1 R1 C1 (write_docs_refs root ws ds h h1 fs R KW O F T W) M) as (h2 & gs & W2 & C2 & _ & S2 & G2).
  unfold write_documents in W0. rewrite W, W2 in W0. injection W0 as _ <-. apply Forall_app. split.
  - eapply Forall_impl; [|exact G1]. now intros f [X _].
  - apply Forall_concat. eapply Forall_impl; [|exact G2]. intros l L. eapply Forall_impl; [|exact L]. now intros f [X _].
Qed.
Lemma due_file root h ws ds ms h' files path ns x : can_run h ws ds ms -> write_documents root h ws ds ms = (h', files, Ok tt) -> due root h ws ds ms path ns x ->
  exists f, In f files /\ f_path f = path /\ forall c id doc, document_of (f_heap f) c id (f_doc f) doc -> good_contents (f_heap f) c id (f_doc f) (doc_schema_version doc) ->
    exists text, write_file doc = Ok text /\ has_element text ns (norm_ARElement (c x)).
Proof.
  intros (R & KW & O & T & F & M) W D. destruct D as [dc r p ns x Id Ir FP P EX|m pkg po ns e x Im FM Ep CR NE V Ie Te B].
  - destruct (C67_configured_reload root h ws ds ms dc r p ns x R KW O T F M Id Ir FP P EX) as (h2 & fs & f & W2 & If & PF & L). rewrite W in W2. injection W2 as _ <-.
    exists f. splits; auto. intros c id doc DO G. destruct (L c id doc DO G) as (text & loaded & TX & RD & ST). exists text. split; [exact TX|]. now exists loaded.
  - destruct (C67_generated_reload root h ws ds ms m pkg po ns e x R KW O T F M Im FM Ep CR NE V Ie Te B) as (h2 & fs & f & W2 & If & PF & L). rewrite W in W2. injection W2 as _ <-.
    exists f. splits; auto. intros c id doc DO G. destruct (L c id doc DO G) as (text & loaded & TX & RD & ST). exists text. split; [exact TX|]. now exists loaded.
Qed.
Lemma saves_good c id files docs : Forall (fun f => reachable (f_heap f)) files -> run_saves c id files docs -> forall p d, In (p, d) docs -> good_document d.
Proof.
  intros FR S. induction S as [|f pd files docs (E & DO & G) S IH]; intros p d I; [destruct I|]. inversion FR; subst. destruct I as [->|I]; [|eapply IH; eauto].
  cbn in *. eapply document_good; eauto. now apply inv_reachable.
Qed.
Lemma saves_in c id files docs f : run_saves c id files docs -> In f files -> exists d, In (f_path f, d) docs /\ document_of (f_heap f) c id (f_doc f) d /\ good_contents (f_heap f) c id (f_doc f) (doc_schema_version d).
Proof.
  induction 1 as [|g pd files docs (E & DO & G) S IH]; intros I; [destruct I|]. destruct I as [->|I].
  - exists (snd pd). splits; auto. left. rewrite <- E. now destruct pd.
  - destruct (IH I) as (d & J & X). exists d. split; [now right|exact X].
Qed.
Lemma saves_paths c id files docs : run_saves c id files docs -> map fst docs = map f_path files.
Proof. induction 1 as [|g pd files docs (E & _) S IH]; cbn; [reflexivity|]. now rewrite E, IH. Qed.

(** ** One file per path *)
Lemma nodup_split {A} (a b : list A) x : NoDup (a ++ x :: b) -> ~ In x a /\ ~ In x b.
Proof. intros N. apply NoDup_remove_2 in N. split; intros I; apply N, in_or_app; auto. Qed.
(** Wherever a row of saves is interrupted, there is at most one file that is neither as it was nor complete; it is never taken for a document. *)
Lemma at_most_one docs ops n s : (forall p d, In (p, d) docs -> good_document d) -> NoDup (map fst docs) -> savings docs ops (Ok tt) ->
  exists torn, List.length torn <= 1 /\
    (forall p, In p torn -> exists part, run_io s (firstn n ops) p = Some part /\ rejected part) /\
    (forall p d, In (p, d) docs -> ~ In p torn -> run_io s (firstn n ops) p = s p \/ exists text, write_file d = Ok text /\ run_io s (firstn n ops) p = Some text) /\
    (forall p, ~ In p (map fst docs) -> run_io s (firstn n ops) p = s p).
Proof.
  intros G ND SV. destruct (C65_interrupted_saves docs ops n s G SV) as (sv & cu & la & E & L & A & B & C). exists (map fst cu). splits.
  - now rewrite map_length.
  - intros p I. apply in_map_iff in I as ([q d] & <- & I). destruct (B q d I) as (text & part & _ & X & _ & Y). cbn. eauto.
  - intros p d I N. rewrite E in I. apply in_app_or in I as [I|I].
    + right. apply in_split in I as (b & a & ->). apply (A b p d a eq_refl). rewrite E in ND. rewrite map_app, map_app in ND. cbn in ND. rewrite <- app_assoc in ND. cbn in ND. apply nodup_split in ND as [_ X].
      rewrite map_app. intros I. apply X. apply in_app_or in I as [I|I]; apply in_or_app; [now left|right]. rewrite map_app. apply in_or_app. now left.
    + left. apply C. intros I'. rewrite map_app in I'. apply in_app_or in I' as [I'|I']; [|contradiction].
      apply in_app_or in I as [I|I]; [apply N; now apply in_map with (f := fst) in I|].
      rewrite E in ND. rewrite map_app in ND. apply in_map with (f := fst) in I. cbn in I.
      apply in_split in I' as (b & a & E'). rewrite E' in ND. rewrite <- app_assoc in ND. cbn in ND. apply nodup_split in ND as [_ X]. apply X. apply in_or_app. right. rewrite map_app. apply in_or_app. now right.
  - intros p N. apply C. intros I. apply N. rewrite E. rewrite !map_app in *. apply in_app_or in I as [I|I]; apply in_or_app; [now left|right]. apply in_or_app. now left.
Qed.

(** ** C75 *)
(** After a run every element that is due in a file is found there: the file on disk, whatever was there before, is loaded by every reader, and has the element
    in its place. *)
Theorem C75_completed root h ws ds ms h' files c id docs ops s path ns x : can_run h ws ds ms -> write_documents root h ws ds ms = (h', files, Ok tt) -> NoDup (map f_path files) ->
  run_saves c id files docs -> savings docs ops (Ok tt) -> due root h ws ds ms path ns x ->
  exists text, run_io s ops path = Some text /\ has_element text ns (norm_ARElement (c x)).
Proof.
  intros CR W ND RS SV D. pose proof (saves_good c id files docs (run_reachable _ _ _ _ _ _ _ CR W) RS) as G.
  destruct (due_file root h ws ds ms h' files path ns x CR W D) as (f & If & <- & L). destruct (saves_in c id files docs f RS If) as (d & Id & DO & GC).
  destruct (L c id d DO GC) as (text & TX & loaded & RD & ST). apply in_split in Id as (b & a & E).
  assert (N : ~ In (f_path f) (map fst a)) by (rewrite <- (saves_paths _ _ _ _ RS), E, map_app in ND; cbn in ND; now apply nodup_split in ND).
  destruct (C65_completed_saves docs ops s b (f_path f) d a G SV E N) as (t & X & Y). exists t. split; [exact X|]. exists loaded. split; [|exact ST].
  intros v stop. rewrite Y. cbn. rewrite <- (RD v stop). destruct (C24_document_round_trip d) as (t' & TX' & RD'); [eapply G; rewrite E; apply in_or_app; right; now left|].
  rewrite TX in TX'. injection TX' as <-. now rewrite RD'.
Qed.
(** Wherever the run is interrupted, a file in which an element is due is as it was before, or is refused by every reader, or has the element in its place.
    No reader takes part of a document for the document. *)
Theorem C75_interrupted root h ws ds ms h' files c id docs ops n s path ns x : can_run h ws ds ms -> write_documents root h ws ds ms = (h', files, Ok tt) -> NoDup (map f_path files) ->
  run_saves c id files docs -> savings docs ops (Ok tt) -> due root h ws ds ms path ns x ->
  run_io s (firstn n ops) path = s path \/
  (exists part, run_io s (firstn n ops) path = Some part /\ rejected part) \/
  exists text, run_io s (firstn n ops) path = Some text /\ has_element text ns (norm_ARElement (c x)).
Proof.
  intros CR W ND RS SV D. pose proof (saves_good c id files docs (run_reachable _ _ _ _ _ _ _ CR W) RS) as G.
  destruct (due_file root h ws ds ms h' files path ns x CR W D) as (f & If & <- & L). destruct (saves_in c id files docs f RS If) as (d & Id & DO & GC).
  destruct (L c id d DO GC) as (text & TX & HE). rewrite <- (saves_paths _ _ _ _ RS) in ND.
  destruct (at_most_one docs ops n s G ND SV) as (torn & _ & A & B & _). destruct (in_dec string_dec (f_path f) torn) as [I|I]; [right; left; auto|].
  destruct (B (f_path f) d Id I) as [X|(t & T & X)]; [auto|]. right. right. rewrite TX in T. injection T as <-. eauto.
Qed.
(** At most one file is refused that was not there before, and files of other paths are never touched. *)
Theorem C75_one_torn root h ws ds ms h' files c id docs ops n s : can_run h ws ds ms -> write_documents root h ws ds ms = (h', files, Ok tt) -> NoDup (map f_path files) ->
  run_saves c id files docs -> savings docs ops (Ok tt) ->
  exists torn, List.length torn <= 1 /\
    (forall path ns x, due root h ws ds ms path ns x -> ~ In path torn ->
       run_io s (firstn n ops) path = s path \/ exists text, run_io s (firstn n ops) path = Some text /\ has_element text ns (norm_ARElement (c x))) /\
    (forall path, ~ In path (map f_path files) -> run_io s (firstn n ops) path = s path).
Proof.
  intros CR W ND RS SV. pose proof (saves_good c id files docs (run_reachable _ _ _ _ _ _ _ CR W) RS) as G.
  rewrite <- (saves_paths _ _ _ _ RS) in *. destruct (at_most_one docs ops n s G ND SV) as (torn & L1 & A & B & C). exists torn. splits; auto.
  intros path ns x D N. destruct (due_file root h ws ds ms h' files path ns x CR W D) as (f & If & <- & L). destruct (saves_in c id files docs f RS If) as (d & Id & DO & GC).
  destruct (L c id d DO GC) as (text & TX & HE). destruct (B (f_path f) d Id N) as [X|(t & T & X)]; [auto|]. right. rewrite TX in T. injection T as <-. eauto.
Qed.
(** The documents of a run can be saved: there is such a row of saves, whatever pieces the texts are handed over in. *)
Theorem C75_saves root h ws ds ms h' files c id docs : can_run h ws ds ms -> write_documents root h ws ds ms = (h', files, Ok tt) -> run_saves c id files docs ->
  exists ops, savings docs ops (Ok tt).
Proof.
  intros CR W RS. pose proof (saves_good c id files docs (run_reachable _ _ _ _ _ _ _ CR W) RS) as G. clear -G. induction docs as [|[p d] docs IH]; [exists []; constructor|].
  destruct IH as (b & B); [intros q e I; eapply G; right; exact I|]. destruct (C24_document_round_trip d (G p d (or_introl eq_refl))) as (text & TX & _).
  exists (save_io p [text] ++ b). eapply savings_next; [|exact B]. apply saving_done. cbn. exact TX.
Qed.

(** ** What does not hold *)
(** That every element is found afterwards although two files have the same path: two mapped packages with elements of the same name. *)
Definition same_ws : heap := run [ONew KColl ""; OMake 0 "/A"; OMake 0 "/B"; ONew KElem "E"; OPkgAppend 1 3; ONew KElem "E"; OPkgAppend 2 4].
Definition same_maps : list mapping := [mkMap "/A" (fun i => Nat.leb 3 i) []; mkMap "/B" (fun i => Nat.leb 3 i) []].
Definition same_contents (x : nat) : ARElement := AR_Unit (MElem1.mkUnit (name_only "E") None None None None).
Definition same_idents (x : nat) : identifiable := match x with 1 => name_only "A" | 6 => name_only "A" | _ => name_only "B" end.
Definition same_doc (n : string) : document := mkDocument [mkPackage (name_only n) [same_contents 0] []] 51.
Lemma same_can : can_run same_ws 0 [] same_maps.
Proof.
  unfold can_run. splits.
  - eexists. reflexivity.
  - eexists. split; reflexivity.
  - split; [constructor|intros ? []].
  - intros ? ? ? [].
  - intros ? [].
  - intros m [<-|[<-|[]]]; (split; [constructor|]); right; [exists 1, ["A"]|exists 2, ["B"]]; (splits; try reflexivity; [eexists; split; reflexivity|discriminate|intros n [<-|[]]; split; reflexivity || discriminate]).
Qed.
Lemma same_saves : exists h' files, write_documents None same_ws 0 [] same_maps = (h', files, Ok tt) /\ run_saves same_contents same_idents files [("E.arxml", same_doc "A"); ("E.arxml", same_doc "B")].
Proof.
  do 2 eexists. split; [reflexivity|]. apply Forall2_cons; [|apply Forall2_cons; [|apply Forall2_nil]]; (splits; [reflexivity| |]).
  - eexists. splits; [reflexivity|reflexivity|]. constructor; [|constructor].
    match goal with |- package_of ?h _ _ _ _ => refine (package_of_intro h same_contents same_idents 6 (nth 6 h (new_obj KColl "")) [] _ _ _ _ _) end; [reflexivity|reflexivity|reflexivity|intros e [<-|[]]; eexists; splits; (reflexivity || now left)|constructor].
  - intros ns x _. split; intros _; [good|]. unfold same_idents. repeat (destruct x as [|x]; [good|]). good.
  - eexists. splits; [reflexivity|reflexivity|]. constructor; [|constructor].
    match goal with |- package_of ?h _ _ _ _ => refine (package_of_intro h same_contents same_idents 8 (nth 8 h (new_obj KColl "")) [] _ _ _ _ _) end; [reflexivity|reflexivity|reflexivity|intros e [<-|[]]; eexists; splits; (reflexivity || now left)|constructor].
  - intros ns x _. split; intros _; [good|]. unfold same_idents. repeat (destruct x as [|x]; [good|]). good.
Qed.
Theorem C75_same_path_refuted : ~ (forall root h ws ds ms h' files c id docs ops s path ns x, can_run h ws ds ms -> write_documents root h ws ds ms = (h', files, Ok tt) ->
  run_saves c id files docs -> savings docs ops (Ok tt) -> due root h ws ds ms path ns x ->
  exists text, run_io s ops path = Some text /\ has_element text ns (norm_ARElement (c x))).
Proof.
  intros H. destruct same_saves as (h' & files & W & RS). destruct (C75_saves _ _ _ _ _ _ _ _ _ _ same_can W RS) as (ops & SV).
  assert (D : due None same_ws 0 [] same_maps "E.arxml" ["A"; "E"] 3).
  { refine (due_generated None same_ws 0 [] same_maps (mkMap "/A" (fun i => Nat.leb 3 i) []) 1 (nth 1 same_ws (new_obj KColl "")) ["A"] 3 3 _ _ _ _ _ _ _ _ _); try reflexivity; try discriminate.
    - now left.
    - intros n [<-|[]]; split; reflexivity || discriminate.
    - now left.
    - now left. }
  destruct (H _ _ _ _ _ _ _ _ _ _ ops (fun _ => None) _ _ _ same_can W RS SV D) as (text & X & loaded & RD & ST).
  destruct (C65_completed_saves _ ops (fun _ => None) [("E.arxml", same_doc "A")] "E.arxml" (same_doc "B") [] (saves_good _ _ _ _ (run_reachable _ _ _ _ _ _ _ same_can W) RS) SV eq_refl (fun I => I)) as (t & Y & Z).
  rewrite X in Y. injection Y as <-. specialize (RD 51%N false). rewrite Z in RD. cbn [snd] in RD. injection RD as <-.
  remember ["A"; "E"] as l eqn:L. remember (doc_packages _) as ps eqn:P. destruct ST as [i es qs l0 e I J|i es qs l0 ns e I J]; subst l0; destruct I as [I|[]];
    apply (f_equal (fun p => match p with mkPackage i _ _ => id_name i end)) in I; change ("B" = id_name i) in I; injection L as L _; rewrite <- I in L; discriminate L.
Qed.

(** ** Example: a document and a generated document *)
Definition disk_ws : heap := run [ONew KColl ""; OMake 0 "/P"; ONew KElem "U"; OPkgAppend 1 2; ONew KColl ""].
Definition disk_docs : list docconf := [mkDoc 3 "p.arxml" ["/P"]].
Definition disk_maps : list mapping := [mkMap "/P" (fun _ => true) []].
Definition disk_contents (x : nat) : ARElement := AR_Unit (MElem1.mkUnit (name_only "U") None None None None).
Definition disk_doc : document := mkDocument [mkPackage (name_only "P") [disk_contents 2] []] 51.
Example C75_example : can_run disk_ws 0 disk_docs disk_maps /\
  (exists h' files, write_documents (Some "out") disk_ws 0 disk_docs disk_maps = (h', files, Ok tt) /\ NoDup (map f_path files) /\
     run_saves disk_contents (fun _ => name_only "P") files [("out/p.arxml", disk_doc); ("out/U.arxml", disk_doc)]) /\
  due (Some "out") disk_ws 0 disk_docs disk_maps "out/p.arxml" ["P"; "U"] 2 /\ due (Some "out") disk_ws 0 disk_docs disk_maps "out/U.arxml" ["P"; "U"] 2.
Proof.
  unfold can_run. splits.
  - eexists. reflexivity.
  - eexists. split; reflexivity.
  - split; [repeat constructor; intros []|]. intros dc [<-|[]]. split; [eexists; split; reflexivity|discriminate].
  - intros dc r p [<-|[]] [<-|[]] F. vm_compute in F. injection F as <-. exists 0. split; eexists; split; reflexivity.
  - intros dc [<-|[]]. exists [1]. splits; [apply re_found; [reflexivity|eexists; split; reflexivity|constructor]|repeat constructor; intros []|intros p _ []].
  - intros m [<-|[]]. split; [constructor|]. right. exists 1, ["P"]. splits; try reflexivity; [eexists; split; reflexivity|discriminate|intros n [<-|[]]; split; reflexivity || discriminate].
  - do 2 eexists. split; [reflexivity|]. split; [cbn; repeat constructor; cbn; intuition discriminate|]. apply Forall2_cons; [|apply Forall2_cons; [|apply Forall2_nil]]; (splits; [reflexivity| |intros ns x _; split; intros _; good]).
    + eexists. splits; [reflexivity|reflexivity|]. constructor; [|constructor].
      match goal with |- package_of ?h _ _ _ _ => refine (package_of_intro h disk_contents (fun _ => name_only "P") 1 (nth 1 h (new_obj KColl "")) [] _ _ _ _ _) end; [reflexivity|reflexivity|reflexivity|intros e [<-|[]]; eexists; splits; (reflexivity || now left)|constructor].
    + eexists. splits; [reflexivity|reflexivity|]. constructor; [|constructor].
      match goal with |- package_of ?h _ _ _ _ => refine (package_of_intro h disk_contents (fun _ => name_only "P") 5 (nth 5 h (new_obj KColl "")) [] _ _ _ _ _) end; [reflexivity|reflexivity|reflexivity|intros e [<-|[]]; eexists; splits; (reflexivity || now left)|constructor].
  - refine (due_configured (Some "out") disk_ws 0 disk_docs disk_maps (mkDoc 3 "p.arxml" ["/P"]) "/P" 1 ["U"] 2 _ _ _ _ _); [now left|now left|reflexivity| |left; eexists; split; reflexivity].
    constructor. eexists. splits; [reflexivity|now left|right; now left|eexists; split; reflexivity].
  - refine (due_generated (Some "out") disk_ws 0 disk_docs disk_maps (mkMap "/P" (fun _ => true) []) 1 (nth 1 disk_ws (new_obj KColl "")) ["P"] 2 2 _ _ _ _ _ _ _ _ _); try reflexivity; try discriminate; try now left.
    intros n [<-|[]]; split; reflexivity || discriminate.
Qed.

Print Assumptions C75_completed.
Print Assumptions C75_interrupted.
Print Assumptions C75_one_torn.
Print Assumptions C75_saves.
Print Assumptions C75_same_path_refuted.
