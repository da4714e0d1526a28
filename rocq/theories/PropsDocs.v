(** Property theorems about writing documents (C39).
    Vocabulary: SWork.v, SHeap.v.  The model of the code: MWork.v, MHeap.v. *)
From Coq Require Import Permutation Sorted.
From Verif Require Import Base PBase MHeap SHeap PHeap MWork SWork PWork PTmpl PDocs PDocs2.

(** A written configured document holds what it held before (nothing, for a new one) followed by
    exactly the packages found under the configured references, in that order; nothing else
    changes except the parents of packages, so the packages are written with the content
    they have in the workspace. *)
Theorem C39_document_contents :
  forall root h ws dc h' f,
    reachable h -> has_kind KColl h (dc_doc dc) -> ws <> dc_doc dc ->
    write_doc root h ws dc = (h', Ok f) ->
    f_path f = out_path root (dc_path dc) /\ f_doc f = dc_doc dc /\ f_heap f = h' /\
    same_except (dc_doc dc) h h' /\
    exists ps, resolved h ws (dc_refs dc) ps /\
      packages_of h' (dc_doc dc) = packages_of h (dc_doc dc) ++ ps.
Proof.
  intros root h ws dc h' f R K D E. unfold write_doc in E.
  destruct (put_packages h ws (dc_doc dc) (dc_refs dc)) as [h1 [u|e]] eqn:P; [|discriminate].
  injection E as <- <-. destruct u.
  destruct (put_inv h ws (dc_doc dc) (dc_refs dc) (inv_reachable h R) K D _ _ P) as (_ & S & _ & X & _).
  destruct (X eq_refl) as (ps & Rs & PK & _).
  split; [reflexivity|]. split; [reflexivity|]. split; [reflexivity|]. split; [exact S|]. eauto.
Qed.

(** When all references lead to packages (or nowhere), writing succeeds exactly if the packages
    have different names, also different from those already in the document; otherwise it raises
    ValueError. *)
Theorem C39_document_written_iff :
  forall root h ws dc ps,
    reachable h -> has_kind KColl h (dc_doc dc) -> ws <> dc_doc dc ->
    resolved h ws (dc_refs dc) ps ->
    ((exists h' f, write_doc root h ws dc = (h', Ok f)) <->
     NoDup (map (name_of h) ps) /\
     (forall p, In p ps -> ~ In (name_of h p) (map (name_of h) (packages_of h (dc_doc dc))))) /\
    (forall h' e, write_doc root h ws dc = (h', Err e) -> e = ValueError).
Proof.
  intros root h ws dc ps R K D Rs. unfold write_doc.
  destruct (put_packages h ws (dc_doc dc) (dc_refs dc)) as [h1 r] eqn:P.
  destruct (put_inv h ws (dc_doc dc) (dc_refs dc) (inv_reachable h R) K D _ _ P) as (_ & _ & X & _).
  destruct (X ps Rs) as (A & B). split.
  - rewrite <- A. destruct r as [[]|e]; split; intros Y; try congruence; eauto.
    destruct Y as (? & ? & Y). discriminate.
  - intros h' e. destruct r as [u|x]; [discriminate|]. intros [= _ <-].
    specialize (B ltac:(discriminate)). congruence.
Qed.

(** Saving is not repeatable for configured documents: after a successful save of at least one
    package, every second save raises ValueError. *)
Theorem C39_second_save_refuted :
  forall root h ws dc h' f p ps,
    reachable h -> has_kind KColl h (dc_doc dc) -> ws <> dc_doc dc ->
    write_doc root h ws dc = (h', Ok f) -> resolved h ws (dc_refs dc) (p :: ps) ->
    write_doc root h' ws dc = (fst (write_doc root h' ws dc), Err ValueError).
Proof.
  intros root h ws dc h' f p ps R K D E Rs. unfold write_doc in E.
  destruct (put_packages h ws (dc_doc dc) (dc_refs dc)) as [h1 [u|e]] eqn:P; [|discriminate].
  injection E as <- <-. destruct u.
  destruct (put_inv h ws (dc_doc dc) (dc_refs dc) (inv_reachable h R) K D _ _ P) as (I1 & S & _ & X & _).
  destruct (X eq_refl) as (ps' & Rs' & PK & _).
  rewrite (resolved_fun _ _ _ _ _ Rs' Rs) in PK.
  assert (Rs1 : resolved h1 ws (dc_refs dc) (p :: ps)) by (eapply resolved_se; eauto).
  assert (K1 : has_kind KColl h1 (dc_doc dc)) by now apply (same_except_kind (dc_doc dc) h h1).
  unfold write_doc. destruct (put_packages h1 ws (dc_doc dc) (dc_refs dc)) as [h2 r] eqn:P2.
  destruct (put_inv h1 ws (dc_doc dc) (dc_refs dc) I1 K1 D _ _ P2) as (_ & _ & Y & _).
  destruct (Y _ Rs1) as (A & B). destruct r as [[]|e].
  - exfalso. destruct (proj1 A eq_refl) as (_ & N). apply (N p); [now left|].
    rewrite PK. rewrite map_app. apply in_or_app. right. now left.
  - cbn [fst]. specialize (B ltac:(discriminate)). congruence.
Qed.

(** Saving takes the packages away from the workspace: their parent (and with it the root
    found by walking up) is the document afterwards. *)
Theorem C39_saving_moves_packages_refuted :
  forall root h ws dc h' f ps p,
    reachable h -> has_kind KColl h (dc_doc dc) -> ws <> dc_doc dc ->
    write_doc root h ws dc = (h', Ok f) -> resolved h ws (dc_refs dc) ps -> In p ps ->
    chain h' p (dc_doc dc).
Proof.
  intros root h ws dc h' f ps p R K D E Rs Ip. unfold write_doc in E.
  destruct (put_packages h ws (dc_doc dc) (dc_refs dc)) as [h1 [u|e]] eqn:P; [|discriminate].
  injection E as <- <-. destruct u.
  destruct (put_inv h ws (dc_doc dc) (dc_refs dc) (inv_reachable h R) K D _ _ P) as (I1 & S & _ & X & _).
  destruct (X eq_refl) as (ps' & Rs' & _ & PA). rewrite (resolved_fun _ _ _ _ _ Rs' Rs) in PA.
  apply (chain_up _ p (dc_doc dc)); [now apply PA|]. apply chain_end.
  apply (same_except_kind (dc_doc dc) h h1) in K; [|exact S]. destruct K as (o & Eo & Ko).
  exists o. split; [exact Eo|]. exact (g_coll h1 (dc_doc dc) o (I1 _ o Eo) Ko).
Qed.

(** Saving can change references: with a sub-package configured as a document of its own, an
    element in it has the reference "/A/B/E" before and "/B/E" after saving, which leads
    nowhere in the workspace. *)
Theorem C39_saving_changes_references_refuted :
  exists h ws dc h' f e,
    reachable h /\ write_doc None h ws dc = (h', Ok f) /\
    calc_ref h e = Ok (Some "/A/B/E") /\ calc_ref h' e = Ok (Some "/B/E") /\
    coll_find h' ws "/B/E" = Ok None.
Proof.
  exists (run [ONew KColl ""; OMake 0 "/A/B"; ONew KElem "E"; OPkgAppend 2 3; ONew KColl ""]), 0,
    (mkDoc 4 "b.arxml" ["/A/B"]).
  do 2 eexists. exists 3. split; [eexists; reflexivity|]. repeat split; vm_compute; reflexivity.
Qed.

(** Documents generated from a package: one per element of the configured type, in the order
    of the package; each holds exactly the elements that belong to it (the element itself and those
    whose name is its name followed by a configured suffix), each once, sorted by name, under the package
    path of the source package.  Generation always succeeds when no suffix is listed twice,
    and can be repeated: the second run writes the same again. *)
Theorem C39_generated_documents :
  forall root h ws m pkg po ns,
    reachable h -> coll_find h ws (m_ref m) = Ok (Some pkg) ->
    nth_error h pkg = Some po -> o_kind po = KPkg ->
    ns <> [] -> (forall n, In n ns -> valid_name n) -> calc_ref h pkg = Ok (Some (abs ns)) ->
    NoDup (filter (fun s => negb (String.eqb s "")) (m_suffixes m)) ->
    exists h' fs h'' fs',
      gen_mapping root h ws m = (h', fs, Ok tt) /\
      Forall2 (file_ok h root m ns (o_elements po)) (filter (m_type m) (o_elements po)) fs /\
      gen_mapping root h' ws m = (h'', fs', Ok tt) /\
      Forall2 (file_ok h root m ns (o_elements po)) (filter (m_type m) (o_elements po)) fs'.
Proof.
  intros root h ws m pkg po ns R F Ep KP NE V C ND.
  destruct (gen_mapping_ok root h ws m pkg po ns R F Ep KP NE V C ND) as (h1 & fs & E1 & K1 & R1 & F1).
  pose proof (inv_reachable h R) as I.
  assert (Ep1 : get h1 pkg = Some po).
  { destruct (K1 pkg po Ep) as (o' & E' & _ & _ & _ & _ & _ & X). rewrite E', X; auto. }
  destruct (gen_mapping_ok root h1 ws m pkg po ns R1) as (h2 & fs2 & E2 & K2 & R2 & F2); auto.
  { eapply coll_find_kept; eauto. }
  { eapply kept_ref; eauto. now apply inv_reachable. }
  exists h1, fs, h2, fs2. split; [exact E1|]. split; [exact F1|]. split; [exact E2|].
  assert (Ll : forall y, In y (o_elements po) -> y < List.length h).
  { intros y Iy. apply (g_kids h pkg po (I pkg po Ep)). unfold kids. apply in_or_app; auto. }
  assert (Sub : forall e, In e (filter (m_type m) (o_elements po)) -> In e (o_elements po)).
  { intros e Ie. now apply filter_In in Ie. }
  clear -F2 K1 Ll Sub. induction F2 as [|x y xs ys Fx F2 IH]; constructor.
  - assert (X : In x (o_elements po)) by (apply Sub; now left). eapply file_kept; eauto.
  - apply IH. intros; apply Sub; now right.
Qed.

(** A suffix listed twice stops the generation with an error. *)
Theorem C39_repeated_suffix_refuted :
  exists h ws m h', reachable h /\ gen_mapping None h ws m = (h', [], Err DuplicateElement).
Proof.
  exists (run [ONew KColl ""; OMake 0 "/A"; ONew KComp "C"; OPkgAppend 1 2; ONew KElem "C_Impl"; OPkgAppend 1 3]), 0,
    (mkMap "/A" (fun i => Nat.eqb i 2) ["_Impl"; "_Impl"]).
  eexists. split; [eexists; reflexivity|vm_compute; reflexivity].
Qed.

(** Non-vacuity. *)
Definition demo_ws : heap :=
  run [ONew KColl ""; OMake 0 "/A/B"; ONew KComp "C"; OPkgAppend 2 3; ONew KElem "C_Impl"; OPkgAppend 2 4;
       ONew KElem "A_T"; OPkgAppend 2 5; OMake 0 "/D"; ONew KColl ""].
Example C39_case_document :
  exists h' f, write_doc (Some "out") demo_ws 0 (mkDoc 7 "x.arxml" ["/D"; "/Nope"; "/A"]) = (h', Ok f) /\
    f_path f = "out/x.arxml" /\ packages_of (f_heap f) 7 = [6; 1] /\
    resolved demo_ws 0 ["/D"; "/Nope"; "/A"] [6; 1].
Proof.
  do 2 eexists. split; [vm_compute; reflexivity|]. split; [reflexivity|]. split; [reflexivity|].
  apply re_found; [reflexivity|eexists; split; reflexivity|].
  apply re_none; [reflexivity|]. apply re_found; [reflexivity|eexists; split; reflexivity|]. apply re_nil.
Qed.
Example C39_case_generated :
  let m := mkMap "/A/B" (fun i => Nat.eqb i 3) ["_Impl"] in
  coll_find demo_ws 0 (m_ref m) = Ok (Some 2) /\ calc_ref demo_ws 2 = Ok (Some (abs ["A"; "B"])) /\
  match gen_mapping None demo_ws 0 m with
  | (h', [f], Ok _) => f_path f = "C.arxml" /\ match coll_find (f_heap f) (f_doc f) "/A/B" with
                                           | Ok (Some q) => elements_of (f_heap f) q = [3; 4]
                                           | _ => False end
  | _ => False
  end.
Proof. repeat split; vm_compute; reflexivity. Qed.

Print Assumptions C39_document_contents.
Print Assumptions C39_document_written_iff.
Print Assumptions C39_second_save_refuted.
Print Assumptions C39_saving_moves_packages_refuted.
Print Assumptions C39_saving_changes_references_refuted.
Print Assumptions C39_generated_documents.
Print Assumptions C39_repeated_suffix_refuted.
