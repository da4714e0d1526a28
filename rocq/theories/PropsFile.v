(** C65 (interrupted saves). *)
From Verif Require Import Base PBase MNames MNum MXml MNs SXml SSpell PXml MCodec SCodec MElem0 MElem1 MElem2 MElem3 MElem4 MElem5 MArxml SArxml PArxml PPrefix MFile SSave PropsArxml PropsSave.
Open Scope nat_scope.
Open Scope list_scope.
Ltac splits := repeat match goal with |- _ /\ _ => split end.

(** [a] is a beginning of [b] without its end. *)
Definition proper_prefix (a b : string) : Prop := exists rest, rest <> ""%string /\ b = (a ++ rest)%string.
(** No reader, strict or tolerant, takes the text for a document. *)
Definition rejected (text : string) : Prop := forall v stop, exists e, snd (read_str v text stop) = Err e.

Lemma document_root d text : good_document d -> write_file d = Ok text -> exists x, parse_root text = Some (x, ""%string).
Proof.
  intros G E. destruct (document_well false d G) as (w & W & S). unfold write_file, write_str in E. rewrite W in E. cbn [bind] in E. rewrite render_doc_etext in E.
  apply (f_equal (fun r => match r with Ok t => t | Err _ => text end)) in E. cbv beta iota in E. subst text.
  destruct (doc_spelled 2 w S) as [_ H]. specialize (H ""%string). rewrite str_app_nil_r in H. eauto.
Qed.

(** ** C65 *)

(** A file of which the end is missing, however little, is not taken for a document. *)
Theorem C65_torn_file_rejected d text part : good_document d -> write_file d = Ok text -> proper_prefix part text -> rejected part.
Proof.
  intros G E (rest & N & T) v stop. destruct (document_root d _ G E) as (y & P). unfold read_str, load, parse_names.
  destruct (parse part) as [x|e] eqn:Q; [|exists e; reflexivity]. exfalso. apply N. exact (root_end _ _ _ _ P T x Q).
Qed.
(** The same of any text: what is more than white space, comments and processing instructions cannot be missing at the
    end of a text the parser accepts. *)
Theorem C65_any_text text part rest x : parse text = Ok x -> text = (part ++ rest)%string -> ~ around rest -> rejected part.
Proof.
  intros P -> B v stop. unfold read_str, load, parse_names. destruct (parse part) as [y|e] eqn:Q; [|exists e; reflexivity]. exfalso. apply B. now destruct (parse_prefix _ _ _ _ Q P).
Qed.

Lemma run_io_app s a b : run_io s (a ++ b) = run_io (run_io s a) b.
Proof. apply fold_left_app. Qed.
Lemma appends_other p q l : forall s, q <> p -> run_io s (map (Append p) l) q = s q.
Proof.
  induction l as [|t l IH]; intros s N; [reflexivity|]. cbn [map run_io fold_left]. fold (run_io (exec s (Append p t)) (map (Append p) l)).
  rewrite IH by auto. cbn. destruct (String.eqb_spec q p); [easy|reflexivity].
Qed.
Lemma appends_same p l : forall s c, s p = Some c -> run_io s (map (Append p) l) p = Some (c ++ String.concat "" l)%string.
Proof.
  induction l as [|t l IH]; intros s c E; cbn [map run_io fold_left]; [cbn; now rewrite str_app_nil_r|].
  fold (run_io (exec s (Append p t)) (map (Append p) l)). rewrite (IH _ (c ++ t)%string).
  - rewrite str_app_assoc. f_equal. f_equal. destruct l; cbn; [now rewrite str_app_nil_r|reflexivity].
  - cbn. now rewrite String.eqb_refl, E.
Qed.
Lemma save_other p q l s : q <> p -> run_io s (save_io p l) q = s q.
Proof.
  intros N. unfold save_io. cbn [run_io fold_left]. fold (run_io (exec s (Truncate p)) (map (Append p) l)). rewrite appends_other by auto.
  cbn. destruct (String.eqb_spec q p); [easy|reflexivity].
Qed.
Lemma save_same p l s : run_io s (save_io p l) p = Some (String.concat "" l).
Proof.
  unfold save_io. cbn [run_io fold_left]. fold (run_io (exec s (Truncate p)) (map (Append p) l)). rewrite (appends_same p l _ ""); [reflexivity|]. cbn. now rewrite String.eqb_refl.
Qed.
Lemma concat_split l n : exists rest, String.concat "" l = (String.concat "" (firstn n l) ++ rest)%string /\ (n < List.length l -> rest = String.concat "" (skipn n l)).
Proof.
  assert (C : forall a b, String.concat "" (a ++ b) = (String.concat "" a ++ String.concat "" b)%string).
  { assert (K : forall (x : string) l, String.concat "" (x :: l) = (x ++ String.concat "" l)%string) by (intros x [|y l']; cbn; [now rewrite str_app_nil_r|reflexivity]).
    induction a as [|x a IH]; intros b; [reflexivity|]. rewrite <- app_comm_cons, !K, IH, str_app_assoc. reflexivity. }
  exists (String.concat "" (skipn n l)). split; [|auto]. now rewrite <- C, firstn_skipn.
Qed.

(** Documents are saved one after the other and the run is interrupted after any number of steps.  Then some documents are saved, at most one is
    being saved, and the others have not been touched: the files of the first hold their texts (which read back, C24), that of the second holds a
    beginning of its text and is not taken for a document, and all other files are as they were. *)
Theorem C65_interrupted_saves l ops n s : (forall p d, In (p, d) l -> good_document d) -> savings l ops (Ok tt) ->
  exists saved current later, l = saved ++ current ++ later /\ List.length current <= 1 /\
    (forall before p d after, saved = before ++ (p, d) :: after -> ~ In p (map fst (after ++ current)) ->
       exists text, write_file d = Ok text /\ run_io s (firstn n ops) p = Some text) /\
    (forall p d, In (p, d) current -> exists text part, write_file d = Ok text /\ run_io s (firstn n ops) p = Some part /\ proper_prefix part text /\ rejected part) /\
    (forall p, ~ In p (map fst (saved ++ current)) -> run_io s (firstn n ops) p = s p).
Proof.
  intros G SV. remember (Ok tt) as r eqn:Hr. revert n s G. induction SV as [|path d l a b r D SV IH|path d l a e]; intros n s G; [| |discriminate].
  { exists [], [], []. rewrite firstn_nil. splits; auto; [intros [|? ?]; discriminate|intros ? ? []]. }
  specialize (IH Hr). subst r. inversion D as [pieces W E1 E2|]; subst a; clear D.
  rewrite firstn_app, run_io_app. destruct (Nat.le_gt_cases (List.length (save_io path pieces)) n) as [L|L].
  - rewrite (firstn_all2 (save_io path pieces)) by exact L.
    destruct (IH (n - List.length (save_io path pieces)) (run_io s (save_io path pieces))) as (sv & cu & la & -> & Lc & Hs & Hc & Ho).
    { intros p d' I. apply (G p d'). now right. }
    exists ((path, d) :: sv), cu, la. splits; auto.
    + intros before p d' after E N. destruct before as [|[p0 d0] before]; cbn in E.
      * injection E as -> -> ->. exists (String.concat "" pieces). split; [exact W|]. rewrite Ho by exact N. apply save_same.
      * injection E as -> -> E. exact (Hs before p d' after E N).
    + intros p N. cbn in N. rewrite Ho by tauto. apply save_other. intros ->. tauto.
  - assert (Z : n - List.length (save_io path pieces) = 0) by lia. rewrite Z. cbn [firstn run_io fold_left].
    destruct n as [|n].
    + exists [], [], ((path, d) :: l). splits; auto; [intros [|? ?]; discriminate|intros ? ? []].
    + assert (F : firstn (S n) (save_io path pieces) = save_io path (firstn n pieces)) by (unfold save_io; cbn [firstn]; now rewrite firstn_map).
      rewrite F. destruct (concat_split pieces n) as (rest & C & _). rewrite C in W.
      destruct (string_dec rest "") as [->|NE].
      * rewrite str_app_nil_r in W. exists [(path, d)], [], l. splits; auto.
        -- intros before p d' after E N. destruct before as [|? [|? ?]]; try discriminate. injection E as -> -> <-. exists (String.concat "" (firstn n pieces)). split; [exact W|apply save_same].
        -- intros ? ? [].
        -- intros p N. apply save_other. intros ->. apply N. now left.
      * exists [], [(path, d)], l. splits; auto.
        -- intros [|? ?]; discriminate.
        -- intros p d' [[= <- <-]|[]]. exists (String.concat "" (firstn n pieces) ++ rest)%string, (String.concat "" (firstn n pieces)). splits; auto.
           ++ apply save_same.
           ++ exists rest. auto.
           ++ eapply (C65_torn_file_rejected d _ _ (G path d (or_introl eq_refl)) W). exists rest. auto.
        -- intros p N. apply save_other. intros ->. apply N. now left.
Qed.
(** Uninterrupted, every document is saved, and its file reads back, unless a later document has the same path. *)
Theorem C65_completed_saves l ops s before p d after : (forall p d, In (p, d) l -> good_document d) -> savings l ops (Ok tt) ->
  l = before ++ (p, d) :: after -> ~ In p (map fst after) ->
  exists text, run_io s ops p = Some text /\ forall v stop, read_str v text stop = (doc_schema_version d, Ok (norm_document d)).
Proof.
  intros G S. revert s before. remember (Ok tt) as r eqn:Hr. induction S as [|path d0 l a b r D S IH|]; intros s before E N; [now destruct before| |discriminate].
  assert (G' : forall p d, In (p, d) l -> good_document d) by (intros ? ? I; eapply G; right; exact I). specialize (IH G' Hr).
  subst r. inversion D as [pieces W E1 E2|]; subst a; clear D. rewrite run_io_app. destruct before as [|[p0 d1] before]; cbn in E.
  - injection E as -> -> ->. exists (String.concat "" pieces). split.
    + assert (O : forall s, run_io s b p = s p); [|now rewrite O, save_same].
      clear - S N. remember (Ok tt) as r eqn:Hr. induction S as [|path d0 l a b r D S IH|]; intros s; [reflexivity| |discriminate]. subst r.
      inversion D as [ps W E1 E2|]; subst a. rewrite run_io_app, IH; auto; [|intros I; apply N; now right]. apply save_other. intros ->. apply N. now left.
    + intros v stop. destruct (C24_document_round_trip d (G p d (or_introl eq_refl))) as (t & T & R). rewrite W in T. injection T as <-. apply R.
  - injection E as -> -> E. exact (IH _ before E N).
Qed.

(** Saving does not go from the old file to the new one at once: after the first step the file is empty, whatever it held. *)
Theorem C65_all_or_nothing_refuted path d ops r s : saving path d ops r -> run_io s (firstn 1 ops) path = Some "".
Proof. intros S. destruct S; cbn; now rewrite String.eqb_refl. Qed.
(** A document that cannot be saved (C64) still destroys the file it should have been saved to: what is there afterwards does not depend on what
    was there before. *)
Theorem C65_failing_save_refuted path d ops r : ~ savable_document d -> saving path d ops r ->
  (exists e, r = Err e) /\ exists text, forall s, run_io s ops path = Some text.
Proof.
  intros N S. destruct S as [pieces W|pieces e W].
  - exfalso. apply N, C64_save_file_iff. eauto.
  - split; [eauto|]. exists (String.concat "" pieces). intros s. apply save_same.
Qed.
(** When a document in a row cannot be saved, those before it are saved, its own file is destroyed, and the others stay as they were. *)
Theorem C65_failing_savings l ops e s : savings l ops (Err e) ->
  exists saved p d later, l = saved ++ (p, d) :: later /\ ~ savable_document d /\
    (forall q d', In (q, d') saved -> savable_document d') /\
    (exists text, forall s, run_io s ops p = Some text) /\
    (forall q, ~ In q (p :: map fst saved) -> run_io s ops q = s q).
Proof.
  intros S. remember (Err e) as r eqn:Hr. revert s. induction S as [|path d l a b r D S IH|path d l a e' D]; intros s; [discriminate| |].
  - specialize (IH Hr). subst r. inversion D as [pieces W E1 E2|]; subst a; clear D.
    destruct (IH (run_io s (save_io path pieces))) as (sv & p & d' & la & -> & N & A & (t & T) & O). exists ((path, d) :: sv), p, d', la. splits; auto.
    + intros q x [[= <- <-]|I]; [apply C64_save_file_iff; eauto|eauto].
    + exists t. intros s'. now rewrite run_io_app.
    + intros q M. rewrite run_io_app, O by (cbn in *; tauto). apply save_other. intros ->. apply M. right. now left.
  - inversion D as [|pieces e0 W E1 E2]; subst a. exists [], path, d, l. splits; auto.
    + intros H. apply C64_save_file_iff in H as (t & T). congruence.
    + intros ? ? [].
    + exists (String.concat "" pieces). intros s'. apply save_same.
    + intros q M. apply save_other. intros ->. apply M. now left.
Qed.

(** ** Examples *)
Definition ex_text : string := match write_file ex_document with Ok t => t | Err _ => "" end.
Definition ex_torn : string := substring 0 (String.length ex_text - 1) ex_text.
Example ex_text_eq : write_file ex_document = Ok ex_text.
Proof. vm_compute. reflexivity. Qed.
Example C65_torn_example : proper_prefix ex_torn ex_text /\ (100 < String.length ex_torn)%nat /\ rejected ex_torn.
Proof.
  assert (P : proper_prefix ex_torn ex_text) by (exists ">"%string; split; [easy|vm_compute; reflexivity]).
  split; [exact P|]. split; [apply Nat.ltb_lt; vm_compute; reflexivity|].
  exact (C65_torn_file_rejected ex_document ex_text ex_torn ex_document_good ex_text_eq P).
Qed.
Definition old_file : fs := fun p => if String.eqb p "b.arxml" then Some "old" else None.
Example C65_interrupted_example :
  exists ops, savings [("a.arxml", ex_document); ("b.arxml", ex_document)] ops (Ok tt) /\
    run_io old_file (firstn 2 ops) "a.arxml" = Some ex_text /\ run_io old_file (firstn 2 ops) "b.arxml" = Some "old" /\
    run_io old_file (firstn 4 ops) "b.arxml" = Some ex_torn.
Proof.
  exists (save_io "a.arxml" [ex_text] ++ save_io "b.arxml" [ex_torn; ">"%string] ++ []). split.
  - eapply savings_next; [apply saving_done; vm_compute; reflexivity|]. eapply savings_next; [apply saving_done; vm_compute; reflexivity|]. apply savings_done.
  - splits; vm_compute; reflexivity.
Qed.
Example C65_failing_example : exists d ops e, savings [("a.arxml", ex_document); ("b.arxml", d); ("c.arxml", ex_document)] ops (Err e) /\
  run_io old_file ops "b.arxml" = Some "<AUTOSAR>" /\ run_io old_file ops "c.arxml" = None.
Proof.
  exists (doc_with 51 (unit_with (NInt (10 ^ 28)%Z))). do 2 eexists. split.
  - eapply savings_next; [apply saving_done with (pieces := [ex_text]); vm_compute; reflexivity|]. eapply savings_fails. apply saving_fails with (pieces := ["<AUTOSAR>"%string]). vm_compute. reflexivity.
  - splits; vm_compute; reflexivity.
Qed.

Print Assumptions C65_torn_file_rejected.
Print Assumptions C65_any_text.
Print Assumptions C65_interrupted_saves.
Print Assumptions C65_completed_saves.
Print Assumptions C65_all_or_nothing_refuted.
Print Assumptions C65_failing_save_refuted.
Print Assumptions C65_failing_savings.
