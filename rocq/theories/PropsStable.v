(** C42: saving what was loaded is stable. *)
From Verif Require Import Base PBase MNames PNames MNum SNum PNum PNum3 MXml SXml PXml PXml2 MEnum PEnum MRefTab MRef SEnum PRef MCodec SCodec PCodec PPiece PIdent MElem0 PElem0 PElemRef MElem1 MElemA MElemB MElemC MElem2 MElemD MElem3 MElem4 MElemE MElem5 MElemF SElem1 SElemA SElemB SElemC SElem2 SElemD SElem3 SElem4 SElemE SElem5 SElemF PElem1 PElemA PElemB PElemC PElem2 PElemD PElem3 PElem4 PElemE PElem5 PElemF MArxml SArxml PArxml PropsArxml PStable.
Open Scope list_scope.

(** [n] times: write the document to a file, read the file with a fresh reader. *)
Fixpoint reloads (n : nat) (d : document) : result document :=
  match n with
  | O => Ok d
  | S m => let* text := write_file d in let* d' := snd (read_str 51 text true) in reloads m d'
  end.
(** Once a document has been loaded from a saved file, saving and loading it again changes nothing
    at all, whatever reader loads it: the file written the second time reads as the same document,
    and so does every later one. *)
Theorem C42_second_reload_exact d d1 text rv stop : good_document d ->
  write_file d = Ok text -> snd (read_str rv text stop) = Ok d1 ->
  exists text1, write_file d1 = Ok text1 /\ forall rv' stop', read_str rv' text1 stop' = (doc_schema_version d, Ok d1).
Proof.
  intros G W R. destruct (C24_document_round_trip d G) as (t & W' & R'). rewrite W in W'. inversion W'. subst t. rewrite R' in R. cbn in R. inversion R. subst d1.
  destruct (st_document d G) as [G1 E]. destruct (C24_document_round_trip _ G1) as (t & W1 & R1). exists t. split; auto. intros rv' stop'. rewrite R1, E. reflexivity.
Qed.
(** Any positive number of save and load rounds gives the same document as one round. *)
Theorem C42_any_number_of_reloads n d : good_document d -> reloads (S n) d = reloads 1 d.
Proof.
  intros G. revert d G. induction n as [|n IH]; intros d G; [reflexivity|]. destruct (C24_document_round_trip d G) as (t & W & R).
  cbn [reloads]. rewrite W. cbn [bind]. rewrite R. cbn [snd bind]. destruct (st_document d G) as [G1 E].
  change (reloads (S n) (norm_document d) = Ok (norm_document d)). rewrite (IH _ G1). destruct (C24_document_round_trip _ G1) as (t1 & W1 & R1).
  cbn [reloads]. rewrite W1. cbn [bind]. rewrite R1. cbn [snd bind]. now rewrite E.
Qed.
(** And the text written is the same from the second save on. *)
Theorem C42_text_is_stable d n : good_document d -> forall d1 dn, reloads 1 d = Ok d1 -> reloads (S n) d = Ok dn -> write_file dn = write_file d1.
Proof. intros G d1 dn H1 Hn. rewrite C42_any_number_of_reloads in Hn by assumption. congruence. Qed.
(** The first round may change the document: here a unit's display name parts are merged. *)
Example C42_first_reload_changes : exists d1, reloads 1 ex_document = Ok d1 /\ d1 <> ex_document.
Proof.
  exists (norm_document ex_document). split.
  - destruct (C24_document_round_trip _ ex_document_good) as (t & W & R). cbn [reloads]. rewrite W. cbn [bind]. now rewrite R.
  - discriminate.
Qed.
Example C42_example : reloads 5 ex_document = reloads 1 ex_document.
Proof. exact (C42_any_number_of_reloads 4 _ ex_document_good). Qed.
Print Assumptions C42_second_reload_exact.
Print Assumptions C42_any_number_of_reloads.
Print Assumptions C42_text_is_stable.
