(** Saving documents and single elements raises exceptions of a few kinds only. *)
From Verif Require Import Base MNum SNum MXml SXml MEnum MRefTab MRef SEnum MCodec SCodec MElem0 MElem1 MElemA MElemB MElemC MElem2 MElemD MElem3 MElem4 MElemE MElem5 MElemF MArxml PEnum PPiece PElemA PElemB PRef PElemC PArxml PFind SSave0 PSave0 SSave PSave MStr MDispatch SRaise PRaiseW.
Open Scope list_scope.
Open Scope string_scope.

(** ** Documents and single elements *)
Lemma w_render w : foreseen (render_doc 2 w).
Proof. rewrite PXml.render_doc_layout. apply w_ok. Qed.
Lemma w_write_str d skip : foreseen (write_str d skip).
Proof. unfold write_str, write_document. apply w_bind; [sorts|]. intros [|w [|? ?]]; [sorts|apply w_render|sorts]. Qed.
Lemma w_run_writer v m o tag : foreseen (run_writer v m o tag).
Proof. destruct m; cbn [run_writer]; sorts. Qed.
Lemma calls_all ws : forall s, x_level s = 0%Z -> exists s', do_calls 2 s (flat_map calls ws) = Ok s'.
Proof.
  induction ws as [|w ws IH]; intros s L; cbn [flat_map]; [now exists s|]. rewrite PXml.do_calls_app, (PXml.calls_layout 2 w s 0) by exact L. cbn [bind].
  apply IH. destruct (PXml.fold_put_inv (layout 2 0 w) s) as [-> _]. exact L.
Qed.
Lemma w_element_text r : foreseen r -> foreseen (element_text r).
Proof.
  intros R. unfold element_text. apply w_bind; [exact R|]. intros ws. destruct (calls_all ws xw_open eq_refl) as [s ->]. apply w_ok.
Qed.
Lemma w_write_str_elem v o tag : foreseen (write_str_elem v o tag).
Proof. unfold write_str_elem. destruct (assoc _ _); [apply w_element_text, w_run_writer|sorts]. Qed.
Lemma w_write_file_elem v o : foreseen (write_file_elem v o).
Proof. unfold write_file_elem. destruct (assoc _ _); [apply w_element_text, w_run_writer|sorts]. Qed.
