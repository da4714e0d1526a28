(** Proofs that readers do not see the order of properties: building blocks and shared classes. *)
From Verif Require Import Base PBase MNames MNum MXml MEnum MRefTab MRef MCodec MElem0 MElem1 MElemA MElemB PElemB MElemE SOrder.
Open Scope list_scope.

(** ** What readers see *)
Definition kids_alike (k l : list xml) : Prop := forall name, among known_tags name = true -> Forall2 alike (findall name k) (findall name l).
Lemma alike_tag x y : alike x y -> x_tag x = x_tag y.
Proof. now intros []. Qed.
Lemma alike_attrs x y : alike x y -> same_attributes (x_attrs x) (x_attrs y).
Proof. now intros []. Qed.
Lemma findall_alike name k l : Forall2 alike k l -> Forall2 alike (findall name k) (findall name l).
Proof.
  unfold findall. induction 1 as [|x y k l H _ IH]; cbn [filter]; [constructor|]. rewrite <- (alike_tag _ _ H). destruct (String.eqb name (x_tag x)); [now constructor|exact IH].
Qed.
Lemma alike_kids x y : alike x y -> kids_alike (x_kids x) (x_kids y).
Proof. intros []; cbn [x_kids]; intros n K; [now apply findall_alike|auto]. Qed.
Lemma alike_in_order x y : alike x y -> among sequence_tags (x_tag x) = true -> Forall2 alike (x_kids x) (x_kids y).
Proof. intros [] E; cbn in *; [assumption|congruence]. Qed.
Lemma alike_text x y : alike x y -> among text_tags (x_tag x) = true -> x_text x = x_text y.
Proof. intros [] E; cbn in *; intuition congruence. Qed.
Lemma alike_tails x y : alike x y -> among text_tags (x_tag x) = true -> x_tails x = x_tails y.
Proof. intros [] E; cbn in *; intuition congruence. Qed.
Lemma alike_text_opt x y : alike x y -> among text_tags (x_tag x) = true -> text_opt x = text_opt y.
Proof. intros H E. unfold text_opt. now rewrite (alike_text _ _ H E). Qed.

Definition respects {A} (f : xml -> A) : Prop := forall x y, alike x y -> f x = f y.
Definition respects_at {A} (tag : string) (f : xml -> A) : Prop := forall x y, alike x y -> x_tag x = tag -> f x = f y.
Definition kids_respect {A} (f : list xml -> A) : Prop := forall k l, kids_alike k l -> f k = f l.
Lemma at_any {A} tag (f : xml -> A) : respects f -> respects_at tag f.
Proof. intros R x y H _. auto. Qed.

Lemma get_findall tag k : get tag k = hd_error (findall tag k).
Proof. unfold findall. induction k as [|x k IH]; cbn; [reflexivity|]. destruct (String.eqb tag (x_tag x)); [reflexivity|exact IH]. Qed.
Lemma findall_tag tag k x : In x (findall tag k) -> x_tag x = tag.
Proof. unfold findall. intros H. apply filter_In in H as [_ H]. now apply String.eqb_eq in H. Qed.
Lemma get_alike tag k l : among known_tags tag = true -> kids_alike k l ->
  (exists x y, get tag k = Some x /\ get tag l = Some y /\ alike x y /\ x_tag x = tag) \/ (get tag k = None /\ get tag l = None).
Proof.
  intros N H. specialize (H tag N). rewrite !get_findall. pose proof (findall_tag tag k) as T. destruct (findall tag k) as [|x k'], (findall tag l) as [|y l']; try (exfalso; inversion H; fail).
  - right. auto.
  - left. exists x, y. cbn. repeat split; [now inversion H|apply T; now left].
Qed.
Lemma mapM_alike {A} (f : xml -> result A) k l : Forall2 alike k l -> (forall x y, In x k -> alike x y -> f x = f y) -> mapM f k = mapM f l.
Proof.
  induction 1 as [|x y k l H _ IH]; intros R; [reflexivity|]. cbn [mapM]. rewrite (R x y (or_introl eq_refl) H). destruct (f y); [|reflexivity]. cbn [bind]. rewrite IH; [reflexivity|]. intros; apply R; [now right|assumption].
Qed.
Lemma mapM_findall_alike {A} tag (f : xml -> result A) k l : among known_tags tag = true -> kids_alike k l -> respects_at tag f -> mapM f (findall tag k) = mapM f (findall tag l).
Proof. intros N H R. apply mapM_alike; [now apply H|]. intros x y I L. apply R; [exact L|]. now apply findall_tag in I. Qed.
Lemma bind_alike {A B} (a b : result A) (f g : A -> result B) : a = b -> (forall x, f x = g x) -> bind a f = bind b g.
Proof. intros -> F. destruct b; cbn; auto. Qed.

Section Blocks.
Context (k l : list xml) (H : kids_alike k l).
Lemma child_alike {A} tag (f : xml -> result A) : among known_tags tag = true -> respects_at tag f -> child tag k f = child tag l f.
Proof. intros N R. unfold child. destruct (get_alike tag k l N H) as [(x & y & -> & -> & L & T)|[-> ->]]; [|reflexivity]. now rewrite (R x y L T). Qed.
Lemma child_text_alike tag : among known_tags tag = true -> among text_tags tag = true -> child_text tag k = child_text tag l.
Proof. intros N T. unfold child_text. destruct (get_alike tag k l N H) as [(x & y & -> & -> & L & E)|[-> ->]]; [|reflexivity]. rewrite (alike_text_opt x y L); [reflexivity|now rewrite E]. Qed.
Lemma children_alike {A} c tag (f : xml -> result A) : among known_tags c = true -> among known_tags tag = true -> respects_at tag f -> children c tag k f = children c tag l f.
Proof.
  intros N M R. unfold children. destruct (get_alike c k l N H) as [(x & y & -> & -> & L & T)|[-> ->]]; [|reflexivity]. apply mapM_findall_alike; [exact M|now apply alike_kids|exact R].
Qed.
Lemma children_any_alike {A} c (f : xml -> result A) : among known_tags c = true -> among sequence_tags c = true -> respects f -> children_any c k f = children_any c l f.
Proof.
  intros N M R. unfold children_any. destruct (get_alike c k l N H) as [(x & y & -> & -> & L & T)|[-> ->]]; [|reflexivity]. apply mapM_alike; [|auto]. apply alike_in_order; [exact L|now rewrite T].
Qed.
Lemma child_inner_alike {A} c (f : xml -> result A) : among known_tags c = true -> among sequence_tags c = true -> respects f -> child_inner c k f = child_inner c l f.
Proof.
  intros N M R. unfold child_inner. destruct (get_alike c k l N H) as [(x & y & -> & -> & L & T)|[-> ->]]; [|reflexivity].
  assert (K : Forall2 alike (x_kids x) (x_kids y)) by (apply alike_in_order; [exact L|now rewrite T]). destruct K as [|a b ? ? K _]; [reflexivity|]. now rewrite (R a b K).
Qed.
Lemma child_inner_try_alike {A} c (f : xml -> result A) : among known_tags c = true -> among sequence_tags c = true -> respects f -> child_inner_try c k f = child_inner_try c l f.
Proof. intros N M R. unfold child_inner_try. now rewrite (child_inner_alike c f N M R). Qed.
Lemma present_alike tag : among known_tags tag = true -> present tag k = present tag l.
Proof. intros N. unfold present. destruct (get_alike tag k l N H) as [(x & y & -> & -> & _)|[-> ->]]; reflexivity. Qed.
Lemma unexpected_alike tags : forallb (among known_tags) tags = true -> unexpected tags k = unexpected tags l.
Proof.
  induction tags as [|t tags IH]; cbn [forallb unexpected]; [reflexivity|]. intros N. apply andb_true_iff in N as [N M]. destruct (get_alike t k l N H) as [(x & y & -> & -> & _)|[-> ->]]; auto.
Qed.
End Blocks.
Lemma child_find_alike {A} k l c tag (f : xml -> result A) : kids_alike k l -> among known_tags c = true -> among known_tags tag = true -> respects_at tag f ->
  child_find c tag k f = child_find c tag l f.
Proof.
  intros H N M R. unfold child_find. destruct (get_alike c k l N H) as [(x & y & -> & -> & L & T)|[-> ->]]; [|reflexivity]. apply child_alike; [now apply alike_kids|exact M|exact R].
Qed.
Lemma select_alike {A} (sel : string -> option (xml -> result A)) k l : Forall2 alike k l -> (forall t f, sel t = Some f -> respects_at t f) -> select sel k = select sel l.
Proof.
  intros K R. induction K as [|x y k l L _ IH]; [reflexivity|]. cbn [select]. rewrite <- (alike_tag x y L), <- IH. destruct (sel (x_tag x)) as [f|] eqn:E; [|reflexivity]. now rewrite (R _ _ E x y L eq_refl).
Qed.
Lemma children_sel_alike {A} k l c (sel : string -> option (xml -> result A)) : kids_alike k l -> among known_tags c = true -> among sequence_tags c = true ->
  (forall t f, sel t = Some f -> respects_at t f) -> children_sel c k sel = children_sel c l sel.
Proof.
  intros H N M R. unfold children_sel. destruct (get_alike c k l N H) as [(x & y & -> & -> & L & T)|[-> ->]]; [|reflexivity]. apply select_alike; [|exact R]. apply alike_in_order; [exact L|now rewrite T].
Qed.
(** Recursive readers. *)
Lemma recursive_respects {A} (step : (xml -> result A) -> xml -> result A) : local step -> (forall self, respects self -> respects (step self)) -> respects (recursive step).
Proof.
  intros L S. assert (D : forall n, respects (deep n step)) by (induction n as [|n IH]; [now intros x y|exact (S _ IH)]).
  intros x y H. unfold recursive. rewrite (deep_enough step L (height x) (Nat.max (height x) (height y)) x) by lia. rewrite (D _ x y H). apply deep_enough; [exact L|lia|lia].
Qed.

(** ** Texts *)
Section Texts.
Context (tag : string) (T : among text_tags tag = true).
Ltac by_text f := intros x y H E; unfold f; rewrite (alike_text_opt x y H) by (rewrite E; exact T); reflexivity.
Lemma rd_number_at : respects_at tag rd_number. Proof. by_text rd_number. Qed.
Lemma rd_integer_at : respects_at tag rd_integer. Proof. by_text rd_integer. Qed.
Lemma rd_int_at : respects_at tag rd_int. Proof. by_text rd_int. Qed.
Lemma rd_float_at : respects_at tag rd_float. Proof. by_text rd_float. Qed.
Lemma rd_positive_at : respects_at tag rd_positive. Proof. by_text rd_positive. Qed.
Lemma rd_str_at : respects_at tag rd_str. Proof. by_text rd_str. Qed.
Lemma rd_numval_at : respects_at tag rd_numval. Proof. by_text rd_numval. Qed.
Lemma rd_index_at : respects_at tag rd_index. Proof. by_text rd_index. Qed.
Lemma rd_alignment_at : respects_at tag rd_alignment. Proof. by_text rd_alignment. Qed.
Lemma rd_boolean_at : respects_at tag rd_boolean.
Proof. intros x y H E. unfold rd_boolean. now rewrite (alike_text x y H) by (rewrite E; exact T). Qed.
Lemma rd_enum_at {A} (m : enum_map A) : respects_at tag (rd_enum m).
Proof. intros x y H E. unfold rd_enum. now rewrite (alike_text x y H) by (rewrite E; exact T). Qed.
Lemma read_ref_at c v : respects_at tag (read_ref c v).
Proof. intros x y H E. unfold read_ref. rewrite (alike_text x y H) by (rewrite E; exact T). now rewrite (alike_attrs x y H "DEST"). Qed.
Lemma rd_value_at : respects_at tag rd_value.
Proof. intros x y H E. unfold rd_value. now rewrite (rd_numval_at x y H E). Qed.
Lemma read_limit_at : respects_at tag read_limit.
Proof. intros x y H E. unfold read_limit. now rewrite (rd_number_at x y H E), (alike_attrs x y H "INTERVAL-TYPE"). Qed.
End Texts.

(** ** Texts with inline elements *)
Lemma sequence_inline tag : In tag ["E"; "TT"; "BR"; "IE"; "SUB"; "SUP"; "L-1"; "L-2"; "L-4"; "L-5"] -> among sequence_tags tag = true /\ among text_tags tag = true.
Proof. cbn [In]. intros H. repeat destruct H as [<-|H]; try (split; reflexivity). destruct H. Qed.
Lemma read_emphasis_at : respects_at "E" read_emphasis.
Proof.
  intros x y H E. unfold read_emphasis. rewrite !(alike_attrs x y H). rewrite (alike_text_opt x y H) by (rewrite E; reflexivity).
  assert (K : Forall2 alike (x_kids x) (x_kids y)) by (apply alike_in_order; [exact H|rewrite E; reflexivity]). destruct K; reflexivity.
Qed.
Lemma read_term_at : respects_at "TT" read_term.
Proof.
  intros x y H E. unfold read_term. rewrite !(alike_attrs x y H). rewrite (alike_text_opt x y H) by (rewrite E; reflexivity).
  assert (K : Forall2 alike (x_kids x) (x_kids y)) by (apply alike_in_order; [exact H|rewrite E; reflexivity]). destruct K; reflexivity.
Qed.
Ltac tag_case x := match goal with |- context [String.eqb (x_tag x) ?t] => destruct (String.eqb_spec (x_tag x) t) end.
Lemma read_first_respects line : respects (read_first line).
Proof.
  intros x y H. unfold read_first. cbv zeta. rewrite <- (alike_tag x y H).
  destruct (String.eqb (x_tag x) "BR" && negb (String.eqb line "L-4")); [reflexivity|].
  tag_case x; [now rewrite (read_emphasis_at x y H e)|]. destruct (String.eqb line "L-5"); [reflexivity|].
  tag_case x; [rewrite (alike_text_opt x y H) by (rewrite e; reflexivity); reflexivity|].
  tag_case x; [rewrite (alike_text_opt x y H) by (rewrite e; reflexivity); reflexivity|].
  tag_case x; [rewrite (alike_text_opt x y H) by (rewrite e; reflexivity); reflexivity|]. reflexivity.
Qed.
Lemma read_inline_respects line : respects (read_inline line).
Proof.
  intros x y H. unfold read_inline. rewrite (read_first_respects line x y H), <- (alike_tag x y H). tag_case x; [now rewrite (read_term_at x y H e)|reflexivity].
Qed.
Lemma read_unit_inline_respects : respects read_unit_inline.
Proof.
  intros x y H. unfold read_unit_inline. rewrite <- (alike_tag x y H).
  tag_case x; [rewrite (alike_text_opt x y H) by (rewrite e; reflexivity); reflexivity|].
  tag_case x; [rewrite (alike_text_opt x y H) by (rewrite e; reflexivity); reflexivity|]. reflexivity.
Qed.
Lemma mixed_at tag f : among text_tags tag = true -> among sequence_tags tag = true -> respects f -> respects_at tag (read_mixed f).
Proof.
  intros T S R x y H E. unfold read_mixed. rewrite (alike_text_opt x y H) by (rewrite E; exact T). rewrite (alike_tails x y H) by (rewrite E; exact T). f_equal.
  assert (K : Forall2 alike (x_kids x) (x_kids y)) by (apply alike_in_order; [exact H|rewrite E; exact S]). generalize (x_tails y). clear H E. induction K as [|a b k l L _ IH]; intros tl; [reflexivity|].
  destruct tl as [|t tl]; cbn [with_tails mapM fst snd]; rewrite (R a b L), IH; reflexivity.
Qed.
Lemma read_lang_at line : In line ["L-1"; "L-2"; "L-4"; "L-5"] -> respects_at line (read_lang line).
Proof.
  intros I x y H E. unfold read_lang. rewrite (alike_attrs x y H). destruct (assoc "L" (x_attrs y)); [|reflexivity]. destruct (xml_to_enum _ _ _); [|reflexivity]. cbn [bind].
  assert (among sequence_tags line = true /\ among text_tags line = true) as [S T] by (apply sequence_inline; cbn in *; tauto). now rewrite (mixed_at line _ T S (read_inline_respects line) x y H E).
Qed.
Lemma read_langs_respects line : In line ["L-1"; "L-2"; "L-4"; "L-5"] -> respects (read_langs line).
Proof.
  intros I x y H. unfold read_langs. apply mapM_findall_alike; [|now apply alike_kids|now apply read_lang_at]. cbn [In] in I. repeat destruct I as [<-|I]; try reflexivity. destruct I.
Qed.
Lemma read_unit_names_at tag : among text_tags tag = true -> among sequence_tags tag = true -> respects_at tag read_unit_names.
Proof. intros T S. apply mixed_at; [exact T|exact S|exact read_unit_inline_respects]. Qed.
(** Documentation. *)
Lemma get_enum_alike {A} n (m : enum_map A) a b : same_attributes a b -> get_enum n m a = get_enum n m b.
Proof. intros H. unfold get_enum. now rewrite (H n). Qed.
Lemma read_pag_alike a b : same_attributes a b -> read_pag a = read_pag b.
Proof. intros H. unfold read_pag. now rewrite !(get_enum_alike _ _ a b H), !(H _). Qed.
Lemma read_paragraph_respects : respects read_paragraph.
Proof.
  intros x y H. unfold read_paragraph. cbv zeta. rewrite (read_pag_alike _ _ (alike_attrs x y H)), (read_langs_respects "L-1" ltac:(cbn; tauto) x y H). now rewrite (alike_attrs x y H).
Qed.
Lemma read_verbatim_respects : respects read_verbatim.
Proof.
  intros x y H. unfold read_verbatim. cbv zeta. rewrite (read_pag_alike _ _ (alike_attrs x y H)), (read_langs_respects "L-5" ltac:(cbn; tauto) x y H), !(get_enum_alike _ _ _ _ (alike_attrs x y H)). now rewrite !(alike_attrs x y H _).
Qed.
Lemma read_doc_at tag : among sequence_tags tag = true -> respects_at tag read_doc.
Proof.
  intros S x y H E. unfold read_doc. assert (K : Forall2 alike (x_kids x) (x_kids y)) by (apply alike_in_order; [exact H|rewrite E; exact S]). clear H E.
  induction K as [|a b k l L _ IH]; [reflexivity|]. cbn [read_doc_items]. rewrite IH, (read_paragraph_respects a b L), (read_verbatim_respects a b L), (alike_tag a b L). reflexivity.
Qed.

(** ** Automation *)
Create HintDb order.
#[export] Hint Constants Opaque : order.
#[export] Hint Resolve read_langs_respects : order.
#[export] Hint Extern 1 (In _ _) => cbn; tauto : order.
Ltac solve_at := first
  [ assumption
  | apply at_any; solve [assumption|auto with order nocore|apply read_langs_respects; cbn; tauto]
  | first [apply rd_number_at|apply rd_integer_at|apply rd_int_at|apply rd_float_at|apply rd_positive_at|apply rd_str_at|apply rd_numval_at|apply rd_index_at|apply rd_alignment_at|apply rd_boolean_at
          |apply rd_enum_at|apply read_ref_at|apply rd_value_at|apply read_limit_at|apply read_doc_at]; reflexivity
  | apply read_unit_names_at; reflexivity
  | solve [auto with order nocore] ].
Ltac block K := first
  [ reflexivity
  | apply (child_alike _ _ K); [reflexivity|solve_at]
  | apply (child_text_alike _ _ K); reflexivity
  | apply (children_alike _ _ K); [reflexivity|reflexivity|solve_at]
  | apply (children_any_alike _ _ K); [reflexivity|reflexivity|solve [assumption|auto with order nocore]]
  | apply (child_inner_alike _ _ K); [reflexivity|reflexivity|solve [assumption|auto with order nocore]]
  | apply (child_inner_try_alike _ _ K); [reflexivity|reflexivity|solve [assumption|auto with order nocore]]
  | apply (child_find_alike _ _ _ _ _ K); [reflexivity|reflexivity|solve_at]
  | apply (children_sel_alike _ _ _ _ K); [reflexivity|reflexivity|solve [auto with order nocore|eauto 4 with order nocore]]
  | apply (unexpected_alike _ _ K); reflexivity
  | apply mapM_findall_alike; [reflexivity|exact K|solve_at]
  | (match goal with |- ?f _ = ?f _ => idtac end; (apply (fun R : kids_respect _ => R _ _ K)); solve [auto with order nocore]) ].
Ltac blocks K := repeat (apply bind_alike; [block K|let d := fresh "d" in intros d; repeat (match type of d with (_ * _)%type => let e := fresh "e" in destruct d as [d e] end)]); try reflexivity.
Lemma read_annotation_respects : respects read_annotation.
Proof. intros x y H. unfold read_annotation. cbv zeta. pose proof (alike_kids x y H) as K. blocks K. Qed.
#[export] Hint Resolve read_annotation_respects : order.
Lemma read_annotations_respects : respects read_annotations.
Proof. intros x y H. unfold read_annotations. apply mapM_findall_alike; [reflexivity|now apply alike_kids|solve_at]. Qed.
Lemma read_sdg_respects : respects read_sdg.
Proof.
  intros x y H. unfold read_sdg. rewrite (alike_attrs x y H). destruct (assoc "GID" (x_attrs y)); [|reflexivity].
  destruct (get_alike "SD" (x_kids x) (x_kids y) eq_refl (alike_kids x y H)) as [(a & b & -> & -> & L & T)|[-> ->]]; [|reflexivity].
  rewrite (alike_attrs a b L), (alike_text_opt a b L); [reflexivity|now rewrite T].
Qed.
Lemma read_admin_data_respects : respects read_admin_data.
Proof.
  intros x y H. unfold read_admin_data. destruct (get_alike "SDGS" (x_kids x) (x_kids y) eq_refl (alike_kids x y H)) as [(a & b & -> & -> & L & T)|[-> ->]]; [|reflexivity].
  pose proof (alike_in_order a b L ltac:(now rewrite T)) as K. pose proof (mapM_findall_alike "SDG" read_sdg _ _ eq_refl (alike_kids a b L) (at_any _ _ read_sdg_respects)) as M.
  destruct K; [reflexivity|]. now rewrite M.
Qed.
#[export] Hint Resolve read_annotations_respects read_admin_data_respects : order.
Lemma read_referrable_kids : kids_respect read_referrable.
Proof.
  intros k l K. unfold read_referrable. destruct (get_alike "SHORT-NAME" k l eq_refl K) as [(a & b & -> & -> & L & T)|[-> ->]]; [|reflexivity].
  rewrite (alike_text a b L) by now rewrite T. apply bind_alike; [block K|reflexivity].
Qed.
Lemma read_multilanguage_referrable_kids : kids_respect read_multilanguage_referrable.
Proof. intros k l K. unfold read_multilanguage_referrable. block K. Qed.
#[export] Hint Resolve read_referrable_kids read_multilanguage_referrable_kids : order.
Lemma read_ident_alike a b k l : same_attributes a b -> kids_alike k l -> read_ident a k = read_ident b l.
Proof.
  intros A K. unfold read_ident, read_identifiable. apply bind_alike; [block K|]. intros [n o]. apply bind_alike; [block K|]. intros d. rewrite (A "UUID"). blocks K.
Qed.
(** A reader of an element with properties. *)
Ltac properties f := let x := fresh "x" in let y := fresh "y" in let H := fresh "H" in let K := fresh "K" in
  intros x y H; unfold f; cbv zeta; pose proof (alike_kids x y H) as K;
  try (apply bind_alike; [exact (read_ident_alike _ _ _ _ (alike_attrs x y H) K)|intros ?]); blocks K.
Ltac kids f := let k := fresh "k" in let l := fresh "l" in let K := fresh "K" in intros k l K; unfold f; cbv zeta; first [block K|blocks K].
(** A reader that looks at the name first. *)
Ltac by_name H := rewrite <- (alike_tag _ _ H); repeat (match goal with |- context [String.eqb ?a ?b] => destruct (String.eqb_spec a b) end;
  [apply bind_alike; [first [now apply (fun R : respects _ => R _ _ H); auto with order nocore|eauto with order nocore]|reflexivity]|]); try reflexivity.
