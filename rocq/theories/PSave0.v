(** When the writer succeeds: building blocks. *)
From Coq Require Import QArith Qpower Lqa.
From Verif Require Import Base PBase MNum SNum PNum PNum2 MXml SXml MEnum MRefTab MRef SEnum PRef MCodec SCodec PCodec PPiece MElem0 MElemA SSave0.
Open Scope Z_scope.

Definition W {A} (m : result A) : Prop := exists l, m = Ok l.
Lemma W_ok {A} (a : A) : W (Ok a). Proof. now exists a. Qed.
Lemma W_err {A} e : ~ W (@Err A e). Proof. intros [l E]. discriminate. Qed.
Lemma W_bind {A B} (m : result A) (k : A -> result B) : W (let* a := m in k a) <-> exists a, m = Ok a /\ W (k a).
Proof.
  unfold W. destruct m as [a|e]; cbn [bind].
  - split; [eauto|]. intros (a' & [= <-] & H). exact H.
  - split; [intros [l E]; discriminate|]. intros (a & E & _). discriminate.
Qed.
Lemma W_bind_ok {A B} (m : result A) (k : A -> B) : W (let* a := m in Ok (k a)) <-> W m.
Proof. rewrite W_bind. unfold W. firstorder eauto. Qed.
Lemma W_bind_true {A B} (m : result A) (k : A -> result B) Q : W m -> (forall a, W (k a) <-> Q) -> W (let* a := m in k a) <-> Q.
Proof. intros [a ->] H. cbn [bind]. apply H. Qed.

Lemma We_nil : W (cat []) <-> True. Proof. cbn. split; auto using W_ok. Qed.
Lemma W_andthen a b : W (andthen a b) <-> W a /\ W b.
Proof.
  unfold andthen. rewrite W_bind. split.
  - intros (x & -> & H). apply W_bind_ok in H. split; [now exists x|exact H].
  - intros ([x ->] & H). exists x. split; [reflexivity|]. now apply W_bind_ok.
Qed.
Lemma We_cons a r P Q : (W a <-> P) -> (W (cat r) <-> Q) -> (W (cat (a :: r)) <-> P /\ Q).
Proof. intros A B. cbn [cat]. rewrite W_andthen, A, B. reflexivity. Qed.
Lemma We_cons_true a r Q : W a -> (W (cat r) <-> Q) -> (W (cat (a :: r)) <-> Q).
Proof. intros A B. cbn [cat]. rewrite W_andthen, B. tauto. Qed.
Lemma W_nil : W (cat []). Proof. exact (W_ok []). Qed.
Lemma W_cons a r : W a -> W (cat r) -> W (cat (a :: r)). Proof. intros. cbn [cat]. now apply W_andthen. Qed.
Lemma We_node t a b P : (W b <-> P) -> (W (node t a b) <-> P). Proof. intros <-. apply W_bind_ok. Qed.
Lemma W_node t a b : W b -> W (node t a b). Proof. intros. now apply W_bind_ok. Qed.
Lemma We_set {A} (o : option A) f P : (forall a, W (f a) <-> P a) -> (W (if_set o f) <-> opt_ok P o).
Proof. intros H. destruct o; cbn; [apply H|]. split; auto using W_ok. Qed.
Lemma W_set {A} (o : option A) f : (forall a, W (f a)) -> W (if_set o f).
Proof. intros H. destruct o; cbn; [apply H|apply W_ok]. Qed.
Lemma We_some {A} (l : list A) b P : (W b <-> all_ok P l) -> (W (if_some l b) <-> all_ok P l).
Proof. intros H. destruct l; cbn [if_some]; [|exact H]. split; intros; [exact I|apply W_ok]. Qed.
Lemma W_some {A} (l : list A) b : W b -> W (if_some l b).
Proof. intros H. destruct l; cbn [if_some]; [apply W_ok|exact H]. Qed.
Lemma We_each {A} (l : list A) f P : (forall a, W (f a) <-> P a) -> (W (for_each l f) <-> all_ok P l).
Proof.
  intros H. unfold for_each. induction l as [|a l IH]; cbn [map cat all_ok]; [split; auto using W_ok|].
  rewrite W_andthen, H, IH. reflexivity.
Qed.
Lemma W_each {A} (l : list A) f : (forall a, W (f a)) -> W (for_each l f).
Proof. intros H. apply (We_each l f (fun _ => True)); [split; auto|]. induction l; cbn; auto. Qed.
Lemma We_content t r P : (W r <-> P) -> (W (content t r) <-> P). Proof. intros <-. apply W_bind_ok. Qed.
Lemma W_content t r : W r -> W (content t r). Proof. intros. now apply W_bind_ok. Qed.
Lemma W_empty t : W (empty t). Proof. apply W_ok. Qed.
Lemma opt_iff {A} (P Q : A -> Prop) o : (forall a, P a <-> Q a) -> (opt_ok P o <-> opt_ok Q o).
Proof. intros H. destruct o; cbn; [apply H|tauto]. Qed.
Lemma all_iff {A} (P Q : A -> Prop) l : (forall a, P a <-> Q a) -> (all_ok P l <-> all_ok Q l).
Proof. intros H. induction l; cbn; [tauto|]. now rewrite H, IHl. Qed.
Lemma all_ok_in {A} (P : A -> Prop) l : all_ok P l <-> forall a, In a l -> P a.
Proof. induction l as [|x l IH]; cbn; [firstorder|]. rewrite IH. firstorder (subst; auto). Qed.
(** [if is_empty then empty tag else body] *)
Lemma We_if (b : bool) {A} (m1 m2 : result A) (P : Prop) : (b = true -> W m1) -> (b = true -> P) -> (W m2 <-> P) -> (W (if b then m1 else m2) <-> P).
Proof. destruct b; [|auto]. intros X Y _. split; auto. Qed.
Lemma W_if (b : bool) {A} (m1 m2 : result A) : W m1 -> W m2 -> W (if b then m1 else m2).
Proof. destruct b; auto. Qed.

(** Numbers *)
Lemma integral_whole d z : (dq d == inject_Z z)%Q -> is_integral d = true.
Proof.
  unfold is_integral. intros E. destruct (0 <=? d_exp d) eqn:L; [reflexivity|]. cbn [orb]. apply Z.leb_gt in L.
  assert (P : (qv (d_neg d) (d_coef d) 0 == dq d * (10 # 1) ^ (- d_exp d))%Q).
  { unfold dq, qv. rewrite <- Qmult_assoc, <- Qpower_plus by apply ten_nz. replace (d_exp d + - d_exp d) with 0 by lia. reflexivity. }
  rewrite E, qpow10, <- signed_qv, <- inject_Z_mult in P by lia. apply (proj1 (inject_Z_injective _ _)) in P.
  apply N.eqb_eq. set (p := (10 ^ Z.to_N (- d_exp d))%N). assert (Np : p <> 0%N) by (apply N.pow_nonzero; lia).
  assert (K : Z.of_N p = 10 ^ (- d_exp d)) by (unfold p; rewrite N2Z.inj_pow, Z2N.id by lia; reflexivity).
  rewrite <- K in P. assert (C : Z.of_N (d_coef d) = Z.abs z * Z.of_N p).
  { assert (Z.abs (signed (d_neg d) (d_coef d)) = Z.of_N (d_coef d)) as <- by (unfold signed; destruct (d_neg d); lia).
    rewrite P, Z.abs_mul. lia. }
  assert (C' : d_coef d = (Z.to_N (Z.abs z) * p)%N) by lia. rewrite C'. now apply N.mod_mul.
Qed.
Lemma We_decimal d : W (format_decimal d) <-> forall z, (dq d == inject_Z z)%Q -> Z.abs z < 10 ^ 28.
Proof.
  unfold format_decimal. destruct (is_integral d) eqn:I.
  - destruct (quantize_cases d I) as (c & Q & E). rewrite W_bind_ok, E.
    assert (V : (dq d == inject_Z (signed (d_neg d) c))%Q) by (rewrite Q; symmetry; apply signed_qv).
    assert (Ab : Z.abs (signed (d_neg d) c) = Z.of_N c) by (unfold signed; destruct (d_neg d); lia).
    destruct (c <? 10 ^ 28)%N eqn:L.
    + split; [|intros; apply W_ok]. intros _ z H. rewrite V in H. apply (proj1 (inject_Z_injective _ _)) in H. subst z. apply N.ltb_lt in L. lia.
    + split; [intros H; now apply W_err in H|]. intros H. specialize (H _ V). apply N.ltb_ge in L. lia.
  - split; [|intros; apply W_ok]. intros _ z H. apply integral_whole in H. congruence.
Qed.
Lemma We_float n : W (format_float n) <-> float_has_text n.
Proof.
  unfold float_has_text, whole_number. destruct n as [z|[neg| |neg c e]]; cbn [format_float meaning].
  - rewrite We_decimal. split; intros H y E; apply H; [rewrite decimal_of_int_dq|rewrite <- decimal_of_int_dq]; exact E.
  - split; [|intros; apply W_ok]. intros _ z. destruct neg; intros [].
  - split; [|intros; apply W_ok]. intros _ z [].
  - rewrite We_decimal. split; intros H y E; apply H; [rewrite decimal_of_float_dq|rewrite <- decimal_of_float_dq]; exact E.
Qed.
Lemma We_number n : W (format_number n) <-> number_has_text n.
Proof. destruct n as [z|f]; cbn [format_number number_has_text]; [split; auto using W_ok|apply We_float]. Qed.
Lemma We_any n : W (format_any n) <-> value_has_text n.
Proof.
  destruct n as [n|[n f]]; cbn [format_any value_has_text]; [apply We_number|]. unfold format_numval. cbn [nv_format nv_value].
  destruct f; try apply We_number.
  - destruct n; split; eauto using W_ok; [intros H; now apply W_err in H|intros [z E]; discriminate].
  - destruct n; split; eauto using W_ok; [intros H; now apply W_err in H|intros [z E]; discriminate].
  - split; [auto|]. intros _. destruct n as [|[neg| |]]; apply W_ok.
Qed.

(** Enumerations and references *)
Lemma W_enum {A} (m : enum_map A) a : enum_ok m -> W (enum_text m a).
Proof. intros H. destruct (H a) as (t & E & _). now exists t. Qed.
Lemma W_ref tag r : W (write_ref tag r).
Proof. unfold write_ref. apply W_bind_ok. exact (W_enum em_IdentifiableSubTypes (rf_dest r) ok_IdentifiableSubTypes). Qed.
Lemma W_bind_both {A B} (m : result A) (k : A -> result B) : W m -> (forall a, W (k a)) -> W (let* a := m in k a).
Proof. intros [a ->] H. apply H. Qed.
Lemma W_attr_enum {A} n (m : enum_map A) o : enum_ok m -> W (attr_enum n m o).
Proof. intros H. destruct o; cbn; [|apply W_ok]. apply W_bind_ok. now apply W_enum. Qed.
Lemma W_attr_text n o : W (attr_text n o). Proof. apply W_ok. Qed.
Lemma W_mapM {A} (l : list (result A)) : (forall x, In x l -> W x) -> W (mapM (fun x => x) l).
Proof.
  induction l as [|x l IH]; intros H; cbn; [apply W_ok|]. destruct (H x (or_introl eq_refl)) as [a ->]. cbn [bind].
  destruct IH as [b ->]; [auto using in_cons|]. cbn. apply W_ok.
Qed.
Lemma W_attr_cat l : (forall x, In x l -> W x) -> W (attr_cat l).
Proof. intros H. unfold attr_cat. apply W_bind_ok. now apply W_mapM. Qed.
Ltac attrs := apply W_attr_cat; cbn [In pag_attrs app];
  let x := fresh in let H := fresh in intros x H; repeat (destruct H as [<-|H]; [first [apply W_attr_text|apply W_attr_enum; auto with enums]|]); contradiction.

(** Texts with inline elements *)
Lemma We_inline i : W (write_inline i) <-> inline_has_text i.
Proof.
  destruct i as [|o c f t|o|o|o|o x y]; cbn [write_inline inline_has_text]; [split; auto using W_ok| | | | |].
  1: apply W_bind_true; [attrs|intros a]. 5: apply W_bind_true; [attrs|intros a].
  all: destruct o; cbn; split; intros H; first [apply W_ok|discriminate|now apply W_err in H|congruence].
Qed.
Lemma We_parts ok c parts : (forall i, ok i = true <-> c i) -> (W (write_parts ok parts) <-> parts_savable c parts).
Proof.
  intros K. unfold parts_savable. induction parts as [|[s|i] r IH]; cbn [write_parts In].
  - split; [intros _ i []|intros; apply W_ok].
  - rewrite W_bind. split.
    + intros ([t ms] & E & _) i [D|H]; [discriminate|]. apply IH; [now exists (t, ms)|exact H].
    + intros H. destruct (proj2 IH) as [[t ms] E]; [auto|]. exists (t, ms). split; [exact E|apply W_ok].
  - specialize (K i). destruct (ok i).
    + rewrite W_bind. split.
      * intros ([[tag a] text] & E & H) j [[= ->]|J].
        -- split; [now apply K|]. apply We_inline. now exists (tag, a, text).
        -- apply IH; [|exact J]. apply W_bind in H as ([t ms] & E' & _). now exists (t, ms).
      * intros H. destruct (proj2 (We_inline i)) as [[[tag a] text] E]; [now apply H; left|]. exists (tag, a, text). split; [exact E|].
        destruct (proj2 IH) as [[t ms] E']; [auto|]. rewrite E'. apply W_ok.
    + split; [intros H; now apply W_err in H|]. intros H. destruct (H i (or_introl eq_refl)) as [C _]. apply K in C. discriminate.
Qed.
Lemma We_lang line c t : (forall i, writes line i = true <-> c i) -> (W (write_lang line t) <-> parts_savable c (lt_parts t)).
Proof.
  intros K. unfold write_lang. apply W_bind_true; [apply W_enum; auto with enums|]. intros a. rewrite <- (We_parts _ _ _ K).
  destruct (write_parts (writes line) (lt_parts t)) as [[x y]|e]; cbn; [split; intros; apply W_ok|]. split; intros H; now apply W_err in H.
Qed.
Lemma writes_4 i : writes "L-4" i = true <-> in_long_name i.
Proof. unfold in_long_name. destruct i; cbn; split; congruence. Qed.
Lemma writes_2 i : writes "L-2" i = true <-> anywhere i. Proof. unfold anywhere. now cbn. Qed.
Lemma writes_1 i : writes "L-1" i = true <-> anywhere i. Proof. unfold anywhere. now cbn. Qed.
Lemma writes_5 i : writes "L-5" i = true <-> in_verbatim i. Proof. destruct i; cbn; split; auto; discriminate. Qed.
Lemma We_long_name tag l : W (write_langs tag "L-4" l) <-> long_name_savable l.
Proof. unfold write_langs. apply We_node, We_each. intros t. apply We_lang, writes_4. Qed.
Lemma We_paragraph tag l : W (write_langs tag "L-2" l) <-> paragraph_savable l.
Proof. unfold write_langs. apply We_node, We_each. intros t. apply We_lang, writes_2. Qed.
Lemma We_names tag l : W (write_unit_names tag l) <-> names_savable l.
Proof.
  unfold write_unit_names, names_savable. rewrite <- (We_parts admits_unit in_unit_name); [|intros i; destruct i; cbn; split; auto; discriminate].
  destruct (write_parts admits_unit l) as [[x y]|e]; cbn; [split; intros; apply W_ok|]. split; intros H; now apply W_err in H.
Qed.
Lemma We_doc tag d : W (write_doc tag d) <-> doc_savable d.
Proof.
  assert (D : W (node tag [] (for_each d write_doc_item)) <-> doc_savable d).
  { apply We_node, We_each. intros [p he l|p ab f he pw l]; cbn [write_doc_item]; (apply W_bind_true; [attrs|]); intros a; apply We_node, We_each; intros t.
    - apply We_lang, writes_1. - apply We_lang, writes_5. }
  destruct d; [|exact D]. split; intros; [exact I|apply W_empty].
Qed.
Lemma We_annotation e : W (write_annotation e) <-> annotation_savable e.
Proof.
  unfold write_annotation, annotation_savable. apply We_if.
  - intros _. apply W_empty.
  - unfold Annotation_is_empty. destruct (Annotation_label e), (Annotation_text e); cbn; rewrite ?andb_false_r; try discriminate; auto.
  - apply We_node, We_cons; [apply We_set, We_long_name|]. apply We_cons_true; [apply W_set; intros; apply W_content, W_ok|].
    rewrite We_cons; [|apply We_set, We_doc|apply We_nil]. tauto.
Qed.
Lemma We_annotations l : W (write_annotations l) <-> all_ok annotation_savable l.
Proof.
  assert (D : W (for_each l (fun a => node "ANNOTATIONS" [] (write_annotation a))) <-> all_ok annotation_savable l).
  { apply We_each. intros a. apply We_node, We_annotation. }
  destruct l; [|exact D]. split; intros; [exact I|apply W_empty].
Qed.
Lemma W_referrable e : W (write_referrable e). Proof. apply W_content, W_ok. Qed.
(** The three statements every writer of an Identifiable starts with *)
Lemma We_ident e r Q : (W (cat r) <-> Q) ->
  (W (cat (write_referrable e :: write_multilanguage_referrable e :: write_identifiable e :: r)) <-> ident_savable e /\ Q).
Proof.
  intros H. unfold ident_savable, write_multilanguage_referrable, write_identifiable.
  rewrite We_cons_true; [|apply W_referrable|].
  2: { apply We_cons; [apply We_set, We_long_name|]. apply We_cons; [|exact H].
       apply We_cons; [apply We_set, We_paragraph|].
       apply We_cons_true; [apply W_set; intros c; destruct (String.eqb c ""); [apply W_ok|apply W_content, W_ok]|].
       apply We_cons_true; [apply W_set; intros; apply W_ok|].
       apply We_cons; [apply We_set, We_doc|]. apply We_cons; [|apply We_nil].
       apply We_set. intros l. apply We_some. apply We_annotations. }
  tauto.
Qed.
