(** Round trips of the parts shared by the element classes. *)
From Verif Require Import Base PBase MNames MNum SNum PNum PNum3 MXml SXml PXml PXml2 MEnum PEnum MRefTab MRef SEnum PRef MCodec SCodec PCodec PPiece PIdent MElem0.
Open Scope list_scope.

(** ** Numbers read through an int *)
Lemma as_float_reread n : good_real n -> as_float (reread n) = n.
Proof.
  intros [(f & -> & P & _) NZ]. destruct f as [neg| |neg c e]; [reflexivity|reflexivity|]. destruct P as (L & Z0 & C). cbn [reread].
  destruct (Z.leb_spec 0 e) as [E|E]; [|reflexivity]. unfold as_float, to_float. f_equal.
  assert (X : (signed neg (c * 10 ^ Z.to_N e) <? 0)%Z = neg /\ Z.to_N (Z.abs (signed neg (c * 10 ^ Z.to_N e))) = (c * 10 ^ Z.to_N e)%N).
  { destruct neg; cbn [signed].
    - assert (c <> 0%N). { intros ->. apply NZ. rewrite Z0 by auto. reflexivity. }
      assert (10 ^ Z.to_N e <> 0)%N by (apply N.pow_nonzero; lia).
      assert (c * 10 ^ Z.to_N e <> 0)%N by (apply N.neq_mul_0; auto).
      set (m := (c * 10 ^ Z.to_N e)%N) in *. split; [apply Z.ltb_lt|]; lia.
    - set (m := (c * 10 ^ Z.to_N e)%N) in *. split; [apply Z.ltb_ge|]; lia. }
  destruct X as [-> ->]. apply canon_pow; auto.
Qed.
Lemma as_float_opt o : opt_ok good_real o -> option_map as_float (option_map reread o) = o.
Proof. destruct o as [n|]; cbn; auto. intros G. now rewrite as_float_reread. Qed.
Lemma as_float_id o : opt_ok good_float o -> option_map as_float o = o.
Proof. destruct o as [n|]; cbn; auto. intros (f & -> & _). reflexivity. Qed.
Lemma opt_positive_ok o : opt_ok (fun z => (0 <= z)%Z) o -> opt_positive o = Ok o.
Proof. destruct o as [z|]; cbn; auto. intros G. destruct (Z.ltb_spec z 0); auto. lia. Qed.
Lemma real_float n : good_real n -> good_float n. Proof. now intros []. Qed.
Lemma float_number n : good_float n -> good_number n. Proof. intros H. pose proof H as (f & -> & _). exact H. Qed.

Lemma c_real tag n : name_okb tag = true -> good_real n -> carries tag (content tag (format_number n)) rd_number (reread n).
Proof. intros N G. apply c_number; auto using float_number, real_float. Qed.
Lemma c_real_float tag n : name_okb tag = true -> good_real n -> carries tag (content tag (format_float n)) rd_number (reread n).
Proof. intros N G. apply c_float_number; auto using real_float. Qed.
Lemma c_int_number tag z : name_okb tag = true -> carries tag (content tag (format_number (NInt z))) rd_integer z.
Proof. apply c_integer. Qed.

(** ** Empty objects *)
Lemma unset_none {A} (o : option A) : unset o = true -> o = None. Proof. now destruct o. Qed.
Lemma no_items_nil {A} (l : list A) : no_items l = true -> l = []. Proof. now destruct l. Qed.
Ltac emptied E := repeat match type of E with
  | (_ && _)%bool = true => let X := fresh "X" in apply andb_prop in E; destruct E as [E X]; emptied_one X
  end; emptied_one E
with emptied_one X := first [apply unset_none in X | apply no_items_nil in X | idtac].

(** ** Pieces *)
Lemma p_nothing : piece [] (cat []) (fun _ => True). Proof. now apply piece_nil. Qed.
(** Not written because not set *)
Lemma p_off {A} (o : option A) body : o = None -> piece [] (if_set o body) (fun _ => True).
Proof. intros ->. now apply piece_nil. Qed.
Lemma p_off_list {A} (l : list A) body : l = [] -> piece [] (if_some l body) (fun _ => True).
Proof. intros ->. now apply piece_nil. Qed.
Lemma p_str tag o : name_okb tag = true -> opt_ok good_text o ->
  piece [tag] (if_set o (fun s => content tag (Ok s))) (fun k => child tag k rd_str = Ok o).
Proof. intros N G. apply p_child_id. intros a E. apply c_str; auto. now apply (opt_in _ _ _ G). Qed.

(** A child holding one element *)
Lemma p_inner {A B} tag (o : option A) body (rd : xml -> result B) (f : A -> B) : name_okb tag = true ->
  (forall a, o = Some a -> exists t, carries t (body a) rd (f a)) ->
  piece [tag] (if_set o (fun a => node tag [] (body a))) (fun k => child_inner tag k rd = Ok (option_map f o)).
Proof.
  intros N H. unfold child_inner. destruct o as [a|]; cbn [if_set option_map].
  - destruct (H a eq_refl) as (t & w & W & T & S & R). rewrite W.
    eapply (piece_one tag _ (fun x => match x_kids x with [] => Ok None | y :: _ => let* b := rd y in Ok (Some b) end) (Some (f a))).
    + apply (c_node _ _ _ _ _ [w]); auto using attrs_ok_nil. intros step d. cbn [element x_kids map]. now rewrite R.
    + intros k x F X. rewrite get_findall, F. exact X.
  - apply piece_none. intros k F. rewrite get_findall, F by apply in_head. reflexivity.
Qed.
Lemma p_inner_id {A} tag (o : option A) body (rd : xml -> result A) : name_okb tag = true ->
  (forall a, o = Some a -> exists t, carries t (body a) rd a) ->
  piece [tag] (if_set o (fun a => node tag [] (body a))) (fun k => child_inner tag k rd = Ok o).
Proof. intros N H. pose proof (p_inner tag o body rd (fun a => a) N H) as X. rewrite option_map_id in X. exact X. Qed.
Lemma p_inner_try {A B} tag (o : option A) body (rd : xml -> result B) (f : A -> B) : name_okb tag = true ->
  (forall a, o = Some a -> exists t, carries t (body a) rd (f a)) ->
  piece [tag] (if_set o (fun a => node tag [] (body a))) (fun k => child_inner_try tag k rd = Ok (option_map f o)).
Proof. intros N H. eapply piece_imp; [apply (p_inner _ _ _ _ _ N H)|]. intros k E. unfold child_inner_try. now rewrite E. Qed.
Lemma p_inner_try_id {A} tag (o : option A) body (rd : xml -> result A) : name_okb tag = true ->
  (forall a, o = Some a -> exists t, carries t (body a) rd a) ->
  piece [tag] (if_set o (fun a => node tag [] (body a))) (fun k => child_inner_try tag k rd = Ok o).
Proof. intros N H. pose proof (p_inner_try tag o body rd (fun a => a) N H) as X. rewrite option_map_id in X. exact X. Qed.
Lemma p_find {A B} tag inner (o : option A) body (rd : xml -> result B) (f : A -> B) : name_okb tag = true ->
  (forall a, o = Some a -> carries inner (body a) rd (f a)) ->
  piece [tag] (if_set o (fun a => node tag [] (body a))) (fun k => child_find tag inner k rd = Ok (option_map f o)).
Proof.
  intros N H. unfold child_find. destruct o as [a|]; cbn [if_set option_map].
  - destruct (H a eq_refl) as (w & W & T & SF & R). rewrite W.
    eapply (piece_one tag _ (fun x => child inner (x_kids x) rd) (Some (f a))).
    + apply (c_node _ _ _ _ _ [w]); auto using attrs_ok_nil. intros step d. cbn [element x_kids map].
      apply (child_one _ _ (element step (S d) w)); auto. unfold findall. cbn [filter]. rewrite x_tag_element, T, String.eqb_refl. reflexivity.
    + intros k x F X. rewrite get_findall, F. exact X.
  - apply piece_none. intros k F. rewrite get_findall, F by apply in_head. reflexivity.
Qed.
Lemma p_find_id {A} tag inner (o : option A) body (rd : xml -> result A) : name_okb tag = true ->
  (forall a, o = Some a -> carries inner (body a) rd a) ->
  piece [tag] (if_set o (fun a => node tag [] (body a))) (fun k => child_find tag inner k rd = Ok o).
Proof. intros N H. pose proof (p_find tag inner o body rd (fun a => a) N H) as X. rewrite option_map_id in X. exact X. Qed.

(** Children chosen by tag *)
Lemma select_each {A B} (l : list A) body (sel : string -> option (xml -> result B)) (f : A -> B) :
  (forall a, In a l -> exists tag rd, sel tag = Some rd /\ carries tag (body a) rd (f a)) ->
  exists L, for_each l body = Ok L /\ Forall safe L /\ forall step d, select sel (map (element step d) L) = Ok (map f l).
Proof.
  induction l as [|a l IH]; intros H.
  - exists []. splits; auto.
  - destruct (H a (or_introl eq_refl)) as (tag & rd & Q & w & W & T & S & R). destruct IH as (L & E & F & M); [intros; apply H; now right|].
    exists (w :: L). unfold for_each in *. cbn [map cat]. rewrite W, E. cbn. splits; auto. intros step d. cbn [map select]. rewrite x_tag_element, T, Q, R. cbn [bind]. now rewrite M.
Qed.
Lemma p_children_sel {A B} container (l : list A) body sel (f : A -> B) : name_okb container = true ->
  (forall a, In a l -> exists tag rd, sel tag = Some rd /\ carries tag (body a) rd (f a)) ->
  piece [container] (if_some l (node container [] (for_each l body))) (fun k => children_sel container k sel = Ok (map f l)).
Proof.
  intros N H. unfold children_sel. destruct l as [|a l]; cbn [if_some map].
  - apply piece_none. intros k F. rewrite get_findall, F by apply in_head. reflexivity.
  - destruct (select_each _ _ _ _ H) as (L & E & S & M). rewrite E.
    eapply (piece_one container _ (fun x => select sel (x_kids x)) (map f (a :: l))).
    + apply (c_node _ _ _ _ _ L); auto using attrs_ok_nil. intros step d. apply M.
    + intros k x F R. cbv beta in R. rewrite get_findall, F. exact R.
Qed.
Lemma p_children_sel_id {A} container (l : list A) body sel : name_okb container = true ->
  (forall a : A, In a l -> exists tag rd, sel tag = Some rd /\ carries tag (body a) rd a) ->
  piece [container] (if_some l (node container [] (for_each l body))) (fun k => children_sel container k sel = Ok l).
Proof. intros N H. pose proof (p_children_sel container l body sel (fun a => a) N H) as X. rewrite map_id in X. exact X. Qed.

(** A list written even when it is empty *)
Lemma p_children_always {A B} container tag (l : list A) body (rd : xml -> result B) f : name_okb container = true ->
  (forall a, In a l -> carries tag (body a) rd (f a)) ->
  piece [container] (node container [] (for_each l body)) (fun k => children container tag k rd = Ok (map f l)).
Proof.
  intros N H. unfold children. eapply piece_one; [exact (c_list container tag l body rd f N H)|].
  intros k x F R. cbv beta in R. rewrite get_findall, F. exact R.
Qed.

(** ** Elements, knowing also which tags are absent *)
Lemma e_node2 {A} tag a m (rd : xml -> result A) x T (P : list xml -> Prop) : piece T m P -> name_okb tag = true -> attrs_ok a ->
  (forall t k l, P k -> (forall s, existsb (String.eqb s) T = false -> findall s k = []) -> rd (Elem tag a t k l) = Ok x) ->
  carries tag (node tag a m) rd x.
Proof.
  intros (L & -> & F & G) N AO R. eapply c_node; eauto.
  - eapply Forall_impl; [|exact F]. intros w []. auto.
  - intros step d. cbn [element]. apply R.
    + apply (G step (S d)). intros t _. reflexivity.
    + intros s X. apply (findall_other s T); auto. intros I. enough (existsb (String.eqb s) T = true) by congruence.
      apply existsb_exists. exists s. now rewrite String.eqb_refl.
Qed.
Lemma children_none {A} c t k (rd : xml -> result A) : findall c k = [] -> children c t k rd = Ok [].
Proof. intros F. unfold children. now rewrite get_findall, F. Qed.
Lemma children_any_none {A} c k (rd : xml -> result A) : findall c k = [] -> children_any c k rd = Ok [].
Proof. intros F. unfold children_any. now rewrite get_findall, F. Qed.
Lemma children_sel_none {A} c k (sel : string -> option (xml -> result A)) : findall c k = [] -> children_sel c k sel = Ok [].
Proof. intros F. unfold children_sel. now rewrite get_findall, F. Qed.
Lemma child_text_none t k : findall t k = [] -> child_text t k = Ok None.
Proof. intros F. unfold child_text. now rewrite get_findall, F. Qed.
Lemma child_inner_none {A} t k (rd : xml -> result A) : findall t k = [] -> child_inner t k rd = Ok None.
Proof. intros F. unfold child_inner. now rewrite get_findall, F. Qed.
Lemma child_inner_try_none {A} t k (rd : xml -> result A) : findall t k = [] -> child_inner_try t k rd = Ok None.
Proof. intros F. unfold child_inner_try. now rewrite child_inner_none. Qed.

(** Identifiable with no further content *)
Lemma p_ident0 e : good_ident e ->
  piece ident_tags (cat [write_referrable e; write_multilanguage_referrable e; write_identifiable e]) (ident_read e).
Proof.
  intros G. eapply piece_imp.
  - eapply (piece_more (["SHORT-NAME"] ++ ["LONG-NAME"] ++ ["DESC"; "CATEGORY"; "ADMIN-DATA"; "INTRODUCTION"; "ANNOTATIONS"])); [|apply incl_refl].
    pose proof G as (G1 & G2 & G3).
    eapply piece_cons; [now apply p_referrable|eapply piece_cons; [now apply p_ml_referrable|apply piece_cat1; exact (p_identifiable _ G)|reflexivity]|reflexivity].
  - cbv beta. intros k ((x & X1 & X2) & L & I). intros a U. unfold read_ident, read_referrable, read_multilanguage_referrable.
    rewrite X1, L. cbn [bind]. apply I; auto.
Qed.
Lemma no_uuid e : good_ident_no_uuid e -> assoc "UUID" (@nil (string * string)) = id_uuid e.
Proof. now intros [_ ->]. Qed.
Lemma with_uuid e : good_ident e -> assoc "UUID" (identifiable_attributes e) = id_uuid e.
Proof. intros _. apply uuid_assoc. Qed.
Lemma ident_of e : good_ident_no_uuid e -> good_ident e. Proof. now intros []. Qed.
Lemma ident_attrs e : good_ident e -> attrs_ok (identifiable_attributes e).
Proof. intros (_ & _ & _ & _ & _ & _ & _ & U). now apply uuid_attrs. Qed.

(** Referrable elements that are not identifiable *)
Lemma p_name s : good_text s -> piece ["SHORT-NAME"; "LONG-NAME"] (content "SHORT-NAME" (Ok s)) (fun k => read_referrable k = Ok (s, None)).
Proof.
  intros [NE S]. exists [Leaf "SHORT-NAME" [] s]. split; [reflexivity|]. split.
  - constructor; [|constructor]. split; [now left|]. constructor; auto using attrs_ok_nil. now apply name_okb_sound.
  - intros step d kids A. unfold read_referrable. rewrite get_findall, (A "SHORT-NAME") by now left. cbn.
    rewrite (child_none "LONG-NAME"); [reflexivity|]. now rewrite (A "LONG-NAME") by (right; now left).
Qed.

(** Another reader of the same element *)
Lemma carries_as {A B} tag m (rd : xml -> result A) a (rd' : xml -> result B) b : carries tag m rd a ->
  (forall x, x_tag x = tag -> rd x = Ok a -> rd' x = Ok b) -> carries tag m rd' b.
Proof.
  intros (w & E & T & S & R) H. exists w. splits; auto. intros step d. apply H; auto. now rewrite x_tag_element.
Qed.
Lemma unexpected_none tags k : Forall (fun t => findall t k = []) tags -> unexpected tags k = Ok tt.
Proof. induction 1 as [|t r F _ IH]; cbn; auto. now rewrite get_findall, F. Qed.
