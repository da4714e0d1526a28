(** Proofs about the line writer and the parser. *)
From Verif Require Import Base PBase MNames PNames MNum MXml SXml SSpell PSpell.

Section WtInd.
  Variable P : wt -> Prop.
  Hypothesis HL : forall t a s, P (Leaf t a s).
  Hypothesis HI : forall t a s ms, P (Line t a s ms).
  Hypothesis HN : forall t a ks, Forall P ks -> P (Node t a ks).
  Fixpoint wt_ind' (w : wt) : P w :=
    match w with
    | Leaf t a s => HL t a s
    | Line t a s ms => HI t a s ms
    | Node t a ks => HN t a ks ((fix go l : Forall P l :=
        match l with [] => Forall_nil _ | x :: r => Forall_cons _ (wt_ind' x) (go r) end) ks)
    end.
End WtInd.

(** ** Layout *)
Definition put (s : xw) (l : string) : xw :=
  mkXW (x_out s ++ (if Nat.ltb 1 (x_line s) then newline else "") ++ l)%string (S (x_line s)) (x_level s) (x_stack s).

Lemma start_eq tag a : tag_open tag a = start tag a.
Proof.
  unfold tag_open, start, attr_to_str. destruct a as [|p a]; [cbn; now rewrite str_app_nil_r|].
  f_equal. f_equal. revert p. induction a as [|p' a IH]; intros p.
  - cbn [map join fold_right]. now rewrite str_app_nil_r.
  - specialize (IH p'). cbn [map fold_right] in IH |- *. rewrite <- IH. cbn [join]. rewrite !str_app_assoc. reflexivity.
Qed.

Lemma add_line_put step s d t : x_level s = Z.of_nat d ->
  add_line step s t = put s (spaces (d * step) ++ t)%string.
Proof. intros L. unfold add_line, put, indent_str. rewrite L, Nat2Z.id. reflexivity. Qed.

Lemma fold_put_inv l s : x_level (fold_left put l s) = x_level s /\ x_stack (fold_left put l s) = x_stack s.
Proof. revert s. induction l as [|x l IH]; intros s; cbn; auto. destruct (IH (put s x)) as [-> ->]. auto. Qed.

Lemma do_calls_app step l1 l2 s : do_calls step s (l1 ++ l2) = let* s' := do_calls step s l1 in do_calls step s' l2.
Proof. revert s. induction l1 as [|c l IH]; intros s; cbn; auto. destruct (do_call step s c); cbn; auto. Qed.

Lemma put_level s l lv st : put (mkXW (x_out s) (x_line s) lv st) l = mkXW (x_out (put s l)) (x_line (put s l)) lv st.
Proof. reflexivity. Qed.
Lemma fold_put_level l s lv st :
  fold_left put l (mkXW (x_out s) (x_line s) lv st) = mkXW (x_out (fold_left put l s)) (x_line (fold_left put l s)) lv st.
Proof. revert s. induction l as [|x l IH]; intros s; cbn [fold_left]; auto. rewrite put_level. apply IH. Qed.

Lemma content_inline m : (content_str (mk_tag m) (mk_text m) (mk_attrs m) ++ mk_tail m)%string = inline m.
Proof. unfold content_str, inline. rewrite start_eq. destruct (mk_text m); rewrite !str_app_assoc; reflexivity. Qed.

Lemma marks_calls step ms : forall s,
  do_calls step s (List.concat (map (fun m => [CInlineContent (mk_tag m) (mk_text m) (mk_attrs m); CInline (mk_tail m)]) ms))
  = Ok (add_inline_text s (List.fold_right (fun m r => inline m ++ r) "" ms)%string).
Proof.
  induction ms as [|m ms IH]; intros s.
  - destruct s; cbn. unfold add_inline_text. cbn. now rewrite str_app_nil_r.
  - cbn [map List.concat app do_calls do_call bind fold_right]. rewrite IH. unfold add_inline_text. cbn [x_out x_line x_level x_stack].
    rewrite <- content_inline, !str_app_assoc. reflexivity.
Qed.

Lemma calls_layout step w : forall s d, x_level s = Z.of_nat d ->
  do_calls step s (calls w) = Ok (fold_left put (layout step d w) s).
Proof.
  induction w as [t a x|t a x ms|t a ks IH] using wt_ind'; intros s d L.
  - cbn [calls do_calls do_call bind]. unfold add_content, content_str. rewrite (add_line_put step s d) by auto.
    rewrite start_eq. destruct x; reflexivity.
  - cbn [calls do_calls do_call bind layout fold_left]. rewrite do_calls_app, marks_calls. cbn [bind do_calls do_call].
    unfold end_line, add_inline_text, begin_line, put, indent_str, add_inline_text. cbn [x_out x_line x_level x_stack].
    rewrite L, Nat2Z.id, start_eq, !str_app_assoc. reflexivity.
  - cbn [calls do_calls do_call bind layout]. rewrite do_calls_app, fold_left_app. cbn [fold_left].
    unfold add_child. rewrite start_eq, (add_line_put step s d) by auto.
    set (l1 := (spaces (d * step) ++ start t a ++ ">")%string).
    cbn [x_out x_line x_level x_stack put].
    set (s1 := put s l1).
    change (mkXW (x_out s ++ (if (1 <? x_line s)%nat then newline else "") ++ l1)%string (S (x_line s)) (x_level s + 1) (t :: x_stack s))
      with (mkXW (x_out s1) (x_line s1) (x_level s1 + 1) (t :: x_stack s1)).
    assert (K : forall ks s, x_level s = Z.of_nat (S d) -> Forall (fun w => forall s d, x_level s = Z.of_nat d ->
               do_calls step s (calls w) = Ok (fold_left put (layout step d w) s)) ks ->
             do_calls step s (List.concat (map calls ks)) = Ok (fold_left put (List.concat (map (layout step (S d)) ks)) s)).
    { clear. induction ks as [|k ks IHk]; intros s L F; [reflexivity|]. inversion F as [|? ? F1 F2]; subst.
      cbn [map List.concat]. rewrite do_calls_app, fold_left_app, (F1 s (S d) L). cbn [bind]. apply IHk; auto.
      now rewrite (proj1 (fold_put_inv _ _)). }
    rewrite K by (auto; cbn; lia). cbn [bind]. rewrite fold_put_level. cbn [do_calls do_call leave_child x_stack bind].
    cbn [x_out x_line x_level]. rewrite (add_line_put step _ d) by (cbn; lia).
    set (s2 := fold_left put _ s1).
    assert (E : mkXW (x_out s2) (x_line s2) (x_level s1 + 1 - 1) (x_stack s1) = s2).
    { destruct (fold_put_inv (List.concat (map (layout step (S d)) ks)) s1) as [A B]. fold s2 in A, B.
      rewrite <- B. replace (x_level s1 + 1 - 1)%Z with (x_level s2) by lia. now destruct s2. }
    rewrite E. reflexivity.
Qed.

Lemma fold_put_out l s : (1 < x_line s)%nat ->
  x_out (fold_left put l s) = (x_out s ++ List.fold_right (fun x r => newline ++ x ++ r) "" l)%string.
Proof.
  revert s. induction l as [|x l IH]; intros s L; cbn [fold_left fold_right]; [now rewrite str_app_nil_r|].
  rewrite IH by (cbn; lia). cbn [put x_out]. replace (1 <? x_line s)%nat with true by (symmetry; now apply Nat.ltb_lt).
  rewrite !str_app_assoc. reflexivity.
Qed.

Lemma join_fold x l : join newline (x :: l) = (x ++ List.fold_right (fun x r => newline ++ x ++ r) "" l)%string.
Proof.
  revert x. induction l as [|y l IH]; intros x; [cbn; now rewrite str_app_nil_r|].
  change (join newline (x :: y :: l)) with (x ++ newline ++ join newline (y :: l))%string. rewrite IH. reflexivity.
Qed.

Lemma layout_ne step d w : exists x l, layout step d w = x :: l.
Proof. destruct w as [t a [|]|t a x ms|t a ks]; cbn; eauto. Qed.

Lemma render_layout step w : render step w = Ok (join newline (layout step 0 w)).
Proof.
  unfold render. rewrite (calls_layout step w xw_open 0) by reflexivity. cbn [bind].
  destruct (layout_ne step 0 w) as (x & l & ->). rewrite join_fold. cbn [fold_left]. rewrite fold_put_out by (cbn; lia). reflexivity.
Qed.

Lemma render_doc_layout step w : render_doc step w = Ok (join newline (declaration :: layout step 0 w)).
Proof.
  unfold render_doc. cbn [do_calls do_call bind]. rewrite (add_line_put step xw_open 0) by reflexivity.
  rewrite (calls_layout step w _ 0) by reflexivity. cbn [bind].
  rewrite join_fold, fold_put_out by (cbn; lia). cbn [put x_out xw_open x_line Nat.ltb Nat.leb Nat.mul spaces append]. reflexivity.
Qed.

(** ** Text of an element *)
Fixpoint etext (step d : nat) (w : wt) : string :=
  match w with
  | Leaf tag a "" => start tag a ++ "/>"
  | Leaf tag a text => start tag a ++ ">" ++ text ++ "</" ++ tag ++ ">"
  | Line tag a text marks => start tag a ++ ">" ++ text
      ++ List.fold_right (fun m r => inline m ++ r) "" marks ++ "</" ++ tag ++ ">"
  | Node tag a kids => start tag a ++ ">"
      ++ List.fold_right (fun k r => newline ++ spaces (S d * step) ++ etext step (S d) k ++ r) "" kids
      ++ newline ++ spaces (d * step) ++ "</" ++ tag ++ ">"
  end%string.

Lemma layout_etext step w : forall d r,
  (List.fold_right (fun x r => newline ++ x ++ r) r (layout step d w) = newline ++ spaces (d * step) ++ etext step d w ++ r)%string.
Proof.
  induction w as [t a x|t a x ms|t a ks IH] using wt_ind'; intros d r.
  - destruct x; cbn [layout fold_right etext]; rewrite !str_app_assoc; reflexivity.
  - cbn [layout fold_right etext]; rewrite !str_app_assoc; reflexivity.
  - cbn [layout etext]. rewrite fold_right_app. cbn [fold_right].
    assert (K : forall ks r, Forall (fun w => forall d r, (List.fold_right (fun x r => newline ++ x ++ r) r (layout step d w) = newline ++ spaces (d * step) ++ etext step d w ++ r)%string) ks ->
      List.fold_right (fun x r => newline ++ x ++ r)%string r (List.concat (map (layout step (S d)) ks)) =
      (List.fold_right (fun k r => newline ++ spaces (S d * step) ++ etext step (S d) k ++ r) "" ks ++ r)%string).
    { clear. induction ks as [|k ks IHk]; intros r F; [reflexivity|]. inversion F as [|? ? F1 F2]; subst.
      cbn [map List.concat]. rewrite fold_right_app, IHk by auto. rewrite F1. cbn [fold_right]. rewrite !str_app_assoc. reflexivity. }
    rewrite K by auto. rewrite !str_app_assoc. reflexivity.
Qed.

Lemma str_app_inv_head a b c : (a ++ b = a ++ c)%string -> b = c.
Proof. induction a as [|x a IH]; cbn; auto. intros [= E]. auto. Qed.

Lemma render_etext step w : render step w = Ok (etext step 0 w).
Proof.
  rewrite render_layout. f_equal. destruct (layout_ne step 0 w) as (x & l & E). pose proof (layout_etext step w 0 "") as H.
  rewrite E in *. rewrite join_fold. cbn [fold_right] in H. apply str_app_inv_head in H. rewrite H. cbn [Nat.mul spaces append].
  now rewrite str_app_nil_r.
Qed.

Lemma render_doc_etext step w : render_doc step w = Ok (declaration ++ newline ++ etext step 0 w)%string.
Proof.
  rewrite render_doc_layout. f_equal. rewrite join_fold, layout_etext. cbn [Nat.mul spaces append]. rewrite str_app_nil_r. reflexivity.
Qed.

(** ** Parsing *)
Lemma nat_ascii_ne c n : nat_of_ascii c <> n -> (n < 256)%nat -> c <> ascii_of_nat n.
Proof. intros H L ->. apply H. apply nat_ascii_embedding. exact L. Qed.

Lemma not_bad c : (32 <= nat_of_ascii c \/ nat_of_ascii c = 9 \/ nat_of_ascii c = 10)%nat -> xml_bad c = false.
Proof.
  intros H. unfold xml_bad, xml_ws. destruct H as [H|[H|H]].
  - replace (nat_of_ascii c <? 32)%nat with false by (symmetry; now apply Nat.ltb_ge). reflexivity.
  - rewrite H. reflexivity.
  - rewrite H. reflexivity.
Qed.

(** Text that needs no escaping spells itself. *)
Lemma safe_chars s : safe_text s -> chars false "<" s s.
Proof.
  intros [A H]. induction s as [|c s IH]; [constructor|]. destruct A as [(C1 & C2 & C3) A].
  change (chars false "<" (String (if false && xml_ws c then " "%char else c)%bool s) (String c s)).
  constructor; auto.
  - apply nat_ascii_ne; lia.
  - now apply not_bad.
  - intros _ (r & R). apply H. left. exists r. exact R.
  - apply IH; auto. intros X. apply H. now right.
Qed.
Lemma safe_attr_chars s : safe_attr s -> chars true (ascii_of_nat 34) s s.
Proof.
  intros A. induction s as [|c s IH]; [constructor|]. destruct A as [(C1 & C2 & C3 & C4) A].
  assert (W : (if true && xml_ws c then " "%char else c)%bool = c).
  { cbn [andb]. destruct (xml_ws c) eqn:X; [|reflexivity]. unfold xml_ws in X. rewrite !orb_true_iff, !Nat.eqb_eq in X.
    assert (N : nat_of_ascii c = 32%nat) by lia. rewrite <- (ascii_nat_embedding c), N. reflexivity. }
  rewrite <- W at 1. constructor; auto.
  - apply nat_ascii_ne; lia.
  - apply nat_ascii_ne; lia.
  - apply not_bad. auto.
  - discriminate.
Qed.
Lemma safe_between s : safe_text s -> between s s.
Proof. intros S. do 2 constructor. now apply safe_chars. Qed.

Definition atext (a : attrs) : string :=
  List.fold_right (fun p s => " " ++ fst p ++ "=" ++ quote ++ snd p ++ quote ++ s)%string "" a.
Lemma atext_attributes a : attrs_well a -> attributes a (atext a).
Proof.
  intros [ND A]. induction a as [|[n v] a IH]; [now constructor|]. destruct (A n v (or_introl eq_refl)) as [N V].
  inversion ND as [|? ? NI ND']; subst.
  change (atext ((n, v) :: a)) with (" " ++ n ++ "" ++ "=" ++ "" ++ String (ascii_of_nat 34) (v ++ String (ascii_of_nat 34) (atext a)))%string.
  constructor; auto; try exact I; try discriminate.
  - now repeat split.
  - now apply safe_attr_chars.
  - apply IH; auto. intros. apply A. now right.
Qed.

Lemma spaces_safe n : all_chars plain_char (spaces n).
Proof. induction n; cbn; auto. split; auto. repeat split; try discriminate. left. cbn. lia. Qed.
Lemma has_mem p s c r : p = String c r -> has p s -> mem_char c s = true.
Proof.
  intros ->. induction s as [|x s IH]; cbn [has].
  - intros [(q & Q)|[]]. discriminate.
  - intros [(q & Q)|H]; cbn.
    + injection Q as -> _. now rewrite Ascii.eqb_refl.
    + rewrite IH by auto. apply orb_true_r.
Qed.
Lemma spaces_mem c n : c <> " "%char -> mem_char c (spaces n) = false.
Proof. intros C. induction n; cbn [spaces mem_char]; auto. rewrite IHn, orb_false_r. apply Ascii.eqb_neq. congruence. Qed.

Lemma indent_safe n : safe_text (newline ++ spaces n)%string.
Proof.
  split.
  - cbn [newline append all_chars]. split; [|apply spaces_safe]. repeat split; try discriminate. right; right. reflexivity.
  - intros H. apply (has_mem _ _ "]"%char "]>" eq_refl) in H. cbn [newline append mem_char] in H.
    rewrite spaces_mem in H by discriminate. discriminate.
Qed.

Definition ktext step d (ks : list wt) : string :=
  List.fold_right (fun k r => newline ++ spaces (S d * step) ++ etext step (S d) k ++ r)%string "" ks.

Lemma full_spelled tag a t u kids tails v : name_ok tag -> attrs_well a -> between t u -> spelled_kids kids tails v ->
  spelled (Elem tag a t kids tails) (start tag a ++ ">" ++ u ++ v ++ "</" ++ tag ++ ">")%string.
Proof.
  intros N A B K. unfold start. fold (atext a). 
  assert (E : (("<" ++ tag ++ atext a) ++ ">" ++ u ++ v ++ "</" ++ tag ++ ">" = "<" ++ tag ++ atext a ++ ">" ++ u ++ v ++ "</" ++ tag ++ "" ++ ">")%string)
    by (rewrite !str_app_assoc; reflexivity).
  rewrite E. constructor; auto; [now apply atext_attributes|exact I].
Qed.
Lemma leaf_spelled step d t a x : well (Leaf t a x) -> spelled (Elem t a x [] []) (etext step d (Leaf t a x)).
Proof.
  intros SF. inversion SF as [? ? ? N A X| |]; subst. destruct x as [|c x].
  - cbn [etext]. unfold start. fold (atext a). rewrite !str_app_assoc. constructor; auto. now apply atext_attributes.
  - apply (full_spelled t a (String c x) (String c x) [] [] ""); auto; [now apply safe_between|constructor].
Qed.
Lemma marks_spelled ms : Forall (fun m => name_ok (mk_tag m) /\ attrs_well (mk_attrs m) /\ safe_text (mk_text m) /\ safe_text (mk_tail m)) ms ->
  spelled_kids (map (fun m => Elem (mk_tag m) (mk_attrs m) (mk_text m) [] []) ms) (map mk_tail ms) (List.fold_right (fun m r => inline m ++ r)%string "" ms).
Proof.
  induction 1 as [|m ms (M1 & M2 & M3 & M4) _ IH]; cbn [map fold_right]; [constructor|].
  assert (E : inline m = (etext 0 0 (Leaf (mk_tag m) (mk_attrs m) (mk_text m)) ++ mk_tail m)%string).
  { unfold inline. cbn [etext]. destruct (mk_text m); rewrite ?str_app_assoc; reflexivity. }
  rewrite E, str_app_assoc. constructor; auto; [apply leaf_spelled; now constructor|now apply safe_between].
Qed.
Lemma etext_spelled step w : well w -> forall d, spelled (element step d w) (etext step d w).
Proof.
  induction w as [t a x|t a x ms|t a ks IH] using wt_ind'; intros SF d.
  - now apply leaf_spelled.
  - inversion SF as [|? ? ? ? N A X M|]; subst. cbn [element etext]. apply full_spelled; auto; [now apply safe_between|now apply marks_spelled].
  - inversion SF as [| |? ? ? N A X]; subst. cbn [etext element]. fold (ktext step d ks).
    assert (K : exists v, spelled_kids (map (element step (S d)) ks) (indents step d (List.length ks)) v /\
       (newline ++ spaces ((match ks with [] => d | _ => S d end) * step) ++ v = ktext step d ks ++ newline ++ spaces (d * step))%string).
    { clear N A SF. induction ks as [|k ks IHk].
      - exists ""%string. split; [constructor|]. now rewrite str_app_nil_r.
      - inversion X as [|? ? X1 X2]; subst. inversion IH as [|? ? IH1 IH2]; subst. destruct (IHk IH2 X2) as (v & V & E).
        exists (etext step (S d) k ++ (newline ++ spaces ((match ks with [] => d | _ => S d end) * step)) ++ v)%string. split.
        + assert (I : indents step d (List.length (k :: ks)) = (newline ++ spaces ((match ks with [] => d | _ => S d end) * step))%string :: indents step d (List.length ks))
            by (destruct ks; reflexivity).
          rewrite I. cbn [map]. constructor; [apply IH1; auto|apply safe_between, indent_safe|exact V].
        + change (ktext step d (k :: ks)) with (newline ++ spaces (S d * step) ++ etext step (S d) k ++ ktext step d ks)%string.
          rewrite !str_app_assoc. rewrite E. reflexivity. }
    destruct K as (v & V & E).
    assert (T : (start t a ++ ">" ++ ktext step d ks ++ newline ++ spaces (d * step) ++ "</" ++ t ++ ">" =
                 start t a ++ ">" ++ (newline ++ spaces ((match ks with [] => d | _ => S d end) * step)) ++ v ++ "</" ++ t ++ ">")%string).
    { f_equal. f_equal. transitivity ((ktext step d ks ++ newline ++ spaces (d * step)) ++ "</" ++ t ++ ">")%string; [now rewrite !str_app_assoc|].
      rewrite <- E. now rewrite !str_app_assoc. }
    rewrite T. apply full_spelled; auto. apply safe_between, indent_safe.
Qed.

Definition declaration_attrs : attrs := [("version", "1.0"); ("encoding", "utf-8")]%string.
Lemma declaration_spelled : exists s, declares declaration_attrs /\ attributes declaration_attrs s /\ declaration = ("<?xml" ++ s ++ "?>")%string.
Proof.
  exists (atext declaration_attrs). split; [|split; [|reflexivity]].
  - exists [("encoding", "utf-8")]%string, []. split; [reflexivity|]. split; [right; exists "utf-8"%string; auto|auto].
  - apply atext_attributes. split.
    + repeat constructor; cbn; intuition discriminate.
    + intros n v [E|[E|[]]]; injection E as <- <-; (split; [repeat split|cbn; repeat split; (discriminate || lia)]).
Qed.
Lemma parse_render step w : well w -> exists t, render step w = Ok t /\ parse t = Ok (element step 0 w).
Proof.
  intros S. rewrite render_etext. eexists. split; [reflexivity|]. apply parse_iff.
  pose proof (spelled_doc (element step 0 w) "" "" "" (etext step 0 w) "" (or_introl eq_refl) (or_introl eq_refl) around_nil (etext_spelled step w S 0) around_nil) as H.
  cbn [append] in H. now rewrite str_app_nil_r in H.
Qed.
Lemma doc_spelled step w : well w -> spelled (element step 0 w) (etext step 0 w) /\
  forall after, parse_root ((declaration ++ newline ++ etext step 0 w) ++ after) = Some (element step 0 w, after).
Proof.
  intros S. pose proof (etext_spelled step w S 0) as E. split; [exact E|]. intros after. rewrite !str_app_assoc.
  destruct declaration_spelled as (s & D & A & ->).
  refine (root_complete _ "" ("<?xml" ++ s ++ "?>")%string newline (etext step 0 w) after (or_introl eq_refl) _ _ E); [right; eauto|].
  constructor; [reflexivity|constructor].
Qed.
Lemma parse_render_doc step w : well w -> exists t, render_doc step w = Ok t /\ parse t = Ok (element step 0 w).
Proof.
  intros S. rewrite render_doc_etext. eexists. split; [reflexivity|]. unfold parse.
  rewrite <- (str_app_nil_r (declaration ++ _)). rewrite (proj2 (doc_spelled step w S) ""%string). reflexivity.
Qed.
