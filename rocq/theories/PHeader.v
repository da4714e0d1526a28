(** Proofs about the generated header (C44, C45). *)
From Verif Require Import Base PBase MTypes STypes PTypes MHeader SHeader.

Ltac splits := repeat match goal with |- _ /\ _ => split end.

(** ** Registered types mirror their elements *)

Lemma cat_is_eq c x : cat_is c x = true -> c = Some x.
Proof. destruct c as [y|]; cbn; [|discriminate]. now intros ->%String.eqb_eq. Qed.

Lemma first_props_ok {A} (p : option (list A)) x : first_props p = Ok x -> exists ps, p = Some (x :: ps).
Proof. destruct p as [[|y ps]|]; cbn; try discriminate. intros [= ->]. eauto. Qed.

Lemma refers_str o t : dref t = absolute (str_opt o) -> refers_to o t.
Proof. destruct o; cbn; auto. Qed.

Definition named (rec : rec_t) (T : imodel -> Prop) : Prop :=
  forall s r s' t, T s -> rec s r = (s', Ok t) -> dref t = absolute r.
Definition stays (rec : rec_t) (T : imodel -> Prop) : Prop :=
  forall s r s' o, T s -> rec s r = (s', o) -> T s'.

Section Mirror.
Context (rec : rec_t) (T : imodel -> Prop) (Nm : named rec T) (St : stays rec T).

Lemma via_base_named s p s' t : T s -> via_base rec s p = (s', Ok t) -> first_is p (fun x => refers_to (p0_base (p_own x)) t).
Proof.
  unfold via_base. destruct (first_props p) as [x|] eqn:F; [|discriminate]. intros Ts E.
  apply first_props_ok in F as [ps ->]. exists x, ps. split; [reflexivity|]. apply refers_str. eapply Nm; eauto.
Qed.
Lemma via_impl_named s p s' t : T s -> via_impl rec s p = (s', Ok t) -> first_is p (fun x => refers_to (p0_impl (p_own x)) t).
Proof.
  unfold via_impl. destruct (first_props p) as [x|] eqn:F; [|discriminate]. intros Ts E.
  apply first_props_ok in F as [ps ->]. exists x, ps. split; [reflexivity|]. apply refers_str. eapply Nm; eauto.
Qed.
Lemma via_base_stays s p s' o : T s -> via_base rec s p = (s', o) -> T s'.
Proof. unfold via_base. destruct (first_props p); intros Ts E; [eapply St; eauto|now injection E as <- <-]. Qed.
Lemma via_impl_stays s p s' o : T s -> via_impl rec s p = (s', o) -> T s'.
Proof. unfold via_impl. destruct (first_props p); intros Ts E; [eapply St; eauto|now injection E as <- <-]. Qed.

Lemma array_elem_mirror s key x s' e : T s -> make_array_elem rec s key x = (s', Ok e) ->
  mirrors_part key true x e /\ xs_size x <> None.
Proof.
  unfold make_array_elem. intros Ts.
  destruct (cat_is (xs_cat x) "VALUE") eqn:C1; [|destruct (cat_is (xs_cat x) "TYPE_REFERENCE") eqn:C2; [|discriminate]].
  - apply cat_is_eq in C1. destruct (via_base rec s (xs_props x)) as [s1 [t|]] eqn:V; cbn [sbind]; [|discriminate].
    destruct (xs_size x) eqn:Z; [|discriminate]. intros [= <- <-]. apply via_base_named in V; [|exact Ts].
    split; [|discriminate]. unfold mirrors_part. now rewrite Z.
  - apply cat_is_eq in C2. destruct (via_impl rec s (xs_props x)) as [s1 [t|]] eqn:V; cbn [sbind]; [|discriminate].
    destruct (xs_size x) eqn:Z; [|discriminate]. intros [= <- <-]. apply via_impl_named in V; [|exact Ts].
    split; [|discriminate]. unfold mirrors_part. now rewrite Z.
Qed.

Lemma member_mirror s key x s' o : T s -> make_member rec key s x = (s', o) ->
  T s' /\ match o with Ok e => mirrors_part key false x e | Err _ => True end.
Proof.
  unfold make_member. intros Ts.
  destruct (cat_is (xs_cat x) "VALUE") eqn:C1; [|destruct (cat_is (xs_cat x) "TYPE_REFERENCE") eqn:C2].
  - apply cat_is_eq in C1. destruct (via_base rec s (xs_props x)) as [s1 [t|]] eqn:V; cbn [sbind];
      intros [= <- <-]; (split; [eapply via_base_stays; eauto|]); [|trivial].
    apply via_base_named in V; [|exact Ts]. unfold mirrors_part. auto.
  - apply cat_is_eq in C2. destruct (via_impl rec s (xs_props x)) as [s1 [t|]] eqn:V; cbn [sbind];
      intros [= <- <-]; (split; [eapply via_impl_stays; eauto|]); [|trivial].
    apply via_impl_named in V; [|exact Ts]. unfold mirrors_part. auto.
  - intros [= <- <-]. auto.
Qed.

Lemma members_mirror key l : forall s s' es, T s -> make_members rec key s l = (s', Ok es) ->
  Forall2 (mirrors_part key false) l es.
Proof.
  induction l as [|x l IH]; intros s s' es Ts; cbn [make_members].
  - intros [= <- <-]. constructor.
  - destruct (make_member rec key s x) as [s1 [e|]] eqn:M; cbn [sbind]; [|discriminate].
    destruct (member_mirror _ _ _ _ _ Ts M) as [T1 Me].
    destruct (make_members rec key s1 l) as [s2 [es2|]] eqn:Ms; cbn [sbind]; [|discriminate].
    intros [= <- <-]. constructor; [exact Me|]. eapply IH; eauto.
Qed.

Lemma make_type_mirror s key x s' t : T s -> make_type rec s key x = (s', Ok t) -> mirrors key x t.
Proof.
  intros Ts. destruct x as [n native|n cat props subs symbol emitter|n]; cbn [make_type]; [| |discriminate].
  - intros [= <- <-]. cbn. auto.
  - destruct cat as [c|]; [|discriminate].
    destruct (cat_is (Some c) "VALUE") eqn:C1.
    { apply cat_is_eq in C1 as [= ->]. destruct (via_base rec s props) as [s1 [b|]] eqn:V; cbn [sbind]; [|discriminate].
      intros [= <- <-]. apply via_base_named in V; [|exact Ts]. cbn. splits; auto. }
    destruct (cat_is (Some c) "TYPE_REFERENCE") eqn:C2.
    { apply cat_is_eq in C2 as [= ->]. destruct (via_impl rec s props) as [s1 [b|]] eqn:V; cbn [sbind]; [|discriminate].
      intros [= <- <-]. apply via_impl_named in V; [|exact Ts]. cbn. splits; auto. }
    destruct (cat_is (Some c) "ARRAY") eqn:C3.
    { apply cat_is_eq in C3 as [= ->]. unfold make_array. destruct (rev subs) as [|x outer] eqn:R; [discriminate|].
      destruct (make_array_elem rec s key x) as [s1 [e|]] eqn:V; cbn [sbind]; [|discriminate].
      destruct (xs_policy x || xs_handling x || xs_semantics x) eqn:Fl; [discriminate|].
      apply orb_false_elim in Fl as [Fl F3]. apply orb_false_elim in Fl as [F1 F2].
      destruct outer; [|discriminate]. intros [= <- <-]. apply array_elem_mirror in V as [V Z]; [|exact Ts].
      cbn. splits; auto. exists x. split; [|splits; auto]. rewrite <- (rev_involutive subs), R. reflexivity. }
    destruct (cat_is (Some c) "STRUCTURE") eqn:C4.
    { apply cat_is_eq in C4 as [= ->]. destruct (make_members rec key s subs) as [s1 [es|]] eqn:V; cbn [sbind]; [|discriminate].
      intros [= <- <-]. apply members_mirror in V; [|exact Ts]. cbn. splits; auto. }
    destruct (cat_is (Some c) "DATA_REFERENCE") eqn:C5; [|discriminate].
    apply cat_is_eq in C5 as [= ->]. unfold make_ptr.
    destruct (first_props props) as [p|] eqn:F; [|discriminate]. apply first_props_ok in F as [ps ->].
    destruct (p_ptr p) as [tg|] eqn:P; [|discriminate].
    destruct (cat_is (pt_cat tg) "VALUE") eqn:D1; [|destruct (cat_is (pt_cat tg) "TYPE_REFERENCE") eqn:D2; [|discriminate]].
    + apply cat_is_eq in D1. destruct (first_props (pt_props tg)) as [q|] eqn:F; [|discriminate].
      apply first_props_ok in F as [qs F].
      destruct (rec s (str_opt (p0_base q))) as [s1 [d|]] eqn:V; cbn [sbind]; [|discriminate].
      intros [= <- <-]. apply (Nm _ _ _ _ Ts), refers_str in V. cbn. splits; auto.
      exists p, ps. split; [auto|]. exists tg. split; [auto|]. exists q, qs. auto.
    + apply cat_is_eq in D2. destruct (first_props (pt_props tg)) as [q|] eqn:F; [|discriminate].
      apply first_props_ok in F as [qs F].
      destruct (rec s (str_opt (p0_impl q))) as [s1 [d|]] eqn:V; cbn [sbind]; [|discriminate].
      intros [= <- <-]. apply (Nm _ _ _ _ Ts), refers_str in V. cbn. splits; auto.
      exists p, ps. split; [auto|]. exists tg. split; [auto|]. exists q, qs. auto.
Qed.
End Mirror.

Definition MInv (l : lib) (s : imodel) : Prop :=
  TInv l s /\ forall r t, assoc r (im_types s) = Some t -> exists x, assoc r l = Some x /\ mirrors r x t.

Lemma create_mirror l f : forall s ref src s' o, MInv l s -> create f l s ref src = (s', o) -> MInv l s'.
Proof.
  induction f as [|f IH]; intros s ref src s' o M E.
  { injection E as <- <-. exact M. }
  split; [eapply create_inv in E; [apply E|apply M]|]. cbn [create] in E.
  destruct (lib_find l ref) as [[key x]|] eqn:F; [|injection E as <- <-; apply M].
  destruct (lib_find_spec _ _ _ _ F) as [-> Lx]. unfold create_elem in E.
  destruct (assoc (absolute ref) (im_types s)) as [t|] eqn:A; [injection E as <- <-; apply M|].
  set (s0 := if src then add_source s (absolute ref) else s) in *.
  assert (M0 : MInv l s0) by (destruct M; unfold s0; destruct src; split; auto).
  set (rec := fun s r => create f l s r false) in *.
  assert (St : stays rec (MInv l)) by (intros a r b o' Ma R; eapply IH; eauto).
  assert (Nm : named rec (MInv l)).
  { intros a r b t Ma R. destruct (create_inv l f a r false b (Ok t) (proj1 Ma) R) as (Tb & _ & Rg & _).
    apply (Tb _ _ (Rg t eq_refl)). }
  assert (V : forall a rs b, visits rec a rs b -> MInv l a -> MInv l b).
  { intros a rs b V. induction V; intros; [auto|]. apply IHV. eapply St; eauto. }
  pose proof (make_type_shape _ _ _ _ _ _ E) as Sh. destruct o as [t|e].
  - destruct Sh as (ts & s1 & O & R & _ & _). injection R as ->.
    pose proof (V _ _ _ (oks_visits _ _ _ _ _ O) M0) as M1.
    intros r u. cbn [im_types]. destruct (string_dec r (absolute ref)) as [->|D].
    + rewrite assoc_set_same. intros [= <-]. exists x. split; [exact Lx|].
      eapply (make_type_mirror rec (MInv l)); [exact Nm|exact St|exact M0|exact E].
    + rewrite assoc_set_other by auto. apply M1.
  - destruct Sh as (rs & Vs & _). apply (V _ _ _ Vs M0).
Qed.

Lemma built_mirror l s : built l s -> MInv l s.
Proof.
  intros [rs ->]. unfold requests.
  assert (H : forall s, MInv l s -> MInv l (fold_left (fun s r => fst (create (fst r) l s (snd r) true)) rs s)).
  { induction rs as [|[f r] rs IH]; intros s T; cbn [fold_left]; [exact T|].
    apply IH. destruct (create (fst (f, r)) l s (snd (f, r)) true) as [s' o] eqn:E.
    eapply create_mirror in E; [exact E|exact T]. }
  apply H. split; [apply tinv0|]. intros r t E. discriminate.
Qed.

(** ** What an element describes is unique *)

Scheme denotes_mut := Induction for denotes Sort Prop
  with denotes_part_mut := Induction for denotes_part Sort Prop
  with denotes_parts_mut := Induction for denotes_parts Sort Prop.

Lemma denotes_unique l r c : denotes l r c -> forall c', denotes l r c' -> c' = c.
Proof.
  intros D. induction D using denotes_mut with
    (P0 := fun x c _ => forall c', denotes_part l x c' -> c' = c)
    (P1 := fun xs cs _ => forall cs', denotes_parts l xs cs' -> cs' = cs); intros c' D';
  inversion D'; subst;
  repeat match goal with
  | H : ?a = Some _, H2 : ?a = Some _ |- _ => rewrite H in H2; injection H2; intros; subst; clear H2
  end; try congruence; try contradiction;
  try match goal with H : _ \/ _ |- _ => destruct H; congruence end;
  try match goal with H : In _ _ |- _ => now destruct H as [H|[H|[H|[H|[]]]]] end;
  try match goal with H : In _ _ |- _ => cbn in H; intuition discriminate end; eauto; f_equal; auto.
  f_equal; eauto.
Qed.

(** ** The meaning of the declarations *)

Section Meaning.
Context (l : lib) (s : imodel) (Inv : MInv l s) (Ap : c_names_apart s) (NoNone : assoc "/None" l = None).

Lemma refers_some o t : registered s (dref t) t -> refers_to o t -> exists q, o = Some q /\ dref t = absolute q.
Proof.
  intros R F. destruct o as [q|]; cbn in F; [eauto|]. exfalso.
  destruct (proj2 Inv _ _ R) as (x & A & _). rewrite F in A. congruence.
Qed.

(** What the generator has declared so far. *)
Definition Declared (ta : list dtype) (sc : c_scope) : Prop :=
  (forall t, In t ta -> registered s (dref t) t /\ ~ somebody_elses t /\
     exists c, denotes l (dref t) c /\ assoc (dname t) sc = Some c) /\
  (forall k c, assoc k sc = Some c -> (exists t, In t ta /\ k = dname t) \/ exists tag, k = struct_name ("Rte_struct_" ++ tag)).

Lemma foreign_denotes t : registered s (dref t) t -> somebody_elses t -> denotes l (dref t) (CName (dname t)).
Proof.
  intros R S. destruct (proj2 Inv _ _ R) as (x & A & M).
  destruct x as [n native|n [c|] props subs symbol emitter|n]; destruct t; cbn in M; try contradiction;
    cbn [dref dname] in *; cbn [somebody_elses] in S; try contradiction.
  - destruct M as (_ & -> & ->). eapply d_platform; eauto.
  - destruct M as (-> & _ & -> & _ & -> & _). eapply d_foreign; eauto. cbn; auto.
  - destruct M as (-> & _ & -> & _ & -> & _). eapply d_foreign; eauto. cbn; auto.
  - destruct M as (-> & _ & -> & _ & -> & _). eapply d_foreign; eauto. cbn; auto.
  - destruct M as (-> & _ & -> & _ & -> & _). eapply d_foreign; eauto. cbn; auto.
Qed.

Lemma lookup_type ta sc d :
  Declared ta sc -> registered s (dref d) d -> (~ somebody_elses d -> In d ta) ->
  exists c, denotes l (dref d) c /\ c_lookup sc (dname d) = c.
Proof.
  intros [D1 D2] R I. destruct (skipped d) eqn:K.
  - apply skipped_spec in K. exists (CName (dname d)). split; [now apply foreign_denotes|].
    unfold c_lookup. destruct (assoc (dname d) sc) as [c|] eqn:A; [exfalso|reflexivity].
    destruct (D2 _ _ A) as [(t & It & E)|(tag & E)].
    + destruct (D1 t It) as (Rt & NS & _). destruct Ap as (A1 & _).
      assert (t = d) by (eapply A1; eauto). subst d. contradiction.
    + destruct Ap as (_ & _ & A3 & _). exact (A3 _ _ tag R E).
  - apply skipped_false in K. destruct (D1 d (I K)) as (_ & _ & c & Dc & A). exists c. split; [exact Dc|].
    unfold c_lookup. now rewrite A.
Qed.

Lemma lookup_base ta sc b tg :
  Declared ta sc -> registered s (dref b) b -> native_or_name b = Ok tg -> denotes l (dref b) (CName tg) /\ c_lookup sc tg = CName tg.
Proof.
  intros D R E. destruct b as [r n native| | | | |]; try discriminate. cbn [dref] in *.
  assert (H : (native = None \/ native = Some "") /\ tg = n \/ native = Some tg /\ tg <> "").
  { destruct native as [na|]; cbn in E; [|injection E as <-; auto].
    destruct (String.eqb_spec na ""); injection E as <-; subst; auto. }
  destruct (proj2 Inv _ _ R) as (x & A & M). destruct x as [n0 na0|n0 [c|] ? ? ? ?|n0]; cbn in M; try contradiction.
  destruct M as (_ & -> & ->). destruct H as [[H ->]|[-> H]].
  - split; [eapply d_platform; eauto|].
    destruct (lookup_type ta sc (TBase r n0 na0) D R) as (c & Dc & L); [intros NS; elim NS; exact H|].
    cbn [dname] in L. rewrite L. eapply denotes_unique; [|exact Dc]. eapply d_platform; eauto.
  - split; [eapply d_base; eauto|]. destruct D as [D1 D2].
    unfold c_lookup. destruct (assoc tg sc) as [c|] eqn:As; [exfalso|reflexivity].
    destruct (D2 _ _ As) as [(t & It & Et)|(tag & Et)].
    + destruct (D1 t It) as (Rt & NS & _). destruct Ap as (_ & A2 & _). exact (A2 _ _ _ _ _ R Rt NS Et).
    + destruct Ap as (_ & _ & _ & A4). exact (A4 _ _ _ _ R Et).
Qed.

Lemma lookup_part ta sc r sized x e tg :
  Declared ta sc -> registered s (dref (elem_type e)) (elem_type e) ->
  (forall r n z i, e = ERef r n z i -> ~ somebody_elses i -> In i ta) ->
  mirrors_part r sized x e -> elem_target e = Ok tg ->
  exists c, denotes_part l x c /\ c_lookup sc tg = c.
Proof.
  intros D R I M E. destruct e as [r' n z b|r' n z i]; cbn in M, E, R.
  - destruct M as (C & (p & ps & P & F) & _). destruct (refers_some _ _ R F) as (q & Q & Dq).
    destruct (lookup_base ta sc b tg D R E) as [Db L]. exists (CName tg). split; [|exact L].
    rewrite Dq in Db. eapply d_part_value; eauto.
  - destruct M as (C & (p & ps & P & F) & _). destruct (refers_some _ _ R F) as (q & Q & Dq).
    injection E as <-. destruct (lookup_type ta sc i D R) as (c & Dc & L); [eapply I; eauto|].
    exists c. split; [|exact L]. rewrite Dq in Dc. eapply d_part_reference; eauto.
Qed.

Lemma lookup_parts ta sc r xs es ms :
  Declared ta sc ->
  (forall e, In e es -> registered s (dref (elem_type e)) (elem_type e) /\
     forall r n z i, e = ERef r n z i -> ~ somebody_elses i -> In i ta) ->
  Forall2 (mirrors_part r false) xs es ->
  mapM (fun e => let* tg := elem_target e in Ok (match e with EScalar _ m _ _ | ERef _ m _ _ => m end, tg)) es = Ok ms ->
  denotes_parts l xs (map (fun m => (fst m, c_lookup sc (snd m))) ms).
Proof.
  intros D H F. revert ms. induction F as [|x e xs es M F IH]; intros ms E; cbn [mapM] in E.
  - injection E as <-. constructor.
  - destruct (elem_target e) as [tg|] eqn:Et; [|discriminate]. cbn [bind] in E.
    match type of E with context [mapM ?f es] => destruct (mapM f es) as [ms'|] eqn:Em end; [|discriminate].
    cbn in E. injection E as <-. cbn [map fst snd].
    destruct (H e (or_introl eq_refl)) as [Re Ie].
    destruct (lookup_part _ _ _ _ _ _ _ D Re Ie M Et) as (c & Dc & L). rewrite L.
    assert (Nm : match e with EScalar _ m _ _ | ERef _ m _ _ => m end = xs_name x).
    { destruct e; cbn in M; apply M. }
    rewrite Nm. constructor; [exact Dc|]. apply IH; auto. intros e' I. apply H. now right.
Qed.

Lemma not_foreign t em :
  ~ somebody_elses t -> match t with TScalar _ _ _ e _ | TArray _ _ _ e _ | TRecord _ _ _ e _ => e = em | _ => False end ->
  ~ foreign em.
Proof. destruct t; cbn; try contradiction; intros NS ->; exact NS. Qed.

Lemma declared_add ta sc t c extra :
  Declared ta sc -> registered s (dref t) t -> ~ somebody_elses t -> denotes l (dref t) c ->
  (forall k v, assoc k extra = Some v -> exists tag, k = struct_name ("Rte_struct_" ++ tag)) ->
  Declared (ta ++ [t]) ((dname t, c) :: extra ++ sc).
Proof.
  intros [D1 D2] R NS Dc Ex. split.
  - intros u I. assert (Hu : registered s (dref u) u /\ ~ somebody_elses u /\ (u = t \/ In u ta)).
    { apply in_app_or in I as [I|[<-|[]]]; [destruct (D1 u I) as (A & B & _)|]; auto. }
    destruct Hu as (Ru & NSu & Hu). split; [exact Ru|]. split; [exact NSu|].
    cbn [assoc]. destruct (String.eqb_spec (dname u) (dname t)) as [E|E].
    + destruct Ap as (A1 & _). assert (u = t) by (eapply A1; eauto). subst u. eauto.
    + destruct Hu as [->|Hu]; [now elim E|]. destruct (D1 u Hu) as (_ & _ & c' & Dc' & As).
      exists c'. split; [exact Dc'|]. rewrite assoc_app.
      destruct (assoc (dname u) extra) as [v|] eqn:Ae; [exfalso|exact As].
      destruct (Ex _ _ Ae) as (tag & Et). destruct Ap as (_ & _ & A3 & _). exact (A3 _ _ _ Ru Et).
  - intros k v. cbn [assoc]. destruct (String.eqb_spec k (dname t)) as [->|E].
    + intros _. left. exists t. split; [apply in_or_app; right; now left|reflexivity].
    + rewrite assoc_app. destruct (assoc k extra) as [v'|] eqn:Ae.
      * intros _. right. eauto.
      * intros A. destruct (D2 _ _ A) as [(u & I & ->)|H]; [left|right; exact H].
        exists u. split; [apply in_or_app; now left|reflexivity].
Qed.

Lemma declared_step ta sc t ds :
  Declared ta sc -> registered s (dref t) t -> ~ somebody_elses t ->
  (forall d, needs t d -> ~ somebody_elses d -> In d ta) -> gen_def t = Ok ds ->
  Declared (ta ++ [t]) (fold_left c_declare ds sc).
Proof.
  intros D R NS I G. destruct (proj1 Inv _ _ R) as (_ & Bf & _). destruct (proj2 Inv _ _ R) as (x & A & M).
  destruct t as [r n native|r n y em b|r n y i|r n y em e|r n y em es|r n y em d]; cbn [gen_def] in G;
    cbn [dref] in *; destruct x as [n0 na0|n0 [c0|] props subs symbol emitter|n0]; cbn [mirrors] in M; try contradiction.
  - injection G as <-. destruct M as (_ & -> & ->). cbn [fold_left c_declare str_opt].
    destruct na0 as [na|]; [|elim NS; cbn; auto]. cbn [str_opt].
    assert (Ne : na <> "") by (intros ->; apply NS; cbn; auto).
    destruct (lookup_base ta sc (TBase r n0 (Some na)) na D R) as [Db L].
    { cbn. apply String.eqb_neq in Ne. now rewrite Ne. }
    rewrite L. apply (declared_add ta sc (TBase r n0 (Some na)) (CName na) []); auto. discriminate.
  - injection G as <-. destruct M as (-> & _ & -> & _ & -> & (p & ps & -> & F)). cbn [fold_left c_declare].
    assert (Rb : registered s (dref b) b) by (apply Bf; constructor; constructor).
    destruct (refers_some _ _ Rb F) as (q & Q & Dq).
    destruct (lookup_type ta sc b D Rb) as (c & Dc & L); [apply I; constructor|]. rewrite L.
    apply (declared_add ta sc (TScalar r n0 y emitter b) c []); auto; [|discriminate].
    rewrite Dq in Dc. cbn [dref]. eapply d_value; eauto.
  - injection G as <-. destruct M as (-> & _ & -> & _ & (p & ps & -> & F)). cbn [fold_left c_declare].
    assert (Rb : registered s (dref i) i) by (apply Bf; constructor; constructor).
    destruct (refers_some _ _ Rb F) as (q & Q & Dq).
    destruct (lookup_type ta sc i D Rb) as (c & Dc & L); [apply I; constructor|]. rewrite L.
    apply (declared_add ta sc (TRef r n0 y i) c []); auto; [|discriminate].
    rewrite Dq in Dc. cbn [dref]. eapply d_reference; eauto.
  - destruct M as (-> & _ & -> & _ & -> & (x & -> & Me & Z & _)).
    destruct (elem_target e) as [tg|] eqn:Et; [|discriminate]. cbn in G. injection G as <-. cbn [fold_left c_declare].
    assert (Re : registered s (dref (elem_type e)) (elem_type e)).
    { apply Bf. destruct e; cbn; [apply bf_array|apply bf_needs, needs_array]. }
    destruct (lookup_part ta sc r true x e tg D Re) as (c & Dc & L); [|exact Me|exact Et|].
    { intros r' n' z i -> Ni. apply I; [constructor|exact Ni]. }
    rewrite L. destruct (xs_size x) as [z|] eqn:Zx; [|contradiction].
    assert (Sz : match e with EScalar _ _ (Some z) _ | ERef _ _ (Some z) _ => z | _ => 0%Z end = z).
    { destruct e; cbn in Me; destruct Me as (_ & _ & _ & _ & ->); now rewrite Zx. }
    rewrite Sz. apply (declared_add ta sc (TArray r n0 y emitter e) (CArray z c) []); auto; [|discriminate].
    cbn [dref]. eapply d_array; eauto.
  - destruct M as (-> & _ & -> & _ & -> & F).
    match type of G with context [mapM ?f es] => destruct (mapM f es) as [ms|] eqn:Em end; [|discriminate].
    cbn [bind] in G.
    assert (Gd : ds = [CStruct ("Rte_struct_" ++ n0) ms; CTypedefStruct n0 ("Rte_struct_" ++ n0)]) by congruence.
    subst ds. cbn [fold_left c_declare].
    set (rc := CRecord ("Rte_struct_" ++ n0) (map (fun m => (fst m, c_lookup sc (snd m))) ms)).
    assert (L : c_lookup ((struct_name ("Rte_struct_" ++ n0), rc) :: sc) (struct_name ("Rte_struct_" ++ n0)) = rc).
    { unfold c_lookup. cbn [assoc]. now rewrite String.eqb_refl. }
    rewrite L.
    apply (declared_add ta sc (TRecord r n0 y emitter es) rc [(struct_name ("Rte_struct_" ++ n0), rc)]); auto.
    + cbn [dref]. eapply d_structure; eauto. eapply lookup_parts; eauto.
      intros e Ie. split.
      * apply Bf. destruct e; cbn; [eapply bf_record; eauto|apply bf_needs; econstructor; eauto].
      * intros r' n' z i -> Ni. apply I; [econstructor; eauto|exact Ni].
    + intros k v. cbn [assoc]. destruct (String.eqb_spec k (struct_name ("Rte_struct_" ++ n0))) as [->|]; [eauto|discriminate].
  - discriminate.
Qed.

Lemma gen_defs_meaning ts ds :
  gen_order s = Ok ts -> gen_defs s = Ok ds -> Declared ts (c_scope_of ds).
Proof.
  intros Go G. unfold gen_defs in G. rewrite Go in G. cbn [bind] in G.
  destruct (mapM gen_def ts) as [dss|] eqn:M; [|discriminate]. cbn in G. injection G as <-.
  destruct (gen_order_spec _ _ _ (proj1 Inv) Go) as (_ & Cov & Ord). apply mapM_spec in M.
  assert (H : forall tb dsb, Forall2 (fun a b => gen_def a = Ok b) tb dsb -> forall ta sc, ts = ta ++ tb -> Declared ta sc ->
    Declared ts (fold_left c_declare (List.concat dsb) sc)).
  { intros tb dsb F. induction F as [|t d tb dsb Gt F IH]; intros ta sc E D; cbn [List.concat fold_left].
    - rewrite app_nil_r in E. now subst ts.
    - rewrite fold_left_app. apply (IH (ta ++ [t])); [rewrite <- app_assoc; exact E|].
      assert (It : In t ts) by (rewrite E; apply in_or_app; right; now left).
      apply Cov in It as (NS & r & root & Ir & Rg & Rq).
      apply declared_step; auto.
      + destruct (proj1 Inv _ _ Rg) as (Dr & _). eapply requires_registered; eauto; [apply Inv|]. now rewrite Dr.
      + intros d' Nd NSd. exact (Ord ta t tb E d' Nd NSd). }
  apply (H ts dss M [] []); [reflexivity|]. split; [intros t []|discriminate].
Qed.
End Meaning.

(** ** Names are declared once *)

Definition decl_names (t : dtype) : list string :=
  match t with TRecord _ n _ _ _ => [struct_name ("Rte_struct_" ++ n); n] | _ => [dname t] end.

Lemma gen_def_names t ds : gen_def t = Ok ds -> flat_map declares ds = decl_names t.
Proof.
  destruct t as [r n na|r n y em b|r n y i|r n y em e|r n y em es|r n y em d]; cbn [gen_def].
  - intros [= <-]. reflexivity.
  - intros [= <-]. reflexivity.
  - intros [= <-]. reflexivity.
  - destruct (elem_target e); [|discriminate]. cbn. intros [= <-]. reflexivity.
  - match goal with |- context [mapM ?f es] => destruct (mapM f es) as [ms|] end; [|discriminate].
    cbn [bind]. intros G.
    assert (Gd : ds = [CStruct ("Rte_struct_" ++ n) ms; CTypedefStruct n ("Rte_struct_" ++ n)]) by congruence.
    now subst ds.
  - discriminate.
Qed.

Lemma gen_defs_names s ts ds : gen_order s = Ok ts -> gen_defs s = Ok ds -> flat_map declares ds = flat_map decl_names ts.
Proof.
  intros Go G. unfold gen_defs in G. rewrite Go in G. cbn [bind] in G.
  destruct (mapM gen_def ts) as [dss|] eqn:M; [|discriminate]. cbn in G. injection G as <-.
  apply mapM_spec in M. clear Go. induction M as [|t d ts dss E _ IH]; cbn; [reflexivity|].
  rewrite flat_map_app, IH. now rewrite (gen_def_names _ _ E).
Qed.

Lemma append_inj p a b : (p ++ a = p ++ b)%string -> a = b.
Proof. induction p; cbn; [auto|]. intros [= E]. auto. Qed.

Lemma decl_names_spec k t : In k (decl_names t) <-> k = dname t \/ (exists r n y em es, t = TRecord r n y em es) /\ k = struct_name ("Rte_struct_" ++ dname t).
Proof.
  destruct t; unfold decl_names, dname; split; intros H;
    try (destruct H as [<-|[]]; now left);
    try (destruct H as [->|[(? & ? & ? & ? & ? & E) _]]; [now left|discriminate]).
  - destruct H as [<-|[<-|[]]]; [right|left; reflexivity]. split; [do 5 eexists; reflexivity|reflexivity].
  - destruct H as [->|[_ ->]]; [right; now left|now left].
Qed.

Lemma declared_once l s ts ds :
  MInv l s -> c_names_apart s -> gen_order s = Ok ts -> gen_defs s = Ok ds -> NoDup (flat_map declares ds).
Proof.
  intros Inv Ap Go G. rewrite (gen_defs_names _ _ _ Go G).
  destruct (gen_order_spec _ _ _ (proj1 Inv) Go) as (ND & Cov & _).
  assert (Rg : forall t, In t ts -> registered s (dref t) t /\ ~ somebody_elses t).
  { intros t I. apply Cov in I as (NS & r & root & Ir & R & Rq). split; [|exact NS].
    destruct (proj1 Inv _ _ R) as (Dr & _). eapply requires_registered; eauto; [apply Inv|]. now rewrite Dr. }
  destruct Ap as (A1 & _ & A3 & _). clear Go G Cov.
  induction ts as [|t ts IH]; cbn [flat_map]; [constructor|]. inversion ND as [|? ? Ni ND']; subst.
  assert (IH' : NoDup (flat_map decl_names ts)) by (apply IH; auto; intros u I; apply Rg; now right).
  destruct (Rg t (or_introl eq_refl)) as [Rt NSt].
  assert (Apart : forall k, In k (decl_names t) -> ~ In k (flat_map decl_names ts)).
  { intros k Ik I. apply in_flat_map in I as (u & Iu & Ku). destruct (Rg u (or_intror Iu)) as [Ru NSu].
    assert (Ne : dname t <> dname u).
    { intros E. assert (t = u) by (eapply A1; eauto). subst u. apply Ni. now apply in_map. }
    apply decl_names_spec in Ik as [->|[_ ->]]; apply decl_names_spec in Ku as [E|[_ E]].
    - contradiction.
    - exact (A3 _ _ _ Rt E).
    - exact (A3 _ _ _ Ru (eq_sym E)).
    - apply Ne. unfold struct_name in E. now apply append_inj, append_inj in E. }
  assert (Own : NoDup (decl_names t)).
  { destruct t; unfold decl_names; try solve [constructor; [intros []|constructor]].
    constructor; [|constructor; [intros []|constructor]]. intros [E|[]]. exact (A3 _ _ _ Rt E). }
  clear -Own Apart IH'. induction Own as [|k ks Nk Own IHk]; cbn [app]; [exact IH'|].
  constructor.
  - intros I. apply in_app_or in I as [I|I]; [contradiction|]. exact (Apart k (or_introl eq_refl) I).
  - apply IHk. intros k' I. apply Apart. now right.
Qed.

(** ** When there is a header *)

Lemma native_total b : (exists u, native_or_name b = Ok u) <-> exists r n na, b = TBase r n na.
Proof.
  split; [|intros (r & n & na & ->); cbn; destruct na as [na|]; [destruct (String.eqb na "")|]; eauto].
  destruct b; cbn; intros [u E]; try discriminate. eauto.
Qed.

Lemma gen_def_total t :
  (exists ds, gen_def t = Ok ds) <-> parts_are_base t /\ match t with TPtr _ _ _ _ _ => False | _ => True end.
Proof.
  unfold parts_are_base.
  destruct t as [r n na|r n y em b|r n y i|r n y em e|r n y em es|r n y em d]; cbn [gen_def].
  - split; [intros _|eauto]. split; [|trivial]. intros r' n' z b [(?&?&?&?&E)|(?&?&?&?&?&E&_)]; discriminate.
  - split; [intros _|eauto]. split; [|trivial]. intros r' n' z b' [(?&?&?&?&E)|(?&?&?&?&?&E&_)]; discriminate.
  - split; [intros _|eauto]. split; [|trivial]. intros r' n' z b' [(?&?&?&?&E)|(?&?&?&?&?&E&_)]; discriminate.
  - destruct e as [r' n' z b|r' n' z i]; cbn [elem_target].
    + split.
      * intros [ds G]. split; [|trivial]. destruct (native_or_name b) as [u|] eqn:E; [|discriminate].
        intros r0 n0 z0 b0 [(?&?&?&?&X)|(?&?&?&?&?&X&_)]; [|discriminate]. injection X as _ _ _ _ _ _ _ <-.
        apply native_total. eauto.
      * intros [H _]. destruct (proj2 (native_total b)) as [u ->]; [|cbn; eauto].
        eapply (H r' n' z b). left. eauto.
    + split; [intros _|cbn; eauto]. split; [|trivial]. intros r0 n0 z0 b0 [(?&?&?&?&X)|(?&?&?&?&?&X&_)]; discriminate.
  - match goal with |- context [mapM ?f es] => set (F := f) end.
    assert (Fo : forall e, (exists m, F e = Ok m) <-> forall r n z b, e = EScalar r n z b -> exists r n na, b = TBase r n na).
    { intros e. unfold F. destruct e as [r' n' z b|r' n' z i]; cbn [elem_target].
      - split.
        + intros [m E] ? ? ? ? X. injection X as <- <- <- <-. apply native_total.
          destruct (native_or_name b); [eauto|discriminate].
        + intros H. destruct (proj2 (native_total b)) as [u ->]; [eauto|cbn; eauto].
      - split; [intros _ ? ? ? ? X; discriminate|cbn; eauto]. }
    split.
    + intros [ds G]. split; [|trivial]. destruct (mapM F es) as [ms|] eqn:M; [|discriminate].
      intros r0 n0 z0 b0 [(?&?&?&?&X)|(?&?&?&?&?&X&I)]; [discriminate|]. injection X as <- <- <- <- <-.
      apply mapM_spec in M. assert (E : exists m, F (EScalar r0 n0 z0 b0) = Ok m).
      { clear -M I. induction M as [|e m es ms E _ IH]; [destruct I|]. destruct I as [->|I]; eauto. }
      apply (proj1 (Fo _) E _ _ _ _ eq_refl).
    + intros [H _]. destruct (mapM_total F es) as [ms M].
      { intros e I. apply Fo. intros r0 n0 z0 b0 ->. apply (H r0 n0 z0 b0). right. do 5 eexists. eauto. }
      rewrite M. cbn. eauto.
  - split; [intros [ds G]; discriminate|intros [_ []]].
Qed.

Lemma gen_defs_total s ts : gen_order s = Ok ts ->
  ((exists ds, gen_defs s = Ok ds) <-> forall t, In t ts -> parts_are_base t /\ match t with TPtr _ _ _ _ _ => False | _ => True end).
Proof.
  intros Go. unfold gen_defs. rewrite Go. cbn [bind]. split.
  - intros [ds G] t I. apply gen_def_total. destruct (mapM gen_def ts) as [dss|] eqn:M; [|discriminate].
    apply mapM_spec in M. clear -M I. induction M as [|e m es ms E _ IH]; [destruct I|]. destruct I as [->|I]; eauto.
  - intros H. destruct (mapM_total gen_def ts) as [dss M]; [intros t I; apply gen_def_total; auto|].
    rewrite M. cbn. eauto.
Qed.

(** ** The preprocessor *)

Lemma preprocess_decls ms on ds rest :
  preprocess ms on (map HDecl ds ++ rest) =
  if forallb (fun b => b) on
  then option_map (fun x => (fst x, map CodeDecl ds ++ snd x)) (preprocess ms on rest)
  else preprocess ms on rest.
Proof.
  induction ds as [|d ds IH]; cbn [map app preprocess].
  - destruct (forallb (fun b => b) on); [|reflexivity]. destruct (preprocess ms on rest) as [[m c]|]; reflexivity.
  - rewrite IH. destruct (forallb (fun b => b) on); [|reflexivity].
    destruct (preprocess ms on rest) as [[m c]|]; reflexivity.
Qed.

Lemma preprocess_header ms ds :
  preprocess ms [] (header_start ++ map HDecl ds ++ header_end) =
  if existsb (String.eqb include_guard) ms then Some (ms, [])
  else Some (include_guard :: ms,
             if existsb (String.eqb "__cplusplus") ms
             then CodeInclude "Rte.h" :: map CodeDecl ds
             else CodeText extern_c :: CodeText "{" :: CodeInclude "Rte.h" :: map CodeDecl ds ++ [CodeText "}"]).
Proof.
  unfold header_start, header_end. cbn [app preprocess].
  destruct (existsb (String.eqb include_guard) ms) eqn:G; cbn [negb forallb andb existsb].
  - rewrite preprocess_decls. cbn. rewrite andb_false_r. reflexivity.
  - change (String.eqb "__cplusplus" include_guard) with false. cbn [orb].
    destruct (existsb (String.eqb "__cplusplus") ms) eqn:P; cbn [negb forallb andb app preprocess];
      rewrite preprocess_decls; cbn [negb forallb andb app preprocess existsb];
      change (String.eqb "__cplusplus" include_guard) with false; cbn [orb]; rewrite P; cbn; now rewrite ?app_nil_r.
Qed.

Lemma declarations_map ds rest : declarations (map CodeDecl ds ++ rest) = ds ++ declarations rest.
Proof. induction ds; cbn; [reflexivity|]. f_equal. exact IHds. Qed.
Lemma texts_map ds rest : texts (map CodeDecl ds ++ rest) = texts rest.
Proof. induction ds; cbn; auto. Qed.
