(** Proofs about the implementation model and the type generator. *)
From Coq Require Import Permutation.
From Verif Require Import Base PBase MTypes STypes.

(** ** Induction on types *)

Definition elem_type (e : delem) : dtype := match e with EScalar _ _ _ b => b | ERef _ _ _ i => i end.

Lemma dtype_ind2 (P : dtype -> Prop) :
  (forall r n na, P (TBase r n na)) ->
  (forall r n y em b, P b -> P (TScalar r n y em b)) ->
  (forall r n y i, P i -> P (TRef r n y i)) ->
  (forall r n y em e, P (elem_type e) -> P (TArray r n y em e)) ->
  (forall r n y em es, (forall e, In e es -> P (elem_type e)) -> P (TRecord r n y em es)) ->
  (forall r n y em d, P d -> P (TPtr r n y em d)) ->
  forall t, P t.
Proof.
  intros H1 H2 H3 H4 H5 H6. fix IH 1. intros [r n na|r n y em b|r n y i|r n y em e|r n y em es|r n y em d].
  - apply H1.
  - apply H2, IH.
  - apply H3, IH.
  - apply H4. destruct e; cbn; apply IH.
  - apply H5. induction es as [|e es IHes]; intros e' I; [destruct I|].
    destruct I as [<-|I]; [|exact (IHes e' I)]. destruct e; cbn; apply IH.
  - apply H6, IH.
Qed.

Lemma needs_record_inv r n y em es d :
  needs (TRecord r n y em es) d -> exists r' n' z, In (ERef r' n' z d) es.
Proof. inversion 1; subst; eauto. Qed.

Lemma built_record_inv r n y em es d :
  built_from (TRecord r n y em es) d -> exists e, In e es /\ elem_type e = d.
Proof.
  intros B. inversion B as [t' d' N| |r0 n0 y0 em0 es0 r1 n1 z1 b1 I|]; subst.
  - apply needs_record_inv in N as (r' & n' & z & I). exists (ERef r' n' z d). auto.
  - exists (EScalar r1 n1 z1 d). auto.
Qed.

Lemma built_base_inv r n na d : built_from (TBase r n na) d -> False.
Proof. intros B. inversion B as [t' d' N| | |]; subst. inversion N. Qed.
Lemma built_scalar_inv r n y em b d : built_from (TScalar r n y em b) d -> d = b.
Proof. intros B. inversion B as [t' d' N| | |]; subst. now inversion N. Qed.
Lemma built_ref_inv r n y i d : built_from (TRef r n y i) d -> d = i.
Proof. intros B. inversion B as [t' d' N| | |]; subst. now inversion N. Qed.
Lemma built_array_inv r n y em e d : built_from (TArray r n y em e) d -> d = elem_type e.
Proof. intros B. inversion B as [t' d' N| | |]; subst; [now inversion N|auto]. Qed.
Lemma built_ptr_inv r n y em t d : built_from (TPtr r n y em t) d -> d = t.
Proof. intros B. inversion B as [t' d' N| | |]; subst; [now inversion N|auto]. Qed.

(** ** Trees *)

Fixpoint kid_trees (es : list delem) : result (list node) :=
  match es with
  | [] => Ok []
  | EScalar _ _ _ _ :: r => kid_trees r
  | ERef _ _ _ i :: r => let* c := tree i in let* cs := kid_trees r in Ok (c :: cs)
  end.

Lemma tree_record r n y em es :
  tree (TRecord r n y em es) = let* cs := kid_trees es in Ok (Node (TRecord r n y em es) cs).
Proof. reflexivity. Qed.

Lemma kid_trees_spec es cs :
  kid_trees es = Ok cs ->
  (forall k, In k cs -> exists r n z i, In (ERef r n z i) es /\ tree i = Ok k) /\
  (forall r n z i, In (ERef r n z i) es -> exists k, In k cs /\ tree i = Ok k).
Proof.
  revert cs; induction es as [|[r' n' z' b|r' n' z' i'] es IH]; intros cs E; cbn in E.
  - injection E as <-. split; intros; contradiction.
  - destruct (IH cs E) as [A B]. split.
    + intros k I. destruct (A k I) as (r & n & z & i & I' & T). exists r, n, z, i. split; [now right|auto].
    + intros r n z i [X|I]; [discriminate|eauto].
  - destruct (tree i') as [c|] eqn:T; [|discriminate].
    destruct (kid_trees es) as [cs'|] eqn:K; [|discriminate]. cbn in E. injection E as <-.
    destruct (IH cs' eq_refl) as [A B]. split.
    + intros k [<-|I].
      * exists r', n', z', i'. split; [now left|auto].
      * destruct (A k I) as (r & n & z & i & I' & T'). exists r, n, z, i. split; [now right|auto].
    + intros r n z i [X|I].
      * injection X as <- <- <- <-. exists c. split; [now left|auto].
      * destruct (B r n z i I) as (k & I' & T'). exists k. split; [now right|auto].
Qed.

(** A tree's root is the type; its children are the trees of the types the declaration names. *)
Lemma tree_spec t n :
  tree t = Ok n ->
  ndata n = t /\
  (forall k, In k (nkids n) -> needs t (ndata k) /\ tree (ndata k) = Ok k) /\
  (forall d, needs t d -> exists k, In k (nkids n) /\ ndata k = d).
Proof.
  assert (D : forall t n, tree t = Ok n -> ndata n = t).
  { intros u m. destruct u as [r x na|r x y em b|r x y i|r x y em e|r x y em es|r x y em d];
      [| | | |rewrite tree_record|]; cbn.
    - now intros [= <-].
    - destruct (tree b); [|discriminate]. now intros [= <-].
    - destruct (tree i); [|discriminate]. now intros [= <-].
    - destruct e as [? ? ? b|? ? ? i]; [now intros [= <-]|].
      destruct (tree i); [|discriminate]. now intros [= <-].
    - destruct (kid_trees es); [|discriminate]. now intros [= <-].
    - discriminate. }
  intros T. split; [auto|].
  destruct t as [r x na|r x y em b|r x y i|r x y em e|r x y em es|r x y em d].
  - injection T as <-. split; [intros k []|]. intros d N; inversion N.
  - cbn in T. destruct (tree b) as [c|] eqn:E; [|discriminate]. injection T as <-. cbn. split.
    + intros k [<-|[]]. rewrite (D b c E). split; [constructor|auto].
    + intros d N. inversion N; subst. exists c. split; [now left|auto].
  - cbn in T. destruct (tree i) as [c|] eqn:E; [|discriminate]. injection T as <-. cbn. split.
    + intros k [<-|[]]. rewrite (D i c E). split; [constructor|auto].
    + intros d N. inversion N; subst. exists c. split; [now left|auto].
  - cbn in T. destruct e as [r' n' z' b|r' n' z' i].
    + injection T as <-. split; [intros k []|]. intros d N; inversion N.
    + destruct (tree i) as [c|] eqn:E; [|discriminate]. injection T as <-. cbn. split.
      * intros k [<-|[]]. rewrite (D i c E). split; [constructor|auto].
      * intros d N. inversion N; subst. exists c. split; [now left|auto].
  - rewrite tree_record in T. destruct (kid_trees es) as [cs|] eqn:E; [|discriminate].
    cbn in T. injection T as <-. cbn. destruct (kid_trees_spec es cs E) as [A B]. split.
    + intros k I. destruct (A k I) as (r' & n' & z & i & I' & T'). rewrite (D i k T').
      split; [econstructor; eauto|auto].
    + intros d N. apply needs_record_inv in N as (r' & n' & z & N).
      destruct (B _ _ _ _ N) as (k & I & T'). eauto.
  - discriminate.
Qed.

Definition pointer_free (t : dtype) : Prop :=
  forall d, requires t d -> match d with TPtr _ _ _ _ _ => False | _ => True end.

Lemma pointer_free_step t d : pointer_free t -> needs t d -> pointer_free d.
Proof. intros P N u R. apply P. econstructor; eauto. Qed.

(** The tree exists exactly when no pointer type is required. *)
Lemma tree_total t : (exists n, tree t = Ok n) <-> pointer_free t.
Proof.
  split.
  - intros (n & T) d R. revert n T. induction R as [t|t d u N R IH]; intros n T.
    + destruct t; auto. discriminate.
    + destruct (tree_spec t n T) as (_ & A & B). destruct (B d N) as (k & I & <-).
      destruct (A k I) as [_ T']. exact (IH k T').
  - induction t as [r x na|r x y em b IH|r x y i IH|r x y em e IH|r x y em es IH|r x y em d IH] using dtype_ind2;
      intros P.
    + cbn. eauto.
    + destruct IH as (c & T); [eapply pointer_free_step; eauto; constructor|]. cbn. rewrite T. cbn. eauto.
    + destruct IH as (c & T); [eapply pointer_free_step; eauto; constructor|]. cbn. rewrite T. cbn. eauto.
    + cbn. destruct e as [r' n' z' b|r' n' z' i]; [eauto|].
      destruct IH as (c & T); [eapply pointer_free_step; eauto; constructor|]. cbn in T. rewrite T. cbn. eauto.
    + rewrite tree_record.
      assert (K : exists cs, kid_trees es = Ok cs).
      { assert (Q : forall r' n' z i, In (ERef r' n' z i) es -> exists c, tree i = Ok c).
        { intros r' n' z i I. apply (IH _ I). eapply pointer_free_step; eauto. econstructor; eauto. }
        clear IH P. induction es as [|[r' n' z b|r' n' z i] es IHes]; cbn; [eauto| |].
        - apply IHes. intros r2 n2 z2 i2 I. apply (Q r2 n2 z2 i2). now right.
        - destruct (Q r' n' z i (or_introl eq_refl)) as (c & ->). cbn.
          destruct IHes as (cs & ->); [|cbn; eauto].
          intros r2 n2 z2 i2 I. apply (Q r2 n2 z2 i2). now right. }
      destruct K as (cs & ->). cbn. eauto.
    + exfalso. exact (P _ (req_self _)).
Qed.

(** ** Level order *)

Fixpoint sizes (l : list node) : nat := match l with [] => 0 | x :: r => size x + sizes r end.

Lemma size_eq n : size n = S (sizes (nkids n)).
Proof. destruct n as [d ch]. cbn. f_equal. Qed.

Lemma sizes_app a b : sizes (a ++ b) = sizes a + sizes b.
Proof. induction a as [|x a IH]; cbn; lia. Qed.

Lemma sizes_rev l : sizes (rev l) = sizes l.
Proof. induction l as [|x l IH]; cbn; [auto|]. rewrite sizes_app, IH. cbn. lia. Qed.

Lemma bfs_step f n q : bfs (S f) (n :: q) = n :: bfs f (q ++ rev (nkids n)).
Proof. reflexivity. Qed.

Lemma sizes_step n q f : sizes (n :: q) <= S f -> sizes (q ++ rev (nkids n)) <= f.
Proof. cbn. rewrite size_eq, sizes_app, sizes_rev. lia. Qed.

Lemma bfs_queue f q x : sizes q <= f -> In x q -> In x (bfs f q).
Proof.
  revert q; induction f as [|f IH]; intros q L I.
  - destruct q as [|n q]; [destruct I|]. cbn in L. rewrite size_eq in L. lia.
  - destruct q as [|n q]; [destruct I|]. rewrite bfs_step. destruct I as [->|I]; [now left|right].
    apply IH; [now apply sizes_step|]. apply in_or_app. now left.
Qed.

Lemma bfs_kids_later f q a n b :
  sizes q <= f -> bfs f q = a ++ n :: b -> forall k, In k (nkids n) -> In k b.
Proof.
  revert q a; induction f as [|f IH]; intros q a L E k I; [destruct a; discriminate|].
  destruct q as [|m q]; [destruct a; discriminate|]. rewrite bfs_step in E.
  destruct a as [|x a]; cbn in E; injection E as <- E.
  - rewrite <- E. apply bfs_queue; [now apply sizes_step|]. apply in_or_app. right. now apply -> in_rev.
  - eapply IH; [|exact E|exact I]. now apply sizes_step.
Qed.

(** The nodes of the output satisfy any property that the queue has and children inherit. *)
Lemma bfs_all (P : node -> Prop) f q :
  (forall n k, P n -> In k (nkids n) -> P k) -> (forall n, In n q -> P n) ->
  forall n, In n (bfs f q) -> P n.
Proof.
  intros H. revert q; induction f as [|f IH]; intros q Q n I; [destruct I|].
  destruct q as [|m q]; [destruct I|]. rewrite bfs_step in I. destruct I as [<-|I]; [apply Q; now left|].
  eapply IH; [|exact I]. intros x J. apply in_app_iff in J as [J|J]; [apply Q; now right|].
  apply in_rev in J. eapply H; [apply Q; now left|exact J].
Qed.

(** C10, for one tree. *)
Lemma creation_order_spec t n :
  tree t = Ok n ->
  let l := map ndata (creation_order n) in
  (forall d, In d l <-> requires t d) /\
  (forall a x b, l = a ++ x :: b -> forall d, needs x d -> In d a).
Proof.
  intros T. cbv zeta. unfold creation_order. rewrite map_rev.
  assert (L : sizes [n] <= size n) by (cbn; lia).
  set (o := bfs (size n) [n]) in *.
  assert (G : forall m, In m o -> tree (ndata m) = Ok m).
  { apply bfs_all.
    - intros m k Tm I. destruct (tree_spec _ _ Tm) as (_ & A & _). now apply A.
    - intros m [<-|[]]. destruct (tree_spec _ _ T) as (-> & _). auto. }
  assert (Ord : forall a x b, map ndata o = a ++ x :: b -> forall d, needs x d -> In d b).
  { intros a x b E d N. apply map_eq_app in E as (a' & xb & Eo & <- & E2).
    destruct xb as [|m b']; [discriminate|]. cbn in E2. injection E2 as <- <-.
    assert (Tm : tree (ndata m) = Ok m) by (apply G; rewrite Eo; apply in_or_app; right; now left).
    destruct (tree_spec _ _ Tm) as (_ & _ & B). destruct (B d N) as (k & I & <-).
    apply in_map. eapply bfs_kids_later; [exact L|exact Eo|exact I]. }
  split.
  - intros d. rewrite <- in_rev. split.
    + intros I. apply in_map_iff in I as (m & <- & I).
      revert m I. apply (bfs_all (fun m => tree (ndata m) = Ok m /\ requires t (ndata m))).
      * intros m k [Tm R] I. destruct (tree_spec _ _ Tm) as (_ & A & _). destruct (A k I) as [N Tk].
        split; auto. clear -R N. induction R; econstructor; eauto. constructor.
      * intros m [<-|[]]. destruct (tree_spec _ _ T) as (-> & _). split; [auto|constructor].
    + intros R.
      assert (I0 : In t (map ndata o)).
      { destruct (tree_spec _ _ T) as (<- & _). apply in_map. apply bfs_queue; [exact L|now left]. }
      clear T. induction R as [t|t d u N R IH]; [auto|]. apply IH.
      apply in_split in I0 as (a & b & E). specialize (Ord a t b E d N).
      rewrite E. apply in_or_app. right. now right.
  - intros a x b E d N.
    assert (E' : map ndata o = rev b ++ x :: rev a).
    { rewrite <- (rev_involutive (map ndata o)), E, rev_app_distr. cbn. now rewrite <- app_assoc. }
    apply in_rev. eapply Ord; eauto.
Qed.

(** ** Selection *)

Lemma existsb_in x l : existsb (String.eqb x) l = true <-> In x l.
Proof.
  rewrite existsb_exists. split.
  - intros (y & I & E). apply String.eqb_eq in E. now subst.
  - intros I. exists x. split; auto. apply String.eqb_refl.
Qed.

Lemma select_sound seen l seen' out :
  select seen l = (seen', out) ->
  (forall t, In t out -> In t l /\ skipped t = false /\ ~ In (dref t) seen) /\ NoDup (map dref out).
Proof.
  revert seen seen' out; induction l as [|t l IH]; intros seen seen' out E; cbn [select] in E.
  - injection E as _ <-. split; [intros ? []|constructor].
  - destruct (existsb (String.eqb (dref t)) seen) eqn:X.
    + destruct (IH _ _ _ E) as [A B]. split; [|exact B]. intros u I. destruct (A u I). split; [now right|auto].
    + destruct (select (seen ++ [dref t]) l) as [s2 o2] eqn:S.
      destruct (IH _ _ _ S) as [A B].
      assert (NS : ~ In (dref t) seen) by (rewrite <- existsb_in, X; discriminate).
      assert (A' : forall u, In u o2 -> In u (t :: l) /\ skipped u = false /\ ~ In (dref u) seen).
      { intros u I. destruct (A u I) as (U1 & U2 & U3). split; [now right|]. split; auto.
        intros Y. apply U3. apply in_or_app. now left. }
      destruct (skipped t) eqn:K; injection E as _ <-; [split; auto|]. split.
      * intros u [<-|I]; [|auto]. split; [now left|auto].
      * cbn. constructor; auto. intros I. apply in_map_iff in I as (u & E & I).
        destruct (A u I) as (_ & _ & U3). apply U3. apply in_or_app. right. rewrite E. now left.
Qed.

Definition consistent (l : list dtype) : Prop :=
  forall a b, In a l -> In b l -> dref a = dref b -> a = b.

Lemma consistent_tail t l : consistent (t :: l) -> consistent l.
Proof. intros C a b Ia Ib. apply C; now right. Qed.

Lemma select_complete seen l seen' out :
  consistent l -> select seen l = (seen', out) ->
  forall t, In t l -> skipped t = false -> ~ In (dref t) seen -> In t out.
Proof.
  revert seen seen' out; induction l as [|u l IH]; intros seen seen' out C E t I K NS; [destruct I|].
  cbn [select] in E. pose proof (consistent_tail _ _ C) as C'.
  destruct (existsb (String.eqb (dref u)) seen) eqn:X.
  - destruct I as [->|I]; [|eauto]. apply existsb_in in X. contradiction.
  - destruct (select (seen ++ [dref u]) l) as [s2 o2] eqn:S. injection E as _ <-.
    destruct (string_dec (dref t) (dref u)) as [D|D].
    + assert (t = u) as -> by (apply C; auto; now left). rewrite K. now left.
    + destruct I as [->|I]; [contradiction|].
      assert (In t o2).
      { eapply IH; eauto. intros Y. apply in_app_iff in Y as [Y|[Y|[]]]; [auto|congruence]. }
      destruct (skipped u); [auto|now right].
Qed.

Lemma select_order l : forall pre seen seen' out,
  consistent (pre ++ l) ->
  (forall t, In t pre -> In (dref t) seen) ->
  (forall a x b, pre ++ l = a ++ x :: b -> forall d, needs x d -> In d a) ->
  select seen l = (seen', out) ->
  forall o1 x o2, out = o1 ++ x :: o2 -> forall d, needs x d -> skipped d = false ->
    In d o1 \/ In (dref d) seen.
Proof.
  induction l as [|t l IH]; intros pre seen seen' out C P O E o1 x o2 Eo d N K; cbn [select] in E.
  { injection E as _ <-. destruct o1; discriminate. }
  assert (Re : (pre ++ [t]) ++ l = pre ++ t :: l) by (rewrite <- app_assoc; reflexivity).
  destruct (existsb (String.eqb (dref t)) seen) eqn:X.
  - eapply (IH (pre ++ [t]) seen seen' out); rewrite ?Re; eauto.
    intros u I. apply in_app_iff in I as [I|[<-|[]]]; [auto|]. now apply existsb_in.
  - destruct (select (seen ++ [dref t]) l) as [s2 o] eqn:S.
    assert (P' : forall u, In u (pre ++ [t]) -> In (dref u) (seen ++ [dref t])).
    { intros u I. apply in_app_iff in I as [I|[<-|[]]]; apply in_or_app; [left; auto|right; now left]. }
    assert (Step : forall o1 o2, o = o1 ++ x :: o2 -> (In d o1 \/ In (dref d) seen) \/ d = t).
    { intros a b Ea.
      destruct (IH (pre ++ [t]) (seen ++ [dref t]) s2 o) with (o1 := a) (x := x) (o2 := b) (d := d)
        as [I|I]; rewrite ?Re; auto.
      apply in_app_iff in I as [I|[I|[]]]; auto. right.
      apply (C d t); [|apply in_or_app; right; now left|congruence].
      assert (Ix : In x o) by (rewrite Ea; apply in_or_app; right; now left).
      destruct (select_sound _ _ _ _ S) as [A _]. destruct (A x Ix) as (Il & _).
      apply in_split in Il as (l1 & l2 & ->).
      assert (In d (pre ++ t :: l1)).
      { eapply (O (pre ++ t :: l1) x l2); eauto. now rewrite <- app_assoc. }
      rewrite in_app_iff in *. cbn in *. rewrite in_app_iff. tauto. }
    destruct (skipped t) eqn:Kt; injection E as _ <-.
    + destruct (Step o1 o2 Eo) as [H| ->]; [auto|congruence].
    + destruct o1 as [|y o1]; cbn in Eo; injection Eo as <- Eo.
      * right. apply P. eapply (O pre t l); eauto.
      * destruct (Step o1 o2 Eo) as [[H|H]| ->]; [left; now right|auto|left; now left].
Qed.

(** ** Creation *)

(** A sequence of recursive calls, whatever their outcome / all successful. *)
Inductive visits (rec : rec_t) : imodel -> list string -> imodel -> Prop :=
| v_nil s : visits rec s [] s
| v_cons s r s1 o rs s' : rec s r = (s1, o) -> visits rec s1 rs s' -> visits rec s (r :: rs) s'.
Inductive oks (rec : rec_t) : imodel -> list string -> list dtype -> imodel -> Prop :=
| k_nil s : oks rec s [] [] s
| k_cons s r s1 t rs ts s' : rec s r = (s1, Ok t) -> oks rec s1 rs ts s' -> oks rec s (r :: rs) (t :: ts) s'.

Lemma oks_visits rec s rs ts s' : oks rec s rs ts s' -> visits rec s rs s'.
Proof. induction 1; econstructor; eauto. Qed.

Lemma oks_app rec s rs ts s1 rs' ts' s2 :
  oks rec s rs ts s1 -> oks rec s1 rs' ts' s2 -> oks rec s (rs ++ rs') (ts ++ ts') s2.
Proof. induction 1; intros; cbn; [auto|econstructor; eauto]. Qed.

Lemma visits_app rec s rs s1 rs' s2 :
  visits rec s rs s1 -> visits rec s1 rs' s2 -> visits rec s (rs ++ rs') s2.
Proof. induction 1; intros; cbn; [auto|econstructor; eauto]. Qed.

Lemma visits_one rec s r s1 o : rec s r = (s1, o) -> visits rec s [r] s1.
Proof. intros E. econstructor; [exact E|constructor]. Qed.

(** Result of a helper that makes calls and then succeeds with [good] or fails. *)
Definition shape {A} (rec : rec_t) (s : imodel) (refs : list string) (out : sres A)
    (good : A -> list dtype -> Prop) : Prop :=
  match out with
  | (s', Ok a) => exists ts, oks rec s refs ts s' /\ good a ts
  | (s', Err _) => exists rs, visits rec s rs s' /\ incl rs refs
  end.

Lemma via_base_shape rec s p :
  shape rec s (props_base p) (via_base rec s p) (fun t ts => ts = [t] /\ props_base p <> []).
Proof.
  unfold shape, via_base, props_base. destruct (first_props p) as [x|e].
  - destruct (rec s (str_opt (p0_base (p_own x)))) as [s1 [t|e]] eqn:E.
    + exists [t]. split; [econstructor; [exact E|constructor]|]. split; [auto|discriminate].
    + exists [str_opt (p0_base (p_own x))]. split; [eapply visits_one; eauto|apply incl_refl].
  - exists []. split; [constructor|apply incl_refl].
Qed.

Lemma via_impl_shape rec s p :
  shape rec s (props_impl p) (via_impl rec s p) (fun t ts => ts = [t] /\ props_impl p <> []).
Proof.
  unfold shape, via_impl, props_impl. destruct (first_props p) as [x|e].
  - destruct (rec s (str_opt (p0_impl (p_own x)))) as [s1 [t|e]] eqn:E.
    + exists [t]. split; [econstructor; [exact E|constructor]|]. split; [auto|discriminate].
    + exists [str_opt (p0_impl (p_own x))]. split; [eapply visits_one; eauto|apply incl_refl].
  - exists []. split; [constructor|apply incl_refl].
Qed.

Lemma shape_bind_pure {A B} rec s refs (r : sres A) (f : imodel -> A -> sres B) good good' :
  shape rec s refs r good ->
  (forall s' a ts, good a ts -> match f s' a with
                                | (s2, Ok b) => s2 = s' /\ good' b ts
                                | (s2, Err _) => s2 = s' end) ->
  shape rec s refs (sbind r f) good'.
Proof.
  unfold shape. destruct r as [s' [a|e]]; cbn [sbind]; intros H F; [|exact H].
  destruct H as (ts & O & G). specialize (F s' a ts G).
  destruct (f s' a) as [s2 [b|e]].
  - destruct F as [-> G']. eauto.
  - subst s2. exists refs. split; [eapply oks_visits; eauto|apply incl_refl].
Qed.

Lemma array_elem_shape rec s key x :
  shape rec s (sub_refs x) (make_array_elem rec s key x) (fun e ts => ts = [elem_type e]).
Proof.
  unfold make_array_elem, sub_refs.
  destruct (cat_is (xs_cat x) "VALUE"); [|destruct (cat_is (xs_cat x) "TYPE_REFERENCE")].
  - eapply shape_bind_pure; [apply via_base_shape|]. intros s' t ts [-> _].
    destruct (xs_size x); cbn; auto.
  - eapply shape_bind_pure; [apply via_impl_shape|]. intros s' t ts [-> _].
    destruct (xs_size x); cbn; auto.
  - exists []. split; [constructor|apply incl_refl].
Qed.

Lemma member_shape rec s key x :
  shape rec s (sub_refs x) (make_member rec key s x) (fun e ts => ts = [elem_type e]).
Proof.
  unfold make_member, sub_refs.
  destruct (cat_is (xs_cat x) "VALUE"); [|destruct (cat_is (xs_cat x) "TYPE_REFERENCE")].
  - eapply shape_bind_pure; [apply via_base_shape|]. intros s' t ts [-> _]. cbn. auto.
  - eapply shape_bind_pure; [apply via_impl_shape|]. intros s' t ts [-> _]. cbn. auto.
  - exists []. split; [constructor|apply incl_refl].
Qed.

Lemma members_shape rec key l s :
  shape rec s (flat_map sub_refs l) (make_members rec key s l) (fun es ts => ts = map elem_type es).
Proof.
  revert s; induction l as [|x l IH]; intros s; cbn [make_members flat_map].
  - exists []. split; [constructor|reflexivity].
  - pose proof (member_shape rec s key x) as M. unfold shape in *.
    destruct (make_member rec key s x) as [s1 [e|err]]; cbn [sbind].
    + destruct M as (ts & O & ->). specialize (IH s1).
      destruct (make_members rec key s1 l) as [s2 [es|err]]; cbn [sbind].
      * destruct IH as (ts' & O' & ->). exists ([elem_type e] ++ map elem_type es).
        split; [eapply oks_app; eauto|reflexivity].
      * destruct IH as (rs & V & I). exists (sub_refs x ++ rs).
        split; [eapply visits_app; [eapply oks_visits; eauto|exact V]|].
        apply incl_app; [apply incl_appl, incl_refl|now apply incl_appr].
    + destruct M as (rs & V & I). exists rs. split; auto. now apply incl_appl.
Qed.

(** Every successful creation: all references were followed successfully, the result is built
    from exactly the types they gave, and it is registered under the key. *)
Lemma make_type_shape rec s key x s' o :
  make_type rec s key x = (s', o) ->
  match o with
  | Ok t => exists ts s1, oks rec s (xrefs x) ts s1 /\ (s', Ok t) = register s1 key t /\
              dref t = key /\ (forall d, built_from t d <-> In d ts)
  | Err _ => exists rs, visits rec s rs s' /\ incl rs (xrefs x)
  end.
Proof.
  destruct x as [n native|n cat props subs symbol emitter|n]; cbn [make_type xrefs].
  - intros [= <- <-]. exists [], s. split; [constructor|]. split; [reflexivity|].
    split; [reflexivity|]. intros d. split; [intros B; now apply built_base_inv in B|intros []].
  - destruct cat as [c|]; [|intros [= <- <-]; exists []; split; [constructor|intros ? []]].
    destruct (cat_is (Some c) "VALUE").
    { pose proof (via_base_shape rec s props) as V. unfold shape in V.
      destruct (via_base rec s props) as [s1 [b|e]]; cbn [sbind]; intros E.
      - destruct V as (ts & O & -> & _). injection E as <- <-. exists [b], s1.
        repeat split; auto; cbn.
        + intros B. apply built_scalar_inv in B. auto.
        + intros [<-|[]]. constructor. constructor.
      - injection E as <- <-. exact V. }
    destruct (cat_is (Some c) "TYPE_REFERENCE").
    { pose proof (via_impl_shape rec s props) as V. unfold shape in V.
      destruct (via_impl rec s props) as [s1 [b|e]]; cbn [sbind]; intros E.
      - destruct V as (ts & O & -> & _). injection E as <- <-. exists [b], s1.
        repeat split; auto; cbn.
        + intros B. apply built_ref_inv in B. auto.
        + intros [<-|[]]. constructor. constructor.
      - injection E as <- <-. exact V. }
    destruct (cat_is (Some c) "ARRAY").
    { unfold make_array. destruct (rev subs) as [|x outer].
      { intros [= <- <-]. exists []. split; [constructor|intros ? []]. }
      pose proof (array_elem_shape rec s key x) as V. unfold shape in V.
      destruct (make_array_elem rec s key x) as [s1 [e|err]]; cbn [sbind]; intros E.
      - destruct V as (ts & O & ->).
        destruct (xs_policy x || xs_handling x || xs_semantics x).
        { injection E as <- <-. exists (sub_refs x). split; [eapply oks_visits; eauto|apply incl_refl]. }
        destruct outer; injection E as <- <-.
        + exists [elem_type e], s1. repeat split; auto; cbn.
          * intros B. apply built_array_inv in B. auto.
          * intros [<-|[]]. destruct e; cbn; [apply bf_array|apply bf_needs, needs_array].
        + exists (sub_refs x). split; [eapply oks_visits; eauto|apply incl_refl].
      - injection E as <- <-. exact V. }
    destruct (cat_is (Some c) "STRUCTURE").
    { pose proof (members_shape rec key subs s) as V. unfold shape in V.
      destruct (make_members rec key s subs) as [s1 [es|e]]; cbn [sbind]; intros E.
      - destruct V as (ts & O & ->). injection E as <- <-. exists (map elem_type es), s1.
        repeat split; auto.
        + intros B. apply built_record_inv in B as (e & I & <-). now apply in_map.
        + intros I. apply in_map_iff in I as ([r' n' z b|r' n' z i] & <- & I); cbn.
          * eapply bf_record; eauto.
          * constructor. econstructor; eauto.
      - injection E as <- <-. exact V. }
    destruct (cat_is (Some c) "DATA_REFERENCE");
      [|intros [= <- <-]; exists []; split; [constructor|intros ? []]].
    unfold make_ptr, ptr_refs. destruct (first_props props) as [p|e];
      [|intros [= <- <-]; exists []; split; [constructor|intros ? []]].
    destruct (p_ptr p) as [t|]; [|intros [= <- <-]; exists []; split; [constructor|intros ? []]].
    assert (Core : forall r : string,
      sbind (rec s r) (fun s d => register s key (TPtr key n (sym_of symbol n) emitter d)) = (s', o) ->
      match o with
      | Ok t => exists ts s1, oks rec s [r] ts s1 /\ (s', Ok t) = register s1 key t /\
                  dref t = key /\ (forall d, built_from t d <-> In d ts)
      | Err _ => exists rs, visits rec s rs s' /\ incl rs [r]
      end).
    { intros r. destruct (rec s r) as [s1 [d|e]] eqn:R; cbn [sbind]; intros E; injection E as <- <-.
      - exists [d], s1. repeat split; auto; cbn.
        + econstructor; [exact R|constructor].
        + intros B. apply built_ptr_inv in B. auto.
        + intros [<-|[]]. apply bf_ptr.
      - exists [r]. split; [eapply visits_one; eauto|apply incl_refl]. }
    cbv zeta. destruct (cat_is (pt_cat t) "VALUE") eqn:CV.
    { destruct (first_props (pt_props t)) as [q|e]; [apply Core|].
      intros [= <- <-]; exists []; split; [constructor|intros ? []]. }
    destruct (cat_is (pt_cat t) "TYPE_REFERENCE").
    { destruct (first_props (pt_props t)) as [q|e]; [apply Core|].
      intros [= <- <-]; exists []; split; [constructor|intros ? []]. }
    intros [= <- <-]; exists []; split; [constructor|intros ? []].
  - intros [= <- <-]. exists []. split; [constructor|intros ? []].
Qed.

(** ** Cycles *)

Lemma xreach_trans l a b c : xreach l a b -> xreach l b c -> xreach l a c.
Proof. induction 1; intros; [auto|econstructor; eauto]. Qed.

Definition unreg (s : imodel) (k : string) : Prop := assoc k (im_types s) = None.

Lemma add_source_types s k : im_types (add_source s k) = im_types s.
Proof. reflexivity. Qed.

Lemma lib_find_spec l ref k x : lib_find l ref = Some (k, x) -> k = absolute ref /\ assoc k l = Some x.
Proof.
  unfold lib_find. destruct (assoc (absolute ref) l) eqn:E; [|discriminate]. intros [= <- <-]. auto.
Qed.

(** On a set of keys which all refer back into the set, nothing is ever registered. *)
Lemma create_cycle l (C : string -> Prop) :
  (forall k, C k -> exists m, edge l k m /\ C m) ->
  forall f s ref src s' o,
    (forall k, C k -> unreg s k) -> create f l s ref src = (s', o) ->
    (forall k, C k -> unreg s' k) /\ (C (absolute ref) -> forall t, o <> Ok t).
Proof.
  intros HC. induction f as [|f IH]; intros s ref src s' o U E; cbn [create] in E.
  { injection E as <- <-. split; auto. discriminate. }
  destruct (lib_find l ref) as [[key x]|] eqn:F; [|injection E as <- <-; split; auto; discriminate].
  destruct (lib_find_spec _ _ _ _ F) as [-> Lx].
  unfold create_elem in E.
  destruct (assoc (absolute ref) (im_types s)) as [t|] eqn:A.
  { injection E as <- <-. split; auto. intros CK. specialize (U _ CK). unfold unreg in U. congruence. }
  set (s0 := if src then add_source s (absolute ref) else s) in *.
  assert (U0 : forall k, C k -> unreg s0 k).
  { intros k Ck. unfold unreg, s0. destruct src; [rewrite add_source_types|]; now apply U. }
  set (rec := fun s r => create f l s r false) in *.
  assert (V : forall s rs s', visits rec s rs s' -> (forall k, C k -> unreg s k) -> forall k, C k -> unreg s' k).
  { intros a rs b V. induction V as [a|a r a1 o1 rs b R V IHV]; intros Ua; [auto|].
    apply IHV. exact (proj1 (IH a r false a1 o1 Ua R)). }
  pose proof (make_type_shape _ _ _ _ _ _ E) as Sh. destruct o as [t|e].
  - destruct Sh as (ts & s1 & O & R & _ & _). injection R as ->.
    assert (U1 : forall k, C k -> unreg s1 k) by (eapply V; [eapply oks_visits; eauto|auto]).
    assert (NC : ~ C (absolute ref)).
    { intros CK. destruct (HC _ CK) as (m & (x' & q & Lx' & Iq & ->) & Cm).
      rewrite Lx in Lx'. injection Lx' as <-.
      clear -O IH U0 Iq Cm. revert U0. induction O as [a|a r a1 t' rs ts a' R O IHO]; intros U0; [destruct Iq|].
      destruct (IH a r false a1 (Ok t') U0 R) as [Ua1 NO]. destruct Iq as [->|Iq].
      - exact (NO Cm t' eq_refl).
      - auto. }
    split; [|intros CK; contradiction]. intros k Ck. unfold unreg. cbn.
    destruct (string_dec k (absolute ref)) as [->|D]; [contradiction|].
    rewrite assoc_set_other by auto. now apply U1.
  - destruct Sh as (rs & Vs & _). split; [eapply V; eauto|discriminate].
Qed.

(** ** The invariant *)

Definition TInv (l : lib) (s : imodel) : Prop :=
  forall r t, assoc r (im_types s) = Some t ->
    dref t = r /\
    (forall d, built_from t d -> assoc (dref d) (im_types s) = Some d) /\
    (exists x, assoc r l = Some x /\ forall q, In q (xrefs x) -> exists t', assoc (absolute q) (im_types s) = Some t').

Lemma tinv_reach l s k j t :
  TInv l s -> xreach l k j -> assoc k (im_types s) = Some t -> exists t', assoc j (im_types s) = Some t'.
Proof.
  intros T R. revert t. induction R as [k|k m j (x & q & Lx & I & ->) R IH]; intros t A; [eauto|].
  destruct (T k t A) as (_ & _ & (x' & Lx' & Cl)). rewrite Lx in Lx'. injection Lx' as <-.
  destruct (Cl q I) as (t' & A'). eauto.
Qed.

Lemma create_inv l f : forall s ref src s' o,
  TInv l s -> create f l s ref src = (s', o) ->
  TInv l s' /\ keeps_types s s' /\
  (forall t, o = Ok t -> registered s' (absolute ref) t) /\
  (forall k t, registered s' k t -> registered s k t \/ xreach l (absolute ref) k) /\
  (im_sources s' = im_sources s \/ src = true /\ im_sources s' = im_sources (add_source s (absolute ref))).
Proof.
  induction f as [|f IH]; intros s ref src s' o T E; cbn [create] in E.
  { injection E as <- <-. split; [auto|]. split; [intros ? ?; auto|]. split; [discriminate|]. auto. }
  destruct (lib_find l ref) as [[key x]|] eqn:F;
    [|injection E as <- <-; split; [auto|]; split; [intros ? ?; auto|]; split; [discriminate|]; auto].
  destruct (lib_find_spec _ _ _ _ F) as [-> Lx].
  set (K := absolute ref) in *. unfold create_elem in E.
  destruct (assoc K (im_types s)) as [t|] eqn:A.
  { injection E as <- <-. split; [auto|]. split; [intros ? ?; auto|]. split; [now intros ? [= <-]|]. auto. }
  set (s0 := if src then add_source s K else s) in *.
  assert (Ts0 : im_types s0 = im_types s) by (unfold s0; destruct src; reflexivity).
  assert (T0 : TInv l s0) by (unfold TInv; rewrite Ts0; exact T).
  assert (Src0 : im_sources s0 = im_sources s \/ src = true /\ im_sources s0 = im_sources (add_source s K))
    by (unfold s0; destruct src; auto).
  set (rec := fun s r => create f l s r false) in *.
  assert (V : forall a rs b, visits rec a rs b -> TInv l a ->
     TInv l b /\ keeps_types a b /\ im_sources b = im_sources a /\
     (forall k t, registered b k t -> registered a k t \/ exists q, In q rs /\ xreach l (absolute q) k)).
  { intros a rs b V. induction V as [a|a r a1 o1 rs b R V IHV]; intros Ta.
    - split; [auto|]. split; [intros ? ?; auto|]. split; auto.
    - destruct (IH a r false a1 o1 Ta R) as (Ta1 & K1 & _ & N1 & S1).
      destruct (IHV Ta1) as (Tb & K2 & S2 & N2). split; [exact Tb|].
      split; [intros k t Hk; apply K2, K1, Hk|]. split.
      + destruct S1 as [S1|[X _]]; [congruence|discriminate].
      + intros k t Hk. destruct (N2 k t Hk) as [Hk'|(q & I & Hr)].
        * destruct (N1 k t Hk') as [|Hr]; [auto|]. right. exists r. split; [now left|auto].
        * right. exists q. split; [now right|auto]. }
  pose proof (make_type_shape _ _ _ _ _ _ E) as Sh. destruct o as [t|e].
  - destruct Sh as (ts & s1 & O & R & Dr & Bf). injection R as ->.
    destruct (V _ _ _ (oks_visits _ _ _ _ _ O) T0) as (T1 & K1 & S1 & N1).
    assert (AK : assoc K (im_types s1) = None).
    { destruct (assoc K (im_types s1)) as [t1|] eqn:A1; [|reflexivity]. exfalso.
      destruct (N1 K t1 A1) as [H|(q & Iq & Rq)]; [unfold registered in H; rewrite Ts0 in H; congruence|].
      pose (C := fun k => xreach l K k /\ xreach l k K).
      assert (Eq : edge l K (absolute q)) by (exists x, q; auto).
      assert (HC : forall k, C k -> exists m, edge l k m /\ C m).
      { intros k [R1 R2]. inversion R2 as [k'|k' m j Em Rm]; subst.
        - exists (absolute q). split; auto. split; [econstructor; [exact Eq|constructor]|exact Rq].
        - exists m. split; auto. split; auto. eapply xreach_trans; [exact R1|].
          econstructor; [exact Em|constructor]. }
      assert (U0 : forall k, C k -> unreg s0 k).
      { intros k [R1 R2]. unfold unreg. destruct (assoc k (im_types s0)) as [t2|] eqn:A2; auto.
        destruct (tinv_reach l s0 k K t2 T0 R2 A2) as (t3 & A3). rewrite Ts0 in A3. congruence. }
      assert (U1 : unreg s1 K).
      { pose proof (oks_visits _ _ _ _ _ O) as Vs.
        assert (Vc : forall a rs b, visits rec a rs b -> (forall k, C k -> unreg a k) -> forall k, C k -> unreg b k).
        { intros a rs b V2. induction V2 as [a|a r a1 o1 rs b R V2 IHV]; intros Ua; [auto|].
          apply IHV. exact (proj1 (create_cycle l C HC f a r false a1 o1 Ua R)). }
        apply (Vc _ _ _ Vs U0). split; constructor. }
      unfold unreg in U1. congruence. }
    assert (Reg : forall k, assoc k (assoc_set K t (im_types s1)) =
                            if String.eqb k K then Some t else assoc k (im_types s1)).
    { intros k. destruct (String.eqb_spec k K) as [->|D].
      - apply assoc_set_same.
      - now apply assoc_set_other. }
    assert (Old : forall k u, assoc k (im_types s1) = Some u -> assoc k (assoc_set K t (im_types s1)) = Some u).
    { intros k u Hk. rewrite Reg. destruct (String.eqb_spec k K) as [->|D]; [congruence|auto]. }
    assert (Kts : forall d, In d ts -> assoc (dref d) (im_types s1) = Some d).
    { clear -O IH T0 V. revert T0. induction O as [a|a r a1 t' rs ts a' R O IHO]; intros Ta d I; [destruct I|].
      destruct (IH a r false a1 (Ok t') Ta R) as (Ta1 & _ & Rg & _).
      destruct I as [<-|I]; [|now apply IHO].
      pose proof (Rg t' eq_refl) as Rt. destruct (Ta1 _ _ Rt) as (Dt & _).
      destruct (V _ _ _ (oks_visits _ _ _ _ _ O) Ta1) as (_ & Kp & _).
      rewrite Dt. apply Kp. exact Rt. }
    assert (Krf : forall q, In q (xrefs x) -> exists t', assoc (absolute q) (im_types s1) = Some t').
    { clear -O IH T0 V. revert T0. induction O as [a|a r a1 t' rs ts a' R O IHO]; intros Ta q I; [destruct I|].
      destruct (IH a r false a1 (Ok t') Ta R) as (Ta1 & _ & Rg & _).
      destruct I as [<-|I]; [|now apply IHO].
      destruct (V _ _ _ (oks_visits _ _ _ _ _ O) Ta1) as (_ & Kp & _).
      exists t'. apply Kp. exact (Rg t' eq_refl). }
    split; [|split; [|split; [|split]]].
    + intros r t0 H. cbn [im_types] in *. rewrite Reg in H.
      destruct (String.eqb_spec r K) as [->|D].
      * injection H as <-. split; [auto|]. split.
        -- intros d B. apply Old. apply Kts. now apply Bf.
        -- exists x. split; auto. intros q I. destruct (Krf q I) as (t' & A'). eauto.
      * destruct (T1 r t0 H) as (Dt & Bd & (x' & Lx' & Cl)). split; [auto|]. split.
        -- intros d B. now apply Old, Bd.
        -- exists x'. split; auto. intros q I. destruct (Cl q I) as (t' & A'). eauto.
    + intros r u H. unfold registered in *. cbn [im_types]. apply Old. apply K1. unfold registered. now rewrite Ts0.
    + intros u [= <-]. unfold registered. cbn [im_types]. rewrite Reg, String.eqb_refl. reflexivity.
    + intros k u H. unfold registered in H. cbn [im_types] in H. rewrite Reg in H.
      destruct (String.eqb_spec k K) as [->|D]; [right; constructor|].
      destruct (N1 k u H) as [H'|(q & I & R)].
      * left. unfold registered in *. now rewrite <- Ts0.
      * right. econstructor; [|exact R]. exists x, q. auto.
    + cbn [im_sources]. destruct Src0 as [Q|[Q1 Q2]]; [left|right; split; auto]; congruence.
  - destruct Sh as (rs & Vs & Inc).
    destruct (V _ _ _ Vs T0) as (T1 & K1 & S1 & N1). split; [exact T1|].
    split; [intros k u H; apply K1; unfold registered; now rewrite Ts0|].
    split; [discriminate|]. split.
    + intros k u H. destruct (N1 k u H) as [H'|(q & I & R)].
      * left. unfold registered in *. now rewrite <- Ts0.
      * right. econstructor; [|exact R]. exists x, q. auto.
    + destruct Src0 as [Q|[Q1 Q2]]; [left|right; split; auto]; congruence.
Qed.

Lemma tinv0 l : TInv l im0.
Proof. intros r t H. discriminate. Qed.

Lemma built_inv l s : built l s -> TInv l s.
Proof.
  intros [rs ->]. unfold requests.
  assert (H : forall s, TInv l s -> TInv l (fold_left (fun s r => fst (create (fst r) l s (snd r) true)) rs s)).
  { induction rs as [|[f r] rs IH]; intros s T; cbn [fold_left]; [exact T|].
    apply IH. destruct (create (fst (f, r)) l s (snd (f, r)) true) as [s' o] eqn:E.
    eapply create_inv in E; [|exact T]. apply E. }
  apply H, tinv0.
Qed.

Lemma requires_registered l s t d :
  TInv l s -> assoc (dref t) (im_types s) = Some t -> requires t d ->
  assoc (dref d) (im_types s) = Some d.
Proof.
  intros T A R. induction R as [t|t d u N R IH]; [auto|]. apply IH.
  destruct (T _ _ A) as (_ & B & _). apply B. now constructor.
Qed.

(** ** The generator *)

Lemma insert_str_perm x l : Permutation (insert_str x l) (x :: l).
Proof.
  induction l as [|y l IH]; cbn; [auto|]. destruct (String.leb x y); [auto|].
  rewrite IH. constructor.
Qed.

Lemma sort_str_perm l : Permutation (sort_str l) l.
Proof. induction l as [|x l IH]; cbn; [auto|]. now rewrite insert_str_perm, IH. Qed.

Lemma mapM_spec {A B} (f : A -> result B) l l' : mapM f l = Ok l' -> Forall2 (fun a b => f a = Ok b) l l'.
Proof.
  revert l'; induction l as [|x l IH]; intros l'; cbn; [intros [= <-]; constructor|].
  destruct (f x) eqn:E; [|discriminate]. cbn. destruct (mapM f l); [|discriminate]. cbn.
  intros [= <-]. constructor; auto.
Qed.

Lemma mapM_total {A B} (f : A -> result B) l : (forall x, In x l -> exists y, f x = Ok y) -> exists l', mapM f l = Ok l'.
Proof.
  induction l as [|x l IH]; intros H; cbn; [eauto|].
  destruct (H x (or_introl eq_refl)) as (y & ->). cbn.
  destruct IH as (l' & ->); [intros; apply H; now right|]. cbn. eauto.
Qed.

Lemma skipped_spec t : skipped t = true <-> somebody_elses t.
Proof.
  destruct t as [r n na|r n y em b|r n y i|r n y em e|r n y em es|r n y em d]; cbn.
  - destruct na as [s|]; [|tauto]. rewrite String.eqb_eq. split; [intros ->; auto|].
    intros [?|[=]]; [discriminate|auto].
  - destruct em as [x|].
    + rewrite negb_true_iff, String.eqb_neq. split; [eauto|]. intros (e & [= <-] & H). auto.
    + split; [discriminate|]. intros (e & [=] & _).
  - split; [discriminate|tauto].
  - destruct em as [x|].
    + rewrite negb_true_iff, String.eqb_neq. split; [eauto|]. intros (z & [= <-] & H). auto.
    + split; [discriminate|]. intros (z & [=] & _).
  - destruct em as [x|].
    + rewrite negb_true_iff, String.eqb_neq. split; [eauto|]. intros (z & [= <-] & H). auto.
    + split; [discriminate|]. intros (z & [=] & _).
  - destruct em as [x|].
    + rewrite negb_true_iff, String.eqb_neq. split; [eauto|]. intros (z & [= <-] & H). auto.
    + split; [discriminate|]. intros (z & [=] & _).
Qed.

Lemma skipped_false t : skipped t = false <-> ~ somebody_elses t.
Proof. rewrite <- skipped_spec. destruct (skipped t); split; congruence. Qed.

Lemma flat_order ns :
  (forall n, In n ns -> forall a x b, map ndata (creation_order n) = a ++ x :: b -> forall d, needs x d -> In d a) ->
  forall a x b, flat_map (fun n => map ndata (creation_order n)) ns = a ++ x :: b ->
  forall d, needs x d -> In d a.
Proof.
  induction ns as [|n ns IH]; intros H a x b E d N; cbn in E; [destruct a; discriminate|].
  apply app_eq_app in E as (l & [[E1 E2]|[E1 E2]]).
  - (* the split point is in the first part *)
    destruct l as [|y l]; cbn in E2.
    + exfalso. assert (X : In d []); [|destruct X].
      eapply IH with (a := []) (b := b); [|symmetry; exact E2|exact N].
      intros m I. apply H. now right.
    + injection E2 as <- E2. eapply (H n (or_introl eq_refl)); eauto.
  - subst a. apply in_or_app. right. eapply IH; [|exact E2|exact N].
    intros m I. apply H. now right.
Qed.

(** C11: the emission order. *)
Lemma gen_order_spec l s out :
  TInv l s -> gen_order s = Ok out ->
  NoDup (map dref out) /\
  (forall t, In t out <-> ~ somebody_elses t /\
       exists r root, In r (im_sources s) /\ registered s r root /\ requires root t) /\
  (forall a x b, out = a ++ x :: b -> forall d, needs x d -> ~ somebody_elses d -> In d a).
Proof.
  intros T G. unfold gen_order in G. destruct (trees s) as [ns|] eqn:Tr; [|discriminate]. cbn in G.
  injection G as G. unfold trees in Tr. apply mapM_spec in Tr.
  set (L := flat_map (fun n => map ndata (creation_order n)) ns) in *.
  destruct (select [] L) as [seen' o] eqn:S. cbn in G. subst o.
  assert (Roots : forall n, In n ns -> exists r root, In r (im_sources s) /\ registered s r root /\ tree root = Ok n).
  { intros n I. clear -Tr I. assert (P : forall r, In r (sort_str (im_sources s)) -> In r (im_sources s)).
    { intros r. apply Permutation_in, sort_str_perm. }
    revert P. induction Tr as [|r m rs ms E _ IH]; intros P; [destruct I|].
    destruct I as [->|I]; [|apply IH; auto; intros; apply P; now right].
    destruct (assoc r (im_types s)) as [root|] eqn:A; [|discriminate].
    exists r, root. repeat split; auto. apply P. now left. }
  assert (Roots2 : forall r root, In r (im_sources s) -> registered s r root -> exists n, In n ns /\ tree root = Ok n).
  { intros r root I R. assert (I' : In r (sort_str (im_sources s))).
    { revert I. apply Permutation_in, Permutation_sym, sort_str_perm. }
    clear -Tr I' R. induction Tr as [|r' m rs ms E _ IH]; [destruct I'|].
    destruct I' as [->|I']; [|destruct (IH I') as (n & I & Tn); exists n; split; [now right|auto]].
    unfold registered in R. rewrite R in E. exists m. split; [now left|auto]. }
  assert (InL : forall t, In t L <-> exists r root, In r (im_sources s) /\ registered s r root /\ requires root t).
  { intros t. unfold L. rewrite in_flat_map. split.
    - intros (n & I & It). destruct (Roots n I) as (r & root & Ir & Rg & Tn).
      exists r, root. repeat split; auto. apply (proj1 (creation_order_spec root n Tn)). exact It.
    - intros (r & root & Ir & Rg & Rq). destruct (Roots2 r root Ir Rg) as (n & I & Tn).
      exists n. split; auto. apply (proj1 (creation_order_spec root n Tn)). exact Rq. }
  assert (Cons : consistent L).
  { assert (RegL : forall t, In t L -> assoc (dref t) (im_types s) = Some t).
    { intros t I. apply InL in I as (r & root & Ir & Rg & Rq).
      destruct (T _ _ Rg) as (Dr & _). eapply requires_registered; eauto. now rewrite Dr. }
    intros a b Ia Ib E. pose proof (RegL a Ia). pose proof (RegL b Ib). congruence. }
  assert (Ord : forall a x b, L = a ++ x :: b -> forall d, needs x d -> In d a).
  { apply flat_order. intros n I. destruct (Roots n I) as (r & root & _ & _ & Tn).
    exact (proj2 (creation_order_spec root n Tn)). }
  destruct (select_sound _ _ _ _ S) as [Snd ND]. split; [exact ND|]. split.
  - intros t. rewrite <- skipped_false, <- InL. split.
    + intros I. destruct (Snd t I) as (A & B & _). auto.
    + intros [K I]. eapply select_complete; eauto.
  - intros a x b E d N K. apply skipped_false in K.
    destruct (select_order L [] [] seen' out Cons) with (o1 := a) (x := x) (o2 := b) (d := d) as [I|[]]; auto.
Qed.

(** When the generator succeeds. *)
Lemma gen_order_total s :
  (forall r, In r (im_sources s) -> exists t, registered s r t /\ pointer_free t) ->
  exists out, gen_order s = Ok out.
Proof.
  intros H. unfold gen_order, trees.
  destruct (mapM_total (fun r => match assoc r (im_types s) with Some t => tree t | None => Err KeyError end)
              (sort_str (im_sources s))) as (ns & ->); [|cbn; eauto].
  intros r I. destruct (H r) as (t & R & P).
  - revert I. apply Permutation_in, sort_str_perm.
  - unfold registered in R. rewrite R. now apply tree_total.
Qed.

(** ** Sources *)

Lemma requests_snoc l rs q : requests l (rs ++ [q]) = fst (create (fst q) l (requests l rs) (snd q) true).
Proof. unfold requests. now rewrite fold_left_app. Qed.

Lemma requests_app_keeps l rs rs' : keeps_types (requests l rs) (requests l (rs ++ rs')).
Proof.
  induction rs' as [|q rs' IH] using rev_ind; [rewrite app_nil_r; intros ? ?; auto|].
  rewrite app_assoc, requests_snoc.
  destruct (create (fst q) l (requests l (rs ++ rs')) (snd q) true) as [s' o] eqn:E.
  assert (T : TInv l (requests l (rs ++ rs'))) by (apply built_inv; eexists; eauto).
  destruct (create_inv _ _ _ _ _ _ _ T E) as (_ & K & _). intros r t H. cbn. apply K, IH, H.
Qed.

Lemma add_source_in s k r : In r (im_sources (add_source s k)) <-> In r (im_sources s) \/ r = k.
Proof.
  cbn. destruct (existsb (String.eqb k) (im_sources s)) eqn:E.
  - apply existsb_in in E. split; [auto|]. intros [H| ->]; auto.
  - rewrite in_app_iff. cbn. intuition.
Qed.

(** A request either finds the type registered, or makes its reference a source. *)
Lemma create_source l f s ref s' o :
  create f l s ref true = (s', o) -> o <> Err OutOfFuel -> o <> Err KeyError ->
  TInv l s ->
  (exists t, registered s (absolute ref) t /\ s' = s /\ o = Ok t) \/
  (unreg s (absolute ref) /\ In (absolute ref) (im_sources s')).
Proof.
  intros E N1 N2 T. destruct f as [|f]; cbn [create] in E; [injection E as <- <-; congruence|].
  destruct (lib_find l ref) as [[key x]|] eqn:F; [|injection E as <- <-; congruence].
  destruct (lib_find_spec _ _ _ _ F) as [-> Lx]. unfold create_elem in E.
  destruct (assoc (absolute ref) (im_types s)) as [t|] eqn:A.
  - injection E as <- <-. left. exists t. auto.
  - right. split; [exact A|].
    set (rec := fun s r => create f l s r false) in *.
    assert (T0 : TInv l (add_source s (absolute ref))) by exact T.
    assert (V : forall a rs b, visits rec a rs b -> TInv l a -> im_sources b = im_sources a).
    { intros a rs b V. induction V as [a|a r a1 o1 rs b R V IHV]; intros Ta; [auto|].
      destruct (create_inv _ _ _ _ _ _ _ Ta R) as (Ta1 & _ & _ & _ & [S|[X _]]); [|discriminate].
      rewrite (IHV Ta1). exact S. }
    assert (S : im_sources s' = im_sources (add_source s (absolute ref))).
    { pose proof (make_type_shape _ _ _ _ _ _ E) as Sh. destruct o as [t|e].
      - destruct Sh as (ts & s1 & O & R & _). injection R as ->. cbn [im_sources].
        eapply V; [eapply oks_visits; eauto|exact T0].
      - destruct Sh as (rs & Vs & _). eapply V; eauto. }
    rewrite S. apply add_source_in. now right.
Qed.

Lemma create_sources_mono l f s ref src s' o r :
  TInv l s -> create f l s ref src = (s', o) -> In r (im_sources s) -> In r (im_sources s').
Proof.
  intros T E I. destruct (create_inv _ _ _ _ _ _ _ T E) as (_ & _ & _ & _ & [S|[_ S]]); rewrite S; auto.
  apply add_source_in. auto.
Qed.

Lemma requests_sources_mono l rs rs' r :
  In r (im_sources (requests l rs)) -> In r (im_sources (requests l (rs ++ rs'))).
Proof.
  intros I. induction rs' as [|q rs' IH] using rev_ind; [now rewrite app_nil_r|].
  rewrite app_assoc, requests_snoc.
  destruct (create (fst q) l (requests l (rs ++ rs')) (snd q) true) as [s' o] eqn:E. cbn.
  eapply create_sources_mono; [|exact E|exact IH]. apply built_inv. eexists; eauto.
Qed.

(** Exactly the first requests of known, not yet registered references become sources. *)
Lemma create_sources_exact l f s ref s' o :
  TInv l s -> create (S f) l s ref true = (s', o) ->
  forall r, In r (im_sources s') <->
    In r (im_sources s) \/ (r = absolute ref /\ unreg s r /\ exists x, assoc r l = Some x).
Proof.
  intros T E r. cbn [create] in E.
  destruct (lib_find l ref) as [[key x]|] eqn:F.
  2:{ injection E as <- <-. split; [auto|]. intros [I|(-> & _ & x & A)]; auto.
      unfold lib_find in F. rewrite A in F. discriminate. }
  destruct (lib_find_spec _ _ _ _ F) as [-> Lx]. unfold create_elem in E.
  destruct (assoc (absolute ref) (im_types s)) as [t|] eqn:A.
  - injection E as <- <-. split; [auto|]. intros [I|(-> & U & _)]; auto. unfold unreg in U. congruence.
  - set (rec := fun s r => create f l s r false) in *.
    assert (T0 : TInv l (add_source s (absolute ref))) by exact T.
    assert (V : forall a rs b, visits rec a rs b -> TInv l a -> im_sources b = im_sources a).
    { intros a rs b V. induction V as [a|a r0 a1 o1 rs b R V IHV]; intros Ta; [auto|].
      destruct (create_inv _ _ _ _ _ _ _ Ta R) as (Ta1 & _ & _ & _ & [S|[X _]]); [|discriminate].
      rewrite (IHV Ta1). exact S. }
    assert (S : im_sources s' = im_sources (add_source s (absolute ref))).
    { pose proof (make_type_shape _ _ _ _ _ _ E) as Sh. destruct o as [t|e].
      - destruct Sh as (ts & s1 & O & R & _). injection R as ->. cbn [im_sources].
        eapply V; [eapply oks_visits; eauto|exact T0].
      - destruct Sh as (rs & Vs & _). eapply V; eauto. }
    rewrite S, add_source_in. split.
    + intros [I| ->]; eauto 6.
    + intros [I|(-> & _)]; auto.
Qed.

Lemma sources_exact l rs r :
  (forall q, In q rs -> 0 < fst q) ->
  (In r (im_sources (requests l rs)) <->
   exists a q b, rs = a ++ q :: b /\ r = absolute (snd q) /\ unreg (requests l a) r /\
                 exists x, assoc r l = Some x).
Proof.
  induction rs as [|q rs IH] using rev_ind; intros P.
  - split; [intros []|]. intros (a & q & b & E & _). destruct a; discriminate.
  - rewrite requests_snoc.
    assert (T : TInv l (requests l rs)) by (apply built_inv; eexists; eauto).
    assert (Pq : 0 < fst q) by (apply P; apply in_or_app; right; now left).
    destruct (fst q) as [|f] eqn:Ef; [lia|].
    destruct (create (S f) l (requests l rs) (snd q) true) as [s' o] eqn:E. cbn [fst].
    rewrite (create_sources_exact l f _ _ _ _ T E r), IH by (intros; apply P; apply in_or_app; now left).
    split.
    + intros [(a & q' & b & -> & H)|(-> & U & X)].
      * exists a, q', (b ++ [q]). split; [now rewrite <- app_assoc|exact H].
      * exists rs, q, []. auto.
    + intros (a & q' & b & Es & H). destruct b as [|x b _] using rev_ind.
      * apply app_inj_tail in Es as [-> ->]. right. destruct H as (-> & H). auto.
      * rewrite app_comm_cons, app_assoc in Es. apply app_inj_tail in Es as [-> ->].
        left. exists a, q', b. auto.
Qed.

(** When every request succeeded, every source is registered. *)
Lemma sources_registered l rs :
  all_succeed l rs -> forall r, In r (im_sources (requests l rs)) -> exists t, registered (requests l rs) r t.
Proof.
  induction rs as [|q rs IH] using rev_ind; intros A r I; [destruct I|].
  rewrite requests_snoc in *.
  assert (T : TInv l (requests l rs)) by (apply built_inv; eexists; eauto).
  destruct (A rs q [] eq_refl) as (t & Et).
  destruct (create (fst q) l (requests l rs) (snd q) true) as [s' o] eqn:E. cbn in *. subst o.
  destruct (create_inv _ _ _ _ _ _ _ T E) as (_ & K & Rg & _ & S).
  assert (IH' : forall r, In r (im_sources (requests l rs)) -> exists t, registered (requests l rs) r t).
  { apply IH. intros a q' b ->. apply (A a q' (b ++ [q])). now rewrite <- app_assoc. }
  destruct S as [S|[_ S]]; rewrite S in I.
  - destruct (IH' r I) as (t' & R). eauto.
  - apply add_source_in in I as [I| ->]; [destruct (IH' r I) as (t' & R); eauto|]. eauto.
Qed.

(** ** Recursion *)

Lemma via_base_oof rec s p s' :
  via_base rec s p = (s', Err OutOfFuel) -> exists q, In q (props_base p) /\ snd (rec s q) = Err OutOfFuel.
Proof.
  unfold via_base, props_base, first_props. destruct p as [[|x ?]|]; try discriminate.
  intros E. exists (str_opt (p0_base (p_own x))). rewrite E. split; [now left|reflexivity].
Qed.
Lemma via_impl_oof rec s p s' :
  via_impl rec s p = (s', Err OutOfFuel) -> exists q, In q (props_impl p) /\ snd (rec s q) = Err OutOfFuel.
Proof.
  unfold via_impl, props_impl, first_props. destruct p as [[|x ?]|]; try discriminate.
  intros E. exists (str_opt (p0_impl (p_own x))). rewrite E. split; [now left|reflexivity].
Qed.

Lemma array_elem_oof rec s key x s' :
  make_array_elem rec s key x = (s', Err OutOfFuel) ->
  exists q, In q (sub_refs x) /\ snd (rec s q) = Err OutOfFuel.
Proof.
  unfold make_array_elem, sub_refs.
  destruct (cat_is (xs_cat x) "VALUE"); [|destruct (cat_is (xs_cat x) "TYPE_REFERENCE")].
  - destruct (via_base rec s (xs_props x)) as [s1 [t|e]] eqn:V; cbn; [destruct (xs_size x); discriminate|].
    intros [= <- ->]. eapply via_base_oof; eauto.
  - destruct (via_impl rec s (xs_props x)) as [s1 [t|e]] eqn:V; cbn; [destruct (xs_size x); discriminate|].
    intros [= <- ->]. eapply via_impl_oof; eauto.
  - discriminate.
Qed.

Lemma member_oof rec s key x s' :
  make_member rec key s x = (s', Err OutOfFuel) ->
  exists q, In q (sub_refs x) /\ snd (rec s q) = Err OutOfFuel.
Proof.
  unfold make_member, sub_refs.
  destruct (cat_is (xs_cat x) "VALUE"); [|destruct (cat_is (xs_cat x) "TYPE_REFERENCE")].
  - destruct (via_base rec s (xs_props x)) as [s1 [t|e]] eqn:V; cbn; [discriminate|].
    intros [= <- ->]. eapply via_base_oof; eauto.
  - destruct (via_impl rec s (xs_props x)) as [s1 [t|e]] eqn:V; cbn; [discriminate|].
    intros [= <- ->]. eapply via_impl_oof; eauto.
  - discriminate.
Qed.

Lemma members_oof rec key l : forall s s',
  make_members rec key s l = (s', Err OutOfFuel) ->
  exists s1 q, In q (flat_map sub_refs l) /\ snd (rec s1 q) = Err OutOfFuel.
Proof.
  induction l as [|x l IH]; intros s s'; cbn [make_members flat_map]; [discriminate|].
  destruct (make_member rec key s x) as [s1 [e|err]] eqn:M; cbn [sbind].
  - destruct (make_members rec key s1 l) as [s2 [es|err]] eqn:Ms; cbn [sbind]; [discriminate|].
    intros [= <- ->]. destruct (IH _ _ Ms) as (s3 & q & I & R). exists s3, q. split; auto.
    apply in_or_app. now right.
  - intros [= <- ->]. destruct (member_oof _ _ _ _ _ M) as (q & I & R). exists s, q. split; auto.
    apply in_or_app. now left.
Qed.

Lemma make_type_oof rec s key x s' :
  make_type rec s key x = (s', Err OutOfFuel) ->
  exists s1 q, In q (xrefs x) /\ snd (rec s1 q) = Err OutOfFuel.
Proof.
  destruct x as [n native|n cat props subs symbol emitter|n]; cbn [make_type xrefs]; try discriminate.
  destruct cat as [c|]; [|discriminate].
  destruct (cat_is (Some c) "VALUE").
  { destruct (via_base rec s props) as [s1 [b|e]] eqn:V; cbn; [discriminate|].
    intros [= <- ->]. destruct (via_base_oof _ _ _ _ V) as (q & H). eauto. }
  destruct (cat_is (Some c) "TYPE_REFERENCE").
  { destruct (via_impl rec s props) as [s1 [b|e]] eqn:V; cbn; [discriminate|].
    intros [= <- ->]. destruct (via_impl_oof _ _ _ _ V) as (q & H). eauto. }
  destruct (cat_is (Some c) "ARRAY").
  { unfold make_array. destruct (rev subs) as [|x outer]; [discriminate|].
    destruct (make_array_elem rec s key x) as [s1 [e|err]] eqn:V; cbn [sbind].
    - destruct (_ || _ || _); [discriminate|]. destruct outer; discriminate.
    - intros [= <- ->]. destruct (array_elem_oof _ _ _ _ _ V) as (q & H). eauto. }
  destruct (cat_is (Some c) "STRUCTURE").
  { destruct (make_members rec key s subs) as [s1 [es|e]] eqn:V; cbn; [discriminate|].
    intros [= <- ->]. eapply members_oof; eauto. }
  destruct (cat_is (Some c) "DATA_REFERENCE"); [|discriminate].
  unfold make_ptr, ptr_refs. destruct props as [[|p ps]|]; try discriminate. cbn [first_props].
  destruct (p_ptr p) as [t|]; [|discriminate].
  destruct (cat_is (pt_cat t) "VALUE"); [|destruct (cat_is (pt_cat t) "TYPE_REFERENCE"); [|discriminate]];
    destruct (pt_props t) as [[|q qs]|]; try discriminate; cbn [first_props].
  - destruct (rec s (str_opt (p0_base q))) as [s1 [d|e]] eqn:R; cbn; [discriminate|].
    intros [= <- ->]. exists s, (str_opt (p0_base q)). rewrite R. split; [now left|reflexivity].
  - destruct (rec s (str_opt (p0_impl q))) as [s1 [d|e]] eqn:R; cbn; [discriminate|].
    intros [= <- ->]. exists s, (str_opt (p0_impl q)). rewrite R. split; [now left|reflexivity].
Qed.

(** With references that only lead downwards, the recursion ends. *)
Lemma create_terminates l (rank : string -> nat) :
  (forall k m, edge l k m -> rank m < rank k) ->
  forall f s ref src, rank (absolute ref) < f -> snd (create f l s ref src) <> Err OutOfFuel.
Proof.
  intros HR. induction f as [|f IH]; intros s ref src L; [lia|]. cbn [create].
  destruct (lib_find l ref) as [[key x]|] eqn:F; [|discriminate].
  destruct (lib_find_spec _ _ _ _ F) as [-> Lx]. unfold create_elem.
  destruct (assoc (absolute ref) (im_types s)); [discriminate|].
  destruct (make_type _ _ _ x) as [s' [t|e]] eqn:E; [discriminate|]. cbn. intros [= ->].
  destruct (make_type_oof _ _ _ _ _ E) as (s1 & q & I & R).
  eapply IH; [|exact R].
  assert (rank (absolute q) < rank (absolute ref)) by (apply HR; exists x, q; auto). lia.
Qed.

(** ** Declarations *)

Lemma gen_def_declares t ds : gen_def t = Ok ds -> exists c, In c ds /\ In (dname t) (declares c).
Proof.
  destruct t as [r n na|r n y em b|r n y i|r n y em e|r n y em es|r n y em d]; cbn.
  - intros [= <-]. eexists; split; [now left|now left].
  - intros [= <-]. eexists; split; [now left|now left].
  - intros [= <-]. eexists; split; [now left|now left].
  - destruct (elem_target e); [|discriminate]. cbn. intros [= <-]. eexists; split; [now left|now left].
  - destruct (mapM _ es); [|discriminate]. cbn. intros [= <-].
    eexists; split; [right; now left|now left].
  - discriminate.
Qed.

Lemma elem_target_uses e u :
  elem_target e = Ok u ->
  (exists r n z, e = ERef r n z (elem_type e) /\ u = dname (elem_type e)) \/
  (exists r n na, elem_type e = TBase r n na /\ (na = Some u \/ (na = None \/ na = Some "") /\ u = n)).
Proof.
  destruct e as [r n z b|r n z i]; cbn.
  - destruct b as [r' n' [na|]| | | | |]; cbn; try discriminate.
    + destruct (String.eqb_spec na "") as [->|D]; intros [= <-]; right; exists r', n'; eauto 6.
    + intros [= <-]. right. exists r', n'. eauto 6.
  - intros [= <-]. left. eauto.
Qed.

Lemma mapM_in {A B} (f : A -> result B) l l' y :
  mapM f l = Ok l' -> In y l' -> exists x, In x l /\ f x = Ok y.
Proof.
  intros E. apply mapM_spec in E. intros I. induction E as [|x z l l' H _ IH]; [destruct I|].
  destruct I as [<-|I]; [exists x; split; [now left|auto]|].
  destruct (IH I) as (x' & I' & H'). exists x'. split; [now right|auto].
Qed.

(** What the declarations of one type mention. *)
Lemma gen_def_uses t ds a d b u :
  ~ somebody_elses t -> gen_def t = Ok ds -> ds = a ++ d :: b -> In u (uses d) ->
  (exists c, In c a /\ In u (declares c)) \/
  (exists x, needs t x /\ u = dname x) \/
  (exists r n na, (t = TBase r n na \/ built_from t (TBase r n na)) /\
                  (na = Some u \/ (na = None \/ na = Some "") /\ u = n)).
Proof.
  intros NS G E U.
  destruct t as [r n na|r n y em x|r n y i|r n y em e|r n y em es|r n y em x]; cbn in G.
  - injection G as <-. destruct a as [|? [|? ?]]; try discriminate. injection E as <- <-.
    destruct U as [<-|[]]. right; right. exists r, n, na. split; [auto|left].
    destruct na; [auto|]. exfalso. apply NS. cbn. auto.
  - injection G as <-. destruct a as [|? [|? ?]]; try discriminate. injection E as <- <-.
    destruct U as [<-|[]]. right; left. exists x. split; [constructor|auto].
  - injection G as <-. destruct a as [|? [|? ?]]; try discriminate. injection E as <- <-.
    destruct U as [<-|[]]. right; left. exists i. split; [constructor|auto].
  - destruct (elem_target e) as [tg|] eqn:Et; [|discriminate]. cbn in G. injection G as <-.
    destruct a as [|? [|? ?]]; try discriminate. injection E as <- <-. destruct U as [<-|[]].
    destruct (elem_target_uses _ _ Et) as [(r' & n' & z & -> & ->)|(r' & n' & na & Eb & H)].
    + right; left. eexists. split; [constructor|reflexivity].
    + right; right. exists r', n', na. split; auto. right. rewrite <- Eb.
      destruct e; cbn; [apply bf_array|apply bf_needs, needs_array].
  - destruct (mapM _ es) as [ms|] eqn:M; [|discriminate]. cbn in G. injection G as <-.
    destruct a as [|c [|? [|? ?]]]; try discriminate.
    + injection E as <- <-. cbn in U. apply in_map_iff in U as ([m tg] & <- & I).
      destruct (mapM_in _ _ _ _ M I) as (e & Ie & He). cbn.
      destruct (elem_target e) as [tg'|] eqn:Et; [|discriminate]. cbn in He.
      injection He as _ <-.
      destruct (elem_target_uses _ _ Et) as [(r' & n' & z & Ee & ->)|(r' & n' & na & Eb & H)].
      * right; left. exists (elem_type e). split; auto. econstructor. rewrite <- Ee. exact Ie.
      * right; right. exists r', n', na. split; auto. right. rewrite <- Eb.
        destruct e; cbn in *; [eapply bf_record; eauto|apply bf_needs; econstructor; eauto].
    + cbn in E. injection E as <- <- <-. left. eexists. split; [now left|exact U].
  - discriminate.
Qed.

Lemma concat_split {A} (ls : list (list A)) a d b :
  List.concat ls = a ++ d :: b ->
  exists la x lb a' b', ls = la ++ x :: lb /\ x = a' ++ d :: b' /\ a = List.concat la ++ a'.
Proof.
  revert a; induction ls as [|x ls IH]; intros a E; cbn in E; [destruct a; discriminate|].
  apply app_eq_app in E as (l & [[E1 E2]|[E1 E2]]).
  - destruct l as [|y l].
    + rewrite app_nil_r in E1. subst x. cbn in E2.
      destruct (IH [] (eq_sym E2)) as (la & z & lb & a' & b' & -> & -> & E3).
      exists (a :: la), (a' ++ d :: b'), lb, a', b'. split; [reflexivity|]. split; auto.
      cbn. rewrite <- app_assoc, <- E3. now rewrite app_nil_r.
    + injection E2 as <- E2. exists [], x, ls, a, l. auto.
  - subst a. destruct (IH l E2) as (la & z & lb & a' & b' & -> & -> & ->).
    exists (x :: la), (a' ++ d :: b'), lb, a', b'. split; [reflexivity|]. split; auto.
    cbn. now rewrite app_assoc.
Qed.

Lemma Forall2_split_r {A B} (R : A -> B -> Prop) l a x b :
  Forall2 R l (a ++ x :: b) -> exists la y lb, l = la ++ y :: lb /\ R y x /\ Forall2 R la a.
Proof.
  intros F. apply Forall2_app_inv_r in F as (la & r & F1 & F2 & ->).
  inversion F2 as [|y z lb b' Hy Hb]; subst. exists la, y, lb. auto.
Qed.

Lemma gen_defs_spec l s ds :
  TInv l s -> gen_defs s = Ok ds ->
  forall a d b, ds = a ++ d :: b -> forall u, In u (uses d) ->
  (exists c, In c a /\ In u (declares c)) \/
  (exists r n, registered s r (TBase r n (Some u))) \/
  (exists r t, registered s r t /\ somebody_elses t /\ dname t = u).
Proof.
  intros T G a d b E u U. unfold gen_defs in G.
  destruct (gen_order s) as [ts|] eqn:Go; [|discriminate]. cbn in G.
  destruct (mapM gen_def ts) as [dss|] eqn:M; [|discriminate]. cbn in G. injection G as G. subst ds.
  apply concat_split in E as (la & x & lb & a' & b' & -> & Ex & ->).
  apply mapM_spec in M. apply Forall2_split_r in M as (ta & t & tb & -> & Gt & Fa).
  destruct (gen_order_spec _ _ _ T Go) as (_ & Cov & Ord).
  assert (It : In t (ta ++ t :: tb)) by (apply in_or_app; right; now left).
  apply Cov in It as (NS & r & root & Ir & Rg & Rq).
  assert (Rt : assoc (dref t) (im_types s) = Some t).
  { destruct (T _ _ Rg) as (Dr & _). eapply requires_registered; eauto. now rewrite Dr. }
  destruct (gen_def_uses t x a' d b' u NS Gt Ex U) as [(c & Ic & Dc)|[(y & N & ->)|(r' & n & na & B & H)]].
  - left. exists c. split; auto. apply in_or_app. now right.
  - destruct (T _ _ Rt) as (_ & B & _). specialize (B y (bf_needs _ _ N)).
    destruct (skipped y) eqn:K.
    + right; right. exists (dref y), y. repeat split; auto. now apply skipped_spec.
    + apply skipped_false in K. specialize (Ord ta t tb eq_refl y N K). left.
      clear -Fa Ord. induction Fa as [|z dz ta la Gz Fa IH]; [destruct Ord|].
      destruct Ord as [->|I].
      * destruct (gen_def_declares _ _ Gz) as (c & Ic & Dc). exists c. split; auto.
        apply in_or_app. left. cbn. apply in_or_app. now left.
      * destruct (IH I) as (c & Ic & Dc). exists c. split; auto. cbn. rewrite <- app_assoc.
        apply in_or_app. now right.
  - assert (Rb : registered s r' (TBase r' n na)).
    { destruct B as [->|B]; [exact Rt|]. destruct (T _ _ Rt) as (_ & Bd & _). exact (Bd _ B). }
    destruct H as [->|[Hn ->]]; [right; left; eauto|right; right].
    exists r', (TBase r' n na). auto.
Qed.
