(** Proofs about documents generated from packages (C39). *)
From Coq Require Import Permutation Sorted.
From Verif Require Import Base PBase MHeap SHeap PHeap MWork SWork PWork PTmpl PDocs.

(** ** Sorting *)


Lemma insert_perm h x l : Permutation (insert_named h x l) (x :: l).
Proof.
  induction l as [|y l IH]; cbn [insert_named]; [reflexivity|].
  destruct (String.leb (oname h x) (oname h y)); [reflexivity|].
  rewrite IH. apply perm_swap.
Qed.

Lemma sort_perm h l : Permutation (sort_named h l) l.
Proof. induction l as [|x l IH]; cbn [sort_named]; [reflexivity|]. rewrite insert_perm. now constructor. Qed.

Lemma leb_total a b : String.leb a b = false -> String.leb b a = true.
Proof. destruct (String.leb_total a b) as [E|E]; congruence. Qed.

Lemma leb_trans a b c : String.leb a b = true -> String.leb b c = true -> String.leb a c = true.
Proof.
  revert b c; induction a as [|x a IH]; intros b c; [destruct c; reflexivity|].
  destruct b as [|y b]; [discriminate|]. destruct c as [|z c]; [intros _; discriminate|].
  unfold String.leb in *. cbn [String.compare].
  destruct (Ascii.compare x y) eqn:XY; try discriminate;
  destruct (Ascii.compare y z) eqn:YZ; try discriminate;
  unfold Ascii.compare in *.
  - apply N.compare_eq in XY. rewrite XY, YZ. apply IH.
  - apply N.compare_eq in XY. rewrite XY, YZ. auto.
  - apply N.compare_eq in YZ. rewrite <- YZ, XY. auto.
  - apply N.compare_lt_iff in XY, YZ.
    assert (L : (N_of_ascii x < N_of_ascii z)%N) by (eapply N.lt_trans; eauto).
    apply N.compare_lt_iff in L. rewrite L. auto.
Qed.

Lemma insert_sorted h x l : StronglySorted (leb_name h) l -> StronglySorted (leb_name h) (insert_named h x l).
Proof.
  induction 1 as [|y l S IH F]; cbn [insert_named]; [constructor; constructor|].
  change (oname h x) with (name_of h x). change (oname h y) with (name_of h y).
  destruct (String.leb (name_of h x) (name_of h y)) eqn:E.
  - constructor; [constructor; auto|]. constructor; [exact E|].
    rewrite Forall_forall in *. intros z I. eapply leb_trans; [exact E|]. apply F, I.
  - constructor; [exact IH|]. rewrite Forall_forall in *. intros z I.
    eapply Permutation_in in I; [|apply insert_perm]. destruct I as [<-|I]; [|auto].
    now apply leb_total.
Qed.

Lemma sort_sorted h l : StronglySorted (leb_name h) (sort_named h l).
Proof. induction l; cbn [sort_named]; [constructor|]. now apply insert_sorted. Qed.

(** ** The chosen elements *)

Lemma emap_fold h l d n x :
  assoc n (fold_left (fun d x => assoc_set (oname h x) x d) l d) = Some x ->
  (In x l /\ name_of h x = n) \/ assoc n d = Some x.
Proof.
  revert d; induction l as [|y l IH]; cbn [fold_left]; intros d A; [auto|].
  destruct (IH _ A) as [[I N]|B]; [left; split; [now right|auto]|].
  destruct (string_dec n (oname h y)) as [->|D].
  - rewrite assoc_set_same in B. injection B as ->. left. split; [now left|reflexivity].
  - rewrite assoc_set_other in B by exact D. auto.
Qed.

Lemma emap_fold_in h l d x : In x l -> (forall y, In y l -> name_of h y = name_of h x -> y = x) ->
  assoc (name_of h x) (fold_left (fun d x => assoc_set (oname h x) x d) l d) = Some x.
Proof.
  revert d; induction l as [|y l IH]; cbn [fold_left]; intros d I U; [destruct I|].
  destruct (in_dec Nat.eq_dec x l) as [J|J].
  - apply IH; auto. intros; apply U; auto. now right.
  - destruct I as [->|I]; [|contradiction].
    assert (K : forall l d, (forall y, In y l -> name_of h y <> name_of h x) ->
      assoc (name_of h x) (fold_left (fun d x => assoc_set (oname h x) x d) l d) = assoc (name_of h x) d).
    { clear. induction l as [|y l IH]; cbn [fold_left]; intros d N; [reflexivity|].
      rewrite IH by (intros; apply N; now right). apply assoc_set_other.
      intros E. apply (N y); [now left|]. now symmetry. }
    rewrite K; [apply assoc_set_same|]. intros y I E. assert (y = x) by (apply U; [now right|exact E]). now subst.
Qed.

Lemma chosen_spec h m l e x :
  (forall a b, In a l -> In b l -> name_of h a = name_of h b -> a = b) ->
  (In x (chosen h m l e) <-> belongs h (m_suffixes m) l e x).
Proof.
  intros U. unfold chosen, belongs. cbn [In]. rewrite in_flat_map. split.
  - intros [->|(s & Is & I)]; [auto|]. right.
    destruct (String.eqb_spec s "") as [->|N]; [destruct I|].
    destruct (assoc (oname h e ++ s)%string _) as [y|] eqn:A; [|destruct I].
    destruct I as [->|[]]. apply emap_fold in A as [[I E]|A]; [|discriminate]. eauto 10.
  - intros [->|(I & s & Is & N & E)]; [auto|]. right. exists s. split; [exact Is|].
    destruct (String.eqb_spec s "") as [X|_]; [contradiction|].
    change (oname h e) with (name_of h e). rewrite <- E.
    rewrite emap_fold_in by auto. now left.
Qed.

Lemma app_self a s : (a ++ s)%string = a -> s = "".
Proof.
  intros E. apply (f_equal String.length) in E. rewrite str_length_app in E.
  destruct s; [reflexivity|cbn in E; lia].
Qed.

Lemma nodup_filter_eq (l : list string) : NoDup l -> NoDup (filter (fun s => negb (String.eqb s "")) l).
Proof. apply NoDup_filter. Qed.

Lemma chosen_nodup h m l e :
  NoDup (filter (fun s => negb (String.eqb s "")) (m_suffixes m)) ->
  NoDup (map (name_of h) (chosen h m l e)).
Proof.
  unfold chosen. set (emap := fold_left _ l []).
  assert (A : forall n x, assoc n emap = Some x -> name_of h x = n).
  { intros n x E. unfold emap in E. apply emap_fold in E as [[_ E]|E]; [exact E|discriminate]. }
  clearbody emap. change (oname h e) with (name_of h e). cbn [map].
  intros ND. constructor.
  - intros I. apply in_map_iff in I as (x & E & I). apply in_flat_map in I as (s & Is0 & I).
    destruct (String.eqb s "") eqn:SE; [destruct I|]. apply String.eqb_neq in SE as N.
    destruct (assoc (name_of h e ++ s)%string emap) as [y|] eqn:Y; [|destruct I].
    destruct I as [->|[]]. apply A in Y. rewrite Y in E. apply app_self in E. contradiction.
  - induction (m_suffixes m) as [|s ss IH]; cbn [flat_map map]; [constructor|].
    cbn [filter] in ND. rewrite map_app.
    destruct (String.eqb_spec s "") as [->|N]; cbn [negb] in ND; [apply IH, ND|].
    apply NoDup_cons_iff in ND as [N1 N2].
    destruct (assoc (name_of h e ++ s)%string emap) as [y|] eqn:Y; cbn [map app]; [|auto].
    constructor; [|auto]. intros I. apply N1. apply in_map_iff in I as (x & E & I).
    apply in_flat_map in I as (s' & Is & I). apply filter_In.
    destruct (String.eqb_spec s' "") as [->|N']; [destruct I|].
    destruct (assoc (name_of h e ++ s')%string emap) as [z|] eqn:Z; [|destruct I].
    destruct I as [->|[]]. apply A in Y, Z. rewrite Y, Z in E. apply str_app_inv_head in E. rewrite E in Is.
    split; [exact Is|]. apply negb_true_iff. now apply String.eqb_neq.
Qed.

(** ** A chain of packages in an empty box *)

Lemma pkg_make_fresh ns : forall h p po f,
  ns <> [] -> (forall n, In n ns -> valid_name n) -> get h p = Some po ->
  o_packages po = [] -> o_elements po = [] -> o_map po = [] ->
  String.length (join "/" ns) < f ->
  exists h' q, pkg_make f h p (join "/" ns) = (h', Ok q) /\ only_path h' p ns q /\
    (forall i, i < List.length h -> i <> p -> get h' i = get h i) /\
    (exists po', get h' p = Some po' /\ o_kind po' = o_kind po /\ o_name po' = o_name po /\ o_parent po' = o_parent po) /\
    List.length h <= q /\
    (exists qo, get h' q = Some qo /\ o_kind qo = KPkg /\ o_packages qo = [] /\ o_elements qo = [] /\ o_map qo = []).
Proof.
  induction ns as [|n ns IH]; intros h p po f NE V Ep P0 E0 M0 L; [contradiction|].
  destruct f as [|f]; [lia|]. destruct (V n (or_introl eq_refl)) as [V1 V2].
  rewrite pkg_make_eq.
  assert (SS : starts_slash (join "/" (n :: ns)) = false).
  { destruct ns; [now apply starts_slash_mem|]. rewrite join_cons, starts_slash_app by exact V1. now apply starts_slash_mem. }
  rewrite SS.
  assert (PT : partition_slash (join "/" (n :: ns)) = (n, join "/" ns)).
  { unfold partition_slash. destruct ns; [cbn; now apply partition_no|].
    rewrite join_cons. apply (partition_sep slash n). exact V2. }
  rewrite PT. cbv zeta. rewrite Ep, M0. cbn [assoc].
  unfold create_package. rewrite Ep, M0. cbn [assoc]. unfold alloc. cbv zeta.
  set (q := List.length h). set (h1 := upd (upd (h ++ [new_obj KPkg n]) q (set_parent p)) p (add_package n q)).
  pose proof (get_lt _ _ _ Ep) as Lp.
  assert (H1 : h1 = attach add_package (h ++ [new_obj KPkg n]) p q n) by reflexivity.
  assert (Gp : get h1 p = Some (add_package n q po)).
  { rewrite H1, get_attach, get_alloc. replace (Nat.eqb p (List.length h)) with false by (symmetry; apply Nat.eqb_neq; lia).
    rewrite Ep, Nat.eqb_refl. replace (Nat.eqb q p) with false by (symmetry; apply Nat.eqb_neq; unfold q; lia). reflexivity. }
  assert (Gq : get h1 q = Some (mkObj KPkg n (Some p) [] [] [])).
  { rewrite H1, get_attach, get_alloc. unfold q at 1. rewrite Nat.eqb_refl.
    replace (Nat.eqb p q) with false by (symmetry; apply Nat.eqb_neq; unfold q; lia). rewrite Nat.eqb_refl. reflexivity. }
  assert (Go : forall i, i < List.length h -> i <> p -> get h1 i = get h i).
  { intros i Li Ni. rewrite H1, get_attach, get_alloc.
    replace (Nat.eqb i (List.length h)) with false by (symmetry; apply Nat.eqb_neq; lia).
    replace (Nat.eqb p i) with false by (symmetry; apply Nat.eqb_neq; congruence).
    replace (Nat.eqb q i) with false by (symmetry; apply Nat.eqb_neq; unfold q; lia).
    destruct (get h i); reflexivity. }
  assert (Ln : List.length h1 = S (List.length h)).
  { unfold h1. rewrite !upd_length, app_length. cbn. lia. }
  clearbody h1.
  destruct ns as [|n2 ns].
  - cbn [join]. cbn [String.eqb]. exists h1, q. split; [reflexivity|]. split.
    { apply op_here; unfold packages_of, elements_of, name_of.
      - change (nth_error h1 p) with (get h1 p). rewrite Gp. cbn. now rewrite P0.
      - change (nth_error h1 p) with (get h1 p). rewrite Gp. cbn. exact E0.
      - change (nth_error h1 q) with (get h1 q). now rewrite Gq.
      - change (nth_error h1 q) with (get h1 q). now rewrite Gq. }
    split; [exact Go|]. split; [eexists; split; [exact Gp|auto]|]. split; [unfold q; lia|].
    eexists. split; [exact Gq|auto].
  - assert (JN : join "/" (n2 :: ns) <> "").
    { destruct (join_last_end (n2 :: ns)) as [X _]; [discriminate|intros; apply V; now right|exact X]. }
    replace (String.eqb (join "/" (n2 :: ns)) "") with false by (symmetry; now apply String.eqb_neq).
    destruct (IH h1 q _ f ltac:(discriminate) (fun m I => V m (or_intror I)) Gq eq_refl eq_refl eq_refl)
      as (h' & q' & E & OP & Ot & (po' & Gq' & Kq' & Nq' & _) & Lq & QO).
    { rewrite join_cons, !str_length_app in L. cbn [String.length] in L. lia. }
    exists h', q'. split; [exact E|].
    assert (Gp' : get h' p = Some (add_package n q po)) by (rewrite Ot by (unfold q; lia); exact Gp).
    split.
    { apply (op_down h' p n q); auto; unfold packages_of, elements_of, name_of.
      - change (nth_error h' p) with (get h' p). rewrite Gp'. cbn. now rewrite P0.
      - change (nth_error h' p) with (get h' p). rewrite Gp'. cbn. exact E0.
      - change (nth_error h' q) with (get h' q). rewrite Gq'. exact Nq'. }
    split.
    { intros i Li Ni. rewrite Ot by (unfold q; lia). auto. }
    split; [eexists; split; [exact Gp'|auto]|]. split; [lia|]. exact QO.
Qed.

Lemma coll_make_fresh ns h d co :
  ns <> [] -> (forall n, In n ns -> valid_name n) -> get h d = Some co ->
  o_packages co = [] -> o_elements co = [] -> o_map co = [] ->
  exists h' q, coll_make h d (abs ns) = (h', Ok q) /\ only_path h' d ns q /\
    (forall i, i < List.length h -> i <> d -> get h' i = get h i) /\
    List.length h <= q /\
    (exists qo, get h' q = Some qo /\ o_kind qo = KPkg /\ o_packages qo = [] /\ o_elements qo = [] /\ o_map qo = []).
Proof.
  intros NE V Ed P0 E0 M0.
  destruct (pkg_make_fresh ns h d co (S (String.length (join "/" ns))) NE V Ed P0 E0 M0 (Nat.lt_succ_diag_r _))
    as (h' & q & E & OP & Ot & _ & Lq & QO).
  exists h', q. split; [|auto].
  destruct ns as [|n ns]; [contradiction|]. destruct (V n (or_introl eq_refl)) as [V1 V2].
  unfold coll_make. change (strip_slash (abs (n :: ns))) with (join "/" (n :: ns)). cbv zeta.
  rewrite pkg_make_eq in E.
  assert (SS : starts_slash (join "/" (n :: ns)) = false).
  { destruct ns; [now apply starts_slash_mem|]. rewrite join_cons, starts_slash_app by exact V1. now apply starts_slash_mem. }
  rewrite SS in E. 
  assert (PT : partition_slash (join "/" (n :: ns)) = (n, join "/" ns)).
  { unfold partition_slash. destruct ns; [cbn; now apply partition_no|].
    rewrite join_cons. apply (partition_sep slash n). exact V2. }
  rewrite PT in *. cbv zeta in E. rewrite Ed, M0 in *. cbn [assoc] in *.
  destruct (create_package h d n) as [h1 [q1|x]]; [|exact E].
  destruct (String.eqb (join "/" ns) "") eqn:JE; [exact E|].
  (* fuel: both are enough *)
  destruct ns as [|n2 ns]; [discriminate|].
  assert (F : forall f f' h p s h' q, pkg_make f h p s = (h', Ok q) -> f' > String.length s -> pkg_make f' h p s = (h', Ok q)).
  { clear. induction f as [|f IH]; intros f' h p s h' q E L; [discriminate|].
    destruct f' as [|f']; [lia|]. rewrite pkg_make_eq in *.
    destruct (starts_slash s); [exact E|]. destruct (partition_slash s) as [n rest] eqn:P. cbv zeta in *.
    assert (LL : rest <> "" -> f' > String.length rest).
    { intros N. pose proof (partition_len _ _ _ _ P N). lia. }
    destruct (get h p) as [po|]; [|exact E].
    destruct (assoc n (o_map po)) as [q1|].
    - destruct (get h q1) as [qo|]; [|exact E]. destruct (o_kind qo); try exact E.
      destruct (String.eqb_spec rest ""); [exact E|]. auto.
    - destruct (create_package h p n) as [h1 [q1|x]]; [|exact E].
      destruct (String.eqb_spec rest ""); [exact E|]. auto. }
  eapply F; [exact E|lia].
Qed.

(** ** Appending the elements *)

Lemma append_all_spec h q l :
  has_kind KPkg h q -> Inv h -> (forall e, In e l -> is_arelement h e = true) ->
  forall qo, get h q = Some qo ->
  NoDup (map (name_of h) l) -> (forall e, In e l -> assoc (name_of h e) (o_map qo) = None) ->
  exists h' qo', append_all h q l = (h', Ok tt) /\ same_except q h h' /\
    get h' q = Some qo' /\ o_elements qo' = o_elements qo ++ l /\ o_packages qo' = o_packages qo /\
    o_parent qo' = o_parent qo /\
    (forall i o, get h i = Some o -> o_kind o = KPkg \/ o_kind o = KColl -> i <> q -> get h' i = Some o).
Proof.
  revert h. induction l as [|e l IH]; intros h KQ I AR qo Eq ND FR.
  - exists h, qo. rewrite app_nil_r. split; [reflexivity|]. split; [apply same_except_refl|]. auto 10.
  - cbn [append_all]. pose proof (AR e (or_introl eq_refl)) as ARe.
    unfold is_arelement, is_kind in ARe. destruct (get h e) as [eo|] eqn:Ee; [|discriminate].
    assert (KE : o_kind eo = KElem \/ o_kind eo = KComp) by (destruct (o_kind eo); cbn in ARe; auto; discriminate).
    assert (Ne : name_of h e = o_name eo) by (unfold name_of; change (nth_error h e) with (get h e); now rewrite Ee).
    assert (KQo : o_kind qo = KPkg).
    { destruct KQ as (x & X & Y). change (nth_error h q) with (get h q) in X. congruence. }
    assert (D : e <> q) by (intros ->; destruct KE; congruence).
    pose proof (FR e (or_introl eq_refl)) as Fe. rewrite Ne in Fe.
    assert (PA : pkg_append h q e = (attach add_element h q e (o_name eo), Ok tt)).
    { unfold pkg_append. rewrite Eq, Ee, Fe. destruct KE as [-> | ->]; reflexivity. }
    rewrite PA. set (h1 := attach add_element h q e (o_name eo)) in *.
    assert (S1 : same_except q h h1).
    { split; [unfold h1, attach; now rewrite !upd_length|]. intros i o E.
      change (nth_error h1 i) with (get h1 i). change (nth_error h i) with (get h i) in E.
      unfold h1. rewrite get_attach, E. eexists. split; [reflexivity|].
      destruct (Nat.eqb_spec q i) as [->|N], (Nat.eqb_spec e i) as [->|N2]; cbn; auto 10;
        (split; [reflexivity|]; split; [reflexivity|]; intros Y; try contradiction; auto). }
    assert (I1 : Inv h1).
    { pose proof (inv_pkg_append h q e I) as X. rewrite PA in X. apply X. eauto. }
    assert (Gq : get h1 q = Some (add_element (o_name eo) e qo)).
    { unfold h1. rewrite get_attach, Eq, Nat.eqb_refl. replace (Nat.eqb e q) with false by (symmetry; now apply Nat.eqb_neq). reflexivity. }
    assert (NM : forall i, name_of h1 i = name_of h i) by (intros; now apply (name_of_se q)).
    apply NoDup_cons_iff in ND as [N1 N2].
    destruct (IH h1) with (qo := add_element (o_name eo) e qo) as (h' & qo' & A & S & G & El & Pk & Pa & Bx).
    + now apply (same_except_kind q h h1).
    + exact I1.
    + intros x Ix. pose proof (AR x (or_intror Ix)) as X. unfold is_arelement in *.
      apply orb_true_iff in X as [X|X]; apply is_kind_has in X; apply (same_except_kind q h h1) in X; auto;
        apply is_kind_has in X; rewrite X; auto using orb_true_r.
    + exact Gq.
    + erewrite map_ext; [exact N2|]. auto.
    + intros x Ix. rewrite NM. cbn. rewrite assoc_set_other; [apply FR; now right|].
      rewrite <- Ne. intros X. apply N1. rewrite <- X. now apply in_map.
    + exists h', qo'. split; [exact A|]. split; [eapply same_except_trans; eauto|]. split; [exact G|].
      split; [rewrite El; cbn; now rewrite <- app_assoc|]. split; [exact Pk|]. split; [exact Pa|].
      intros i o Ei Ki Ni. apply Bx; auto. unfold h1. rewrite get_attach, Ei.
      replace (Nat.eqb q i) with false by (symmetry; apply Nat.eqb_neq; congruence).
      replace (Nat.eqb e i) with false; [reflexivity|]. symmetry. apply Nat.eqb_neq. intros ->.
      rewrite Ee in Ei. injection Ei as ->. destruct Ki, KE; congruence.
Qed.

(** ** One generated document *)

(** Old objects are unchanged, except that elements may have another parent. *)
Definition kept (h h' : heap) : Prop :=
  forall i o, get h i = Some o -> exists o', get h' i = Some o' /\
    o_kind o' = o_kind o /\ o_name o' = o_name o /\ o_packages o' = o_packages o /\
    o_elements o' = o_elements o /\ o_map o' = o_map o /\
    (o_kind o = KPkg \/ o_kind o = KColl -> o' = o).

Lemma kept_refl h : kept h h.
Proof. intros i o E. exists o. auto 10. Qed.

Lemma kept_trans a b c : kept a b -> kept b c -> kept a c.
Proof.
  intros H1 H2 i o E. destruct (H1 i o E) as (o1 & E1 & K1 & N1 & P1 & L1 & M1 & X1).
  destruct (H2 i o1 E1) as (o2 & E2 & K2 & N2 & P2 & L2 & M2 & X2).
  exists o2. split; [exact E2|]. split; [congruence|]. split; [congruence|]. split; [congruence|].
  split; [congruence|]. split; [congruence|]. intros K. rewrite X2, X1; auto. rewrite K1. auto.
Qed.

Lemma kept_name h h' i : kept h h' -> i < List.length h -> name_of h' i = name_of h i.
Proof.
  intros K L. unfold name_of. destruct (nth_error h i) as [o|] eqn:E; [|apply nth_error_None in E; lia].
  destruct (K i o E) as (o' & E' & _ & N & _). change (nth_error h' i) with (get h' i). now rewrite E'.
Qed.

Lemma kept_up h h' i l r o : Inv h -> kept h h' -> get h i = Some o -> o_kind o = KPkg ->
  up h i l r -> up h' i l r.
Proof.
  intros I K Ei Ki U. pose proof (up_box h i l r o I U Ei (or_introl Ki)) as B.
  assert (G : forall x o, get h x = Some o -> o_kind o = KPkg \/ o_kind o = KColl -> get h' x = Some o).
  { intros x xo Ex Kx. destruct (K x xo Ex) as (o' & E' & _ & _ & _ & _ & _ & X). rewrite E'. now rewrite X. }
  assert (KB : o_kind o = KPkg \/ o_kind o = KColl) by auto. clear Ki.
  revert o Ei KB. induction U as [i o' E P|i o' p l r E P U IH]; intros o Ei KB.
  - rewrite E in Ei. injection Ei as <-. eapply up_end; eauto.
  - rewrite E in Ei. injection Ei as <-. eapply up_step; eauto.
    destruct (B p (or_introl eq_refl)) as (po & Ep & Kp).
    eapply IH; eauto. intros a Ia. apply B. now right.
Qed.

Lemma kept_ref h h' i o s : Inv h -> Inv h' -> kept h h' -> get h i = Some o -> o_kind o = KPkg ->
  calc_ref h i = Ok (Some s) -> calc_ref h' i = Ok (Some s).
Proof.
  intros I I' K Ei Ki C. destruct (calc_ref_some h i s I C) as (l & c & U & KC & NL).
  pose proof (kept_up h h' i l c o I K Ei Ki U) as U'.
  assert (NC : kd h i <> Some KColl) by (unfold kd; rewrite Ei; congruence).
  assert (NC' : kd h' i <> Some KColl).
  { unfold kd. destruct (K i o Ei) as (o' & -> & X & _). congruence. }
  rewrite (calc_ref_up h i l c I U NC), KC in C. rewrite (calc_ref_up h' i l c I' U' NC').
  assert (KC' : kd h' c = Some KColl).
  { unfold kd in *. destruct (get h c) as [co|] eqn:Ec; [|discriminate].
    destruct (K c co Ec) as (o' & -> & X & _). congruence. }
  rewrite KC'. replace (map (nm h') (i :: removelast l)) with (map (nm h) (i :: removelast l)); [exact C|].
  apply map_ext_in. intros a Ia. symmetry.
  change (nm h' a = nm h a). apply (kept_name h h' a K).
  assert (Ia' : In a (i :: l)).
  { destruct Ia as [<-|Ia]; [now left|right]. clear -Ia. induction l as [|x l IH]; [destruct Ia|].
    destruct l as [|y l]; [destruct Ia|]. destruct Ia as [<-|Ia]; [now left|right; apply IH, Ia]. }
  destruct Ia' as [<-|Ia']; [eapply get_lt; eauto|].
  destruct (up_box h i l c o I U Ei (or_introl Ki) a Ia') as (ao & Ea & _). eapply get_lt; eauto.
Qed.

Lemma only_path_se h h' d ns q : same_except q h h' -> packages_of h' q = packages_of h q ->
  packages_of h q = [] -> only_path h d ns q -> only_path h' d ns q.
Proof.
  intros S PQ PE OP. assert (PK : forall i, packages_of h i <> [] ->
      packages_of h' i = packages_of h i /\ elements_of h' i = elements_of h i).
  { intros i N. assert (D : i <> q) by (intros ->; contradiction).
    pose proof (same_except_get q h h' i S) as X. unfold packages_of, elements_of in *.
    change (nth_error h i) with (get h i) in *. change (nth_error h' i) with (get h' i).
    destruct (get h i); [|contradiction]. destruct X as (o' & -> & _ & _ & C). destruct (C D) as (-> & -> & _). auto. }
  induction OP as [d n q P E N Q|d n p ns q P E N OP IH].
  - destruct (PK d) as (A & B); [rewrite P; discriminate|].
    apply op_here; [rewrite A; exact P|rewrite B; exact E|rewrite (name_of_se q h h'); auto|congruence].
  - destruct (PK d) as (A & B); [rewrite P; discriminate|].
    apply (op_down h' d n p ns q); [rewrite A; exact P|rewrite B; exact E|rewrite (name_of_se q h h'); auto|auto].
Qed.

Lemma append_all_reachable l : forall h q h' r, reachable h -> has_kind KPkg h q -> append_all h q l = (h', r) -> reachable h'.
Proof.
  induction l as [|e l IH]; cbn [append_all]; intros h q h' r R K E; [congruence|].
  destruct (pkg_append h q e) as [h1 [u|x]] eqn:P.
  - eapply IH; [eapply reachable_append; eauto| |exact E].
    pose proof (inv_pkg_append h q e (inv_reachable h R) K) as I. rewrite P in I.
    unfold pkg_append in P. destruct K as (qo & Eq & Kq). change (nth_error h q) with (get h q) in Eq. rewrite Eq in P.
    destruct (get h e) as [eo|] eqn:Ee; [|discriminate].
    assert (S : same_ids h h1).
    { destruct (o_kind eo); try discriminate; destruct (assoc (o_name eo) (o_map qo)); try discriminate;
        injection P as <- _; apply (same_attach _ h q e (o_name eo)); auto. }
    destruct (S q qo Eq) as (o' & E' & K' & _). exists o'. split; [exact E'|congruence].
  - injection E as <- _. eapply reachable_append; eauto.
Qed.

Lemma write_mapped_ok root h m pkg po ns e :
  reachable h -> get h pkg = Some po -> o_kind po = KPkg ->
  ns <> [] -> (forall n, In n ns -> valid_name n) -> calc_ref h pkg = Ok (Some (abs ns)) ->
  In e (o_elements po) -> NoDup (filter (fun s => negb (String.eqb s "")) (m_suffixes m)) ->
  exists h' f, write_mapped root h m pkg (o_elements po) e = (h', Ok f) /\ kept h h' /\ reachable h' /\
    file_ok h root m ns (o_elements po) e f.
Proof.
  intros R Ep KP NE V C Ie ND. pose proof (inv_reachable h R) as I.
  unfold write_mapped. cbv zeta. set (l := sort_named h (chosen h m (o_elements po) e)).
  unfold alloc. set (d := List.length h). set (h1 := h ++ [new_obj KColl ""]).
  assert (R1 : reachable h1) by exact (reachable_step h (ONew KColl "") R).
  assert (C1 : calc_ref h1 pkg = Ok (Some (abs ns))).
  { eapply calc_ref_ext; [|exact C]. intros i o E. exists o.
    split; [unfold h1; rewrite nth_error_app1; auto; apply nth_error_Some; congruence|].
    repeat split; exists []; now rewrite app_nil_r. }
  rewrite C1.
  assert (Gd : get h1 d = Some (new_obj KColl "")).
  { unfold h1, d. rewrite get_alloc, Nat.eqb_refl. reflexivity. }
  destruct (coll_make_fresh ns h1 d _ NE V Gd eq_refl eq_refl eq_refl) as (h2 & q & M & OP & Old & Lq & (qo & Gq & Kq & Pq & Eq0 & Mq)).
  rewrite M.
  assert (L1 : List.length h1 = S (List.length h)) by (unfold h1; rewrite app_length; cbn; lia).
  assert (Old' : forall i, i < List.length h -> get h2 i = get h i).
  { intros i Li. rewrite Old by (unfold d; lia). unfold h1. rewrite get_alloc.
    replace (Nat.eqb i (List.length h)) with false by (symmetry; apply Nat.eqb_neq; lia). reflexivity. }
  assert (KD : has_kind KColl h1 d) by (eexists; split; [exact Gd|reflexivity]).
  assert (R2 : reachable h2) by (eapply reachable_make; eauto).
  assert (U : forall a b, In a (o_elements po) -> In b (o_elements po) -> name_of h a = name_of h b -> a = b).
  { intros a b Ia Ib N. destruct (children_unique_inv h pkg I po Ep (or_introl KP)) as (X & _ & _).
    assert (La : a < List.length h) by (apply (g_kids h pkg po (I pkg po Ep)); unfold kids; apply in_or_app; auto).
    assert (Lb : b < List.length h) by (apply (g_kids h pkg po (I pkg po Ep)); unfold kids; apply in_or_app; auto).
    apply (X a b (name_of h a)); try (apply in_or_app; auto).
    - unfold name_is, name_of. destruct (nth_error h a) as [o|] eqn:E; [eauto|apply nth_error_None in E; lia].
    - rewrite N. unfold name_is, name_of. destruct (nth_error h b) as [o|] eqn:E; [eauto|apply nth_error_None in E; lia]. }
  assert (Sub : forall x, In x l -> In x (o_elements po)).
  { intros x Ix. unfold l in Ix. eapply Permutation_in in Ix; [|apply sort_perm].
    apply chosen_spec in Ix; [|exact U]. destruct Ix as [->|(Ix & _)]; auto. }
  assert (El : forall x, In x l -> x < List.length h /\ is_arelement h x = true).
  { intros x Ix. apply Sub in Ix. pose proof (g_elems h pkg po (I pkg po Ep) x Ix) as G. rewrite KP in G.
    split; [apply (g_kids h pkg po (I pkg po Ep)); unfold kids; apply in_or_app; auto|].
    unfold is_arelement, is_kind. unfold kd in G. destruct (get h x) as [o|]; [|destruct G; discriminate].
    destruct G as [[= ->]|[= ->]]; reflexivity. }
  assert (NM2 : forall x, In x l -> name_of h2 x = name_of h x).
  { intros x Ix. unfold name_of. change (nth_error h2 x) with (get h2 x). rewrite Old' by (apply El, Ix). reflexivity. }
  assert (NDl : NoDup (map (name_of h) l)).
  { unfold l. eapply Permutation_NoDup; [|apply (chosen_nodup h m (o_elements po) e ND)].
    apply Permutation_map. symmetry. apply sort_perm. }
  destruct (append_all_spec h2 q l) with (qo := qo) as (h3 & qo' & A & S3 & G3 & E3 & P3 & _ & Bx).
  { exists qo. auto. }
  { now apply inv_reachable. }
  { intros x Ix. destruct (El x Ix) as (Lx & Ax). unfold is_arelement, is_kind in *. now rewrite Old'. }
  { exact Gq. }
  { erewrite map_ext_in; [exact NDl|]. auto. }
  { intros x _. now rewrite Mq. }
  rewrite A. exists h3. eexists. split; [reflexivity|].
  split; [|split].
  - intros i o Ei. pose proof (get_lt _ _ _ Ei) as Li. rewrite <- Old' in Ei by exact Li.
    pose proof (same_except_get q h2 h3 i S3) as X. rewrite Ei in X.
    destruct X as (o' & E' & K' & N' & Cc). assert (D : i <> q) by lia.
    destruct (Cc D) as (A1 & A2 & A3). exists o'. split; [exact E'|]. split; [exact K'|]. split; [exact N'|].
    split; [exact A1|]. split; [exact A2|]. split; [exact A3|]. intros Kb.
    pose proof (Bx i o Ei Kb D). congruence.
  - eapply append_all_reachable; [exact R2| |exact A]. exists qo. auto.
  - split; [reflexivity|]. exists q. cbn [f_heap f_doc].
    assert (EL : elements_of h3 q = l).
    { unfold elements_of. change (nth_error h3 q) with (get h3 q). rewrite G3, E3, Eq0. reflexivity. }
    rewrite EL. split; [|split; [|split]].
    + eapply only_path_se; [exact S3| | |exact OP].
      * unfold packages_of. change (nth_error h3 q) with (get h3 q). change (nth_error h2 q) with (get h2 q). rewrite G3, Gq. exact P3.
      * unfold packages_of. change (nth_error h2 q) with (get h2 q). now rewrite Gq.
    + intros x. rewrite <- (chosen_spec h m (o_elements po) e x U). unfold l.
      split; intros X; (eapply Permutation_in; [|exact X]); [apply sort_perm|symmetry; apply sort_perm].
    + apply sort_sorted.
    + eapply NoDup_map_inv; exact NDl.
Qed.

(** ** The whole mapping *)

Lemma belongs_kept h h' ss l e x : kept h h' -> e < List.length h -> (forall y, In y l -> y < List.length h) ->
  belongs h' ss l e x <-> belongs h ss l e x.
Proof.
  intros K Le Ll. unfold belongs. split; (intros [->|(I & s & Is & N & E)]; [auto|right]).
  - split; [exact I|]. exists s. rewrite !(kept_name h h') in E; auto.
  - split; [exact I|]. exists s. rewrite !(kept_name h h'); auto.
Qed.

Lemma file_kept h h' root m ns l e f : kept h h' -> e < List.length h -> (forall y, In y l -> y < List.length h) ->
  In e l -> file_ok h' root m ns l e f -> file_ok h root m ns l e f.
Proof.
  intros K Le Ll Iel (P & q & OP & B & S & N). split; [rewrite P, (kept_name h h'); auto|].
  exists q. split; [exact OP|]. split; [|split; [|exact N]].
  - intros x. rewrite B. now apply belongs_kept.
  - assert (IN : forall x, In x (elements_of (f_heap f) q) -> x < List.length h).
    { intros x Ix. apply B in Ix as [->|(Ix & _)]; auto. }
    clear -S IN K. induction S as [|x t S IH F]; [constructor|]. constructor.
    + apply IH. intros; apply IN; now right.
    + rewrite Forall_forall in *. intros y Iy. specialize (F y Iy). unfold leb_name in *.
      rewrite !(kept_name h h') in F; auto; apply IN; [right; exact Iy|left; reflexivity].
Qed.

Lemma write_matched_ok root m pkg po ns :
  ns <> [] -> (forall n, In n ns -> valid_name n) -> o_kind po = KPkg ->
  NoDup (filter (fun s => negb (String.eqb s "")) (m_suffixes m)) ->
  forall todo h, reachable h -> get h pkg = Some po -> calc_ref h pkg = Ok (Some (abs ns)) ->
  (forall e, In e todo -> In e (o_elements po)) ->
  exists h' fs, write_matched root h m pkg (o_elements po) todo = (h', fs, Ok tt) /\ kept h h' /\ reachable h' /\
    Forall2 (file_ok h root m ns (o_elements po)) todo fs.
Proof.
  intros NE V KP ND. induction todo as [|e todo IH]; intros h R Ep C Sub; cbn [write_matched].
  - exists h, []. split; [reflexivity|]. split; [apply kept_refl|]. split; [exact R|constructor].
  - destruct (write_mapped_ok root h m pkg po ns e R Ep KP NE V C (Sub e (or_introl eq_refl)) ND)
      as (h1 & f & -> & K1 & R1 & F1).
    pose proof (inv_reachable h R) as I.
    assert (Ep1 : get h1 pkg = Some po).
    { destruct (K1 pkg po Ep) as (o' & E' & _ & _ & _ & _ & _ & X). rewrite E', X; auto. }
    destruct (IH h1 R1 Ep1) as (h2 & fs & -> & K2 & R2 & F2).
    + eapply kept_ref; eauto. now apply inv_reachable.
    + intros; apply Sub; now right.
    + exists h2, (f :: fs). split; [reflexivity|]. split; [eapply kept_trans; eauto|]. split; [exact R2|].
      constructor; [exact F1|].
      assert (Ll : forall y, In y (o_elements po) -> y < List.length h).
      { intros y Iy. apply (g_kids h pkg po (I pkg po Ep)). unfold kids. apply in_or_app; auto. }
      clear -F2 K1 Ll Sub. assert (Sub' : forall e, In e todo -> In e (o_elements po)) by (intros; apply Sub; now right).
      clear Sub. induction F2 as [|x y xs ys Fx F2 IH]; constructor.
      * assert (X : In x (o_elements po)) by (apply Sub'; now left). eapply file_kept; eauto.
      * apply IH. intros; apply Sub'; now right.
Qed.

Lemma item_find_kept f h h' p ref i :
  Inv h -> kept h h' -> item_find f h p ref = Ok (Some i) -> item_find f h' p ref = Ok (Some i).
Proof.
  intros H G. revert p ref; induction f as [|f IH]; intros p ref E; [discriminate|].
  cbn [item_find] in *. destruct (get h p) as [po|] eqn:Ep; [|discriminate].
  destruct (G p po Ep) as (po' & Ep' & K & N & P & L & M & _). rewrite Ep', K, L, M.
  destruct (o_kind po) eqn:KP; auto.
  - destruct (partition_slash (strip_slash ref)) as [n rest].
    destruct (assoc n (o_map po)) as [q|] eqn:A; [|discriminate].
    destruct (String.eqb rest ""); auto.
  - rewrite (first_named_same h h'); auto.
    + intros x xo Ex. destruct (G x xo Ex) as (o' & E' & K' & N' & _). eauto.
    + intros j I. apply (g_kids h p po (H p po Ep)). unfold kids. apply in_or_app; auto.
Qed.

Lemma coll_find_kept h h' c ref i :
  Inv h -> kept h h' -> coll_find h c ref = Ok (Some i) -> coll_find h' c ref = Ok (Some i).
Proof.
  intros H G E. unfold coll_find in *. destruct (get h c) as [co|] eqn:Ec; [|discriminate].
  destruct (G c co Ec) as (co' & Ec' & K & N & P & L & M & _). rewrite Ec', M.
  destruct (partition_slash (strip_slash ref)) as [n rest].
  destruct (assoc n (o_map co)) as [q|] eqn:A; [|discriminate].
  destruct (String.eqb rest ""); [exact E|]. eapply item_find_kept; eauto.
Qed.

Lemma gen_mapping_ok root h ws m pkg po ns :
  reachable h -> coll_find h ws (m_ref m) = Ok (Some pkg) -> get h pkg = Some po -> o_kind po = KPkg ->
  ns <> [] -> (forall n, In n ns -> valid_name n) -> calc_ref h pkg = Ok (Some (abs ns)) ->
  NoDup (filter (fun s => negb (String.eqb s "")) (m_suffixes m)) ->
  exists h' fs, gen_mapping root h ws m = (h', fs, Ok tt) /\ kept h h' /\ reachable h' /\
    Forall2 (file_ok h root m ns (o_elements po)) (filter (m_type m) (o_elements po)) fs.
Proof.
  intros R F Ep KP NE V C ND. unfold gen_mapping. rewrite F, Ep, KP.
  apply write_matched_ok; auto. intros e Ie. now apply filter_In in Ie.
Qed.
