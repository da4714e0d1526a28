(** Proofs about the application of templates (C14). *)
From Verif Require Import Base PBase MHeap SHeap PHeap MWork SWork PWork.

(** ** Growth *)

Lemma extends_refl h : extends h h.
Proof.
  intros i o E. exists o. split; [exact E|]. split; [reflexivity|]. split; [reflexivity|].
  split; [reflexivity|]. repeat split; exists []; now rewrite app_nil_r.
Qed.

Lemma extends_trans a b c : extends a b -> extends b c -> extends a c.
Proof.
  intros H1 H2 i o E. destruct (H1 i o E) as (o1 & E1 & K1 & N1 & P1 & (x1 & X1) & (y1 & Y1) & (z1 & Z1)).
  destruct (H2 i o1 E1) as (o2 & E2 & K2 & N2 & P2 & (x2 & X2) & (y2 & Y2) & (z2 & Z2)).
  exists o2. split; [exact E2|]. split; [congruence|]. split; [congruence|]. split; [congruence|].
  split; [|split].
  - exists (x1 ++ x2). now rewrite X2, X1, app_assoc.
  - exists (y1 ++ y2). now rewrite Y2, Y1, app_assoc.
  - exists (z1 ++ z2). now rewrite Z2, Z1, app_assoc.
Qed.

Lemma grown_extends a b : grown a b -> extends a b.
Proof.
  intros G i o E. destruct (G i o E) as (o' & E' & K & N & P & L & X & M).
  exists o'. split; [exact E'|]. split; [exact K|]. split; [exact N|]. split; [exact P|].
  split; [exact X|]. split; [exists []; now rewrite app_nil_r|exact M].
Qed.

Lemma extends_kind h h' i k : extends h h' -> has_kind k h i -> has_kind k h' i.
Proof.
  intros X (o & E & K). destruct (X i o E) as (o' & E' & K' & _). exists o'. split; congruence.
Qed.

Lemma first_named_ext h h' n l new i :
  extends h h' -> (forall j, In j l -> j < List.length h) ->
  first_named h n l = Some i -> first_named h' n (l ++ new) = Some i.
Proof.
  intros X. induction l as [|a l IH]; cbn [first_named app]; intros L; [discriminate|].
  assert (La : a < List.length h) by (apply L; now left).
  assert (L' : forall j, In j l -> j < List.length h) by (intros; apply L; now right).
  destruct (get h a) as [o|] eqn:E; [|apply nth_error_None in E; lia].
  destruct (X a o E) as (o' & E' & _ & N & _). change (nth_error h' a) with (get h' a) in E'.
  rewrite E', N. destruct (String.eqb (o_name o) n); auto.
Qed.

Lemma item_find_ext f h h' p ref i :
  Inv h -> extends h h' -> item_find f h p ref = Ok (Some i) -> item_find f h' p ref = Ok (Some i).
Proof.
  intros H G. revert p ref; induction f as [|f IH]; intros p ref E; [discriminate|].
  cbn [item_find] in *. destruct (get h p) as [po|] eqn:Ep; [|discriminate].
  destruct (G p po Ep) as (po' & Ep' & K & N & P & _ & (y & L) & (m & M)).
  change (nth_error h' p) with (get h' p) in Ep'. rewrite Ep', K.
  destruct (o_kind po) eqn:KP; auto.
  - destruct (partition_slash (strip_slash ref)) as [n rest].
    destruct (assoc n (o_map po)) as [q|] eqn:A; [|discriminate].
    rewrite M, assoc_app, A. destruct (String.eqb rest ""); auto.
  - rewrite L. injection E as E. f_equal. eapply first_named_ext; eauto.
    intros j I. apply (g_kids h p po (H p po Ep)). unfold kids. apply in_or_app; auto.
Qed.

Lemma coll_find_ext h h' c ref i :
  Inv h -> extends h h' -> coll_find h c ref = Ok (Some i) -> coll_find h' c ref = Ok (Some i).
Proof.
  intros H G E. unfold coll_find in *. destruct (get h c) as [co|] eqn:Ec; [|discriminate].
  destruct (G c co Ec) as (co' & Ec' & K & N & P & _ & _ & (m & M)).
  change (nth_error h' c) with (get h' c) in Ec'. rewrite Ec'.
  destruct (partition_slash (strip_slash ref)) as [n rest].
  destruct (assoc n (o_map co)) as [q|] eqn:A; [|discriminate].
  rewrite M, assoc_app, A. destruct (String.eqb rest ""); [exact E|].
  eapply item_find_ext; eauto.
Qed.

(** Making packages again in a later state changes nothing. *)
Lemma pkg_make_ext f h p ref h' q h'' :
  pkg_make f h p ref = (h', Ok q) ->
  pkg_make f h' p ref = (h', Ok q) -> extends h' h'' -> pkg_make f h'' p ref = (h'', Ok q).
Proof.
  intros _ E X. revert p ref q E. induction f as [|f IH]; intros p ref q E; [discriminate|].
  rewrite pkg_make_eq in *. destruct (starts_slash ref); [discriminate|].
  destruct (partition_slash ref) as [n rest]. cbv zeta in *.
  destruct (get h' p) as [po|] eqn:Ep; [|discriminate].
  destruct (X p po Ep) as (po' & Ep' & K & N & P & _ & _ & (m & M)).
  change (nth_error h'' p) with (get h'' p) in Ep'. rewrite Ep'.
  destruct (assoc n (o_map po)) as [q1|] eqn:A.
  - rewrite M, assoc_app, A. destruct (get h' q1) as [qo|] eqn:Eq; [|discriminate].
    destruct (X q1 qo Eq) as (qo' & Eq' & Kq & _). change (nth_error h'' q1) with (get h'' q1) in Eq'.
    rewrite Eq', Kq. destruct (o_kind qo); try discriminate.
    destruct (String.eqb rest ""); [congruence|]. auto.
  - exfalso. unfold create_package in E. rewrite Ep, A in E. unfold alloc in E. cbv zeta in E.
    assert (L : List.length h' < List.length (upd (upd (h' ++ [new_obj KPkg n]) (List.length h') (set_parent p)) p (add_package n (List.length h')))).
    { rewrite !upd_length, app_length. cbn. lia. }
    destruct (String.eqb rest "").
    + injection E as E _. rewrite E in L. lia.
    + revert E L.
      generalize (upd (upd (h' ++ [new_obj KPkg n]) (List.length h') (set_parent p)) p (add_package n (List.length h'))).
      intros g E L. assert (Mono : forall f a b s r, pkg_make f a b s = r -> List.length a <= List.length (fst r)).
      { clear. induction f as [|f IH]; intros a b s r <-; [cbn; lia|]. rewrite pkg_make_eq.
        destruct (starts_slash s); [cbn; lia|]. destruct (partition_slash s) as [n rest]. cbv zeta.
        destruct (get a b) as [po|] eqn:Ep; [|cbn; lia].
        destruct (assoc n (o_map po)) as [q1|] eqn:A.
        - destruct (get a q1) as [qo|]; [|cbn; lia]. destruct (o_kind qo); cbn [fst]; try lia.
          destruct (String.eqb rest ""); [cbn; lia|]. apply (IH a q1 rest _ eq_refl).
        - unfold create_package. rewrite Ep, A. unfold alloc. cbv zeta.
          destruct (String.eqb rest ""); cbn [fst].
          + rewrite !upd_length, app_length. lia.
          + etransitivity; [|apply (IH _ _ _ _ eq_refl)]. rewrite !upd_length, app_length. lia. }
      apply Mono in E. cbn [fst] in E. lia.
Qed.

Lemma coll_make_ext h c ref h' q h'' :
  Inv h -> has_kind KColl h c -> coll_make h c ref = (h', Ok q) -> extends h' h'' ->
  coll_make h'' c ref = (h'', Ok q).
Proof.
  intros I (co & Ec & KC) E X.
  destruct (coll_make_find _ _ _ _ _ _ I Ec KC E) as [F A]. clear E.
  unfold coll_make, coll_find in *. cbv zeta in *.
  destruct (partition_slash (strip_slash ref)) as [n rest].
  destruct (get h' c) as [co'|] eqn:Ec'; [|discriminate].
  destruct (X c co' Ec') as (co2 & Ec2 & K & N & P & _ & _ & (m & M)).
  change (nth_error h'' c) with (get h'' c) in Ec2. rewrite Ec2.
  destruct (assoc n (o_map co')) as [q1|] eqn:A1; [|discriminate].
  rewrite M, assoc_app, A1. destruct (String.eqb rest ""); [congruence|].
  eapply pkg_make_ext; eauto.
Qed.

Lemma ref_parts_ext f f' h h' i r :
  extends h h' -> f <= f' -> ref_parts f h i = Ok r -> ref_parts f' h' i = Ok r.
Proof.
  intros X. revert f' i r; induction f as [|f IH]; intros f' i r L E; [discriminate|].
  destruct f' as [|f']; [lia|]. cbn [ref_parts] in *.
  destruct (get h i) as [o|] eqn:Ei; [|discriminate].
  destruct (X i o Ei) as (o' & E' & K & N & P & _). change (nth_error h' i) with (get h' i) in E'.
  rewrite E', K, N, P. destruct (o_kind o), (o_parent o) as [p|]; auto;
    (destruct (ref_parts f h p) as [x|] eqn:R; cbn [bind] in E; [|discriminate];
     rewrite (IH f' p x) by (auto; lia); exact E).
Qed.

Lemma extends_len h h' : extends h h' -> List.length h <= List.length h'.
Proof.
  intros X. destruct (Nat.le_gt_cases (List.length h) (List.length h')) as [L|L]; auto.
  destruct (nth_error h (List.length h')) as [o|] eqn:E.
  - destruct (X _ _ E) as (o' & E' & _).
    assert (Y : List.length h' < List.length h') by (apply nth_error_Some; congruence). lia.
  - apply nth_error_None in E. lia.
Qed.

Lemma calc_ref_ext h h' i r : extends h h' -> calc_ref h i = Ok r -> calc_ref h' i = Ok r.
Proof.
  intros X E. unfold calc_ref in *. destruct (get h i) as [o|] eqn:Ei; [|discriminate].
  destruct (X i o Ei) as (o' & E' & K & N & P & _). change (nth_error h' i) with (get h' i) in E'.
  rewrite E', N, P. destruct (o_parent o) as [p|]; auto.
  destruct (ref_parts (S (List.length h)) h p) as [x|] eqn:R; cbn [bind] in E; [|discriminate].
  assert (L : S (List.length h) <= S (List.length h')) by (apply extends_len in X; lia).
  rewrite (ref_parts_ext _ _ _ _ _ _ X L R). exact E.
Qed.

Lemma is_kind_has k h i : is_kind k h i = true <-> has_kind k h i.
Proof.
  unfold is_kind, has_kind. change (nth_error h i) with (get h i). split.
  - destruct (get h i) as [o|]; [|discriminate]. intros E. exists o. split; auto.
    destruct k, (o_kind o); congruence.
  - intros (o & -> & <-). destruct (o_kind o); reflexivity.
Qed.

Lemma arelement_ext h h' e : extends h h' -> is_arelement h e = true -> is_arelement h' e = true.
Proof.
  unfold is_arelement. intros X E. apply orb_true_iff in E as [E|E]; apply is_kind_has in E;
    eapply extends_kind in E; eauto; apply is_kind_has in E; rewrite E; auto using orb_true_r.
Qed.

Lemma dep_entry_ext h h' e x : extends h h' -> dep_entry h e = Ok x -> dep_entry h' e = Ok x.
Proof.
  unfold dep_entry. intros X E. destruct (is_arelement h e) eqn:A; [|discriminate].
  rewrite (arelement_ext _ _ _ X A). destruct (calc_ref h e) as [r|] eqn:C; cbn [bind] in E; [|discriminate].
  rewrite (calc_ref_ext _ _ _ _ X C). exact E.
Qed.

(** ** Reachability of the steps of [apply_own] *)

Lemma reachable_step h o : reachable h -> reachable (fst (step h o)).
Proof. intros [ops ->]. exists (ops ++ [o]). unfold run. now rewrite fold_left_app. Qed.

Lemma reachable_make h c r h' x :
  reachable h -> has_kind KColl h c -> coll_make h c r = (h', x) -> reachable h'.
Proof.
  intros R K E. pose proof (reachable_step h (OMake c r) R) as S. cbn [step] in S.
  apply is_kind_has in K. rewrite K, E in S. now destruct x.
Qed.

Lemma reachable_append h p i h' x :
  reachable h -> has_kind KPkg h p -> pkg_append h p i = (h', x) -> reachable h'.
Proof.
  intros R K E. pose proof (reachable_step h (OPkgAppend p i) R) as S. cbn [step] in S.
  apply is_kind_has in K. rewrite K, E in S. exact S.
Qed.

Lemma item_find_child h p po n g :
  get h p = Some po -> o_kind po = KPkg -> valid_name n -> item_find (S g) h p n = Ok (assoc n (o_map po)).
Proof.
  intros E K [V1 V2]. cbn [item_find]. rewrite E, K.
  rewrite starts_slash_strip by now apply starts_slash_mem.
  unfold partition_slash. rewrite partition_no by exact V2.
  destruct (assoc n (o_map po)); reflexivity.
Qed.

(** Appending an element not present in [h0] to a package. *)
Lemma append_new h0 h p i h' u :
  extends h0 h -> nth_error h0 i = None -> has_kind KPkg h p -> is_arelement h i = true ->
  pkg_append h p i = (h', Ok u) ->
  extends h0 h' /\ exists po' io, get h' p = Some po' /\ o_kind po' = KPkg /\ get h i = Some io /\
    assoc (o_name io) (o_map po') = Some i.
Proof.
  intros X N (po & Ep & KP) AR E. unfold pkg_append in E. change (nth_error h p) with (get h p) in Ep.
  rewrite Ep in E. destruct (get h i) as [io|] eqn:Ei; [|discriminate].
  assert (KI : o_kind io = KElem \/ o_kind io = KComp).
  { unfold is_arelement, is_kind in AR. rewrite Ei in AR. destruct (o_kind io); cbn in AR; auto; discriminate. }
  assert (D : p <> i) by (intros ->; rewrite Ep in Ei; injection Ei as <-; destruct KI; congruence).
  assert (Main : assoc (o_name io) (o_map po) = None -> h' = attach add_element h p i (o_name io) ->
     extends h0 h' /\ exists po' io0, get h' p = Some po' /\ o_kind po' = KPkg /\ Some io = Some io0 /\
       assoc (o_name io0) (o_map po') = Some i).
  { intros A ->. split.
    - intros j o Ej. destruct (X j o Ej) as (o1 & E1 & K & Nm & P & (x & Xx) & (y & Y) & (z & Z)).
      change (nth_error h j) with (get h j) in E1.
      change (nth_error (attach add_element h p i (o_name io)) j) with (get (attach add_element h p i (o_name io)) j).
      rewrite get_attach, E1. assert (ij : i <> j) by (intros ->; congruence).
      replace (Nat.eqb i j) with false by (symmetry; now apply Nat.eqb_neq).
      eexists. split; [reflexivity|]. destruct (Nat.eqb_spec p j) as [->|Np].
      + rewrite Ep in E1. injection E1 as <-. cbn.
        rewrite assoc_set_fresh by exact A. rewrite Xx, Y, Z, <- !app_assoc. eauto 10.
      + eauto 10.
    - exists (add_element (o_name io) i po), io. rewrite get_attach, Ep, Nat.eqb_refl.
      replace (Nat.eqb i p) with false by (symmetry; apply Nat.eqb_neq; congruence).
      split; [reflexivity|]. cbn. split; [exact KP|]. split; [reflexivity|]. apply assoc_set_same. }
  destruct KI as [KI|KI]; rewrite KI in E; destruct (assoc (o_name io) (o_map po)) eqn:A; try discriminate;
    injection E as E; apply Main; auto.
Qed.

(** ** Lookup of a child of a found package *)

Lemma partition_app c a b x y : partition_at c a = (x, y) -> mem_char c a = true ->
  partition_at c (a ++ b)%string = (x, (y ++ b)%string).
Proof.
  revert x y; induction a as [|k a IH]; cbn [partition_at append mem_char]; intros x y P M; [discriminate|].
  destruct (Ascii.eqb k c) eqn:E; [now injection P as <- <-|].
  destruct (partition_at c a) as [u v] eqn:Q. injection P as <- <-.
  cbn in M. now rewrite (IH _ _ eq_refl M).
Qed.

Lemma length_pos s : s <> "" -> 0 < String.length s.
Proof. destruct s; [contradiction|cbn; lia]. Qed.

Lemma split_child s n x y :
  partition_slash s = (x, y) ->
  exists z, partition_slash (s ++ "/" ++ n)%string = (x, z) /\
    ((mem_char slash s = false /\ y = "" /\ z = n) \/
     (mem_char slash s = true /\ z = (y ++ "/" ++ n)%string)).
Proof.
  intros P. destruct (mem_char slash s) eqn:M.
  - exists (y ++ "/" ++ n)%string. split; [|auto]. unfold partition_slash in *.
    erewrite partition_app; eauto.
  - exists n. unfold partition_slash in *. rewrite partition_no in P by exact M. injection P as <- <-.
    split; [|auto]. apply (partition_sep slash s n M).
Qed.

Lemma first_named_mem h n l i : first_named h n l = Some i -> In i l.
Proof.
  induction l as [|a l IH]; cbn [first_named]; [discriminate|].
  destruct (get h a) as [o|]; [destruct (String.eqb (o_name o) n)|].
  - intros [= ->]. now left.
  - right; auto.
  - right; auto.
Qed.

Lemma item_find_deeper h f p ref q qo n :
  Inv h -> ref <> "" -> item_find f h p ref = Ok (Some q) -> get h q = Some qo -> o_kind qo = KPkg ->
  valid_name n ->
  forall g, f < g -> item_find g h p (ref ++ "/" ++ n)%string = Ok (assoc n (o_map qo)).
Proof.
  intros I NE E Eq Kq V. revert p ref NE E; induction f as [|f IH]; intros p ref NE E g L; [discriminate|].
  destruct g as [|g]; [lia|]. cbn [item_find] in *.
  destruct (get h p) as [po|] eqn:Ep; [|discriminate].
  destruct (o_kind po) eqn:KP; try discriminate.
  - assert (SS : strip_slash (ref ++ "/" ++ n) = (strip_slash ref ++ "/" ++ n)%string).
    { destruct ref as [|a r]; [contradiction|]. cbn. destruct (Ascii.eqb a slash); reflexivity. }
    rewrite SS. destruct (partition_slash (strip_slash ref)) as [x y] eqn:P.
    destruct (split_child _ n _ _ P) as (z & -> & C).
    destruct (assoc x (o_map po)) as [q1|] eqn:A; [|discriminate].
    destruct V as [V1 V2].
    destruct C as [(M & -> & ->)|(M & ->)].
    + cbn [String.eqb] in E. injection E as ->.
      destruct (String.eqb_spec n "") as [X|_]; [contradiction|].
      destruct g as [|g]; [lia|]. now apply item_find_child.
    + replace (String.eqb (y ++ "/" ++ n) "") with false by (symmetry; apply String.eqb_neq; destruct y; discriminate).
      destruct (String.eqb_spec y "") as [->|Y].
      * injection E as ->. cbn [append]. destruct g as [|g]; [lia|]. cbn [item_find]. rewrite Eq, Kq.
        change (strip_slash (String "/" n)) with n. unfold partition_slash.
        rewrite partition_no by exact V2. destruct (assoc n (o_map qo)); reflexivity.
      * apply IH; auto. lia.
  - exfalso. injection E as E. apply first_named_mem in E.
    pose proof (g_elems h p po (I p po Ep) q E) as X. rewrite KP in X. unfold kd in X. rewrite Eq in X. congruence.
Qed.

Lemma coll_find_deeper h c ref q qo n :
  Inv h -> ref <> "" -> coll_find h c ref = Ok (Some q) -> get h q = Some qo -> o_kind qo = KPkg ->
  valid_name n -> coll_find h c (ref ++ "/" ++ n)%string = Ok (assoc n (o_map qo)).
Proof.
  intros I NE E Eq Kq V. unfold coll_find in *.
  destruct (get h c) as [co|] eqn:Ec; [|discriminate].
  assert (SS : strip_slash (ref ++ "/" ++ n) = (strip_slash ref ++ "/" ++ n)%string).
  { destruct ref as [|a r]; [contradiction|]. cbn. destruct (Ascii.eqb a slash); reflexivity. }
  rewrite SS. destruct (partition_slash (strip_slash ref)) as [x y] eqn:P.
  destruct (split_child _ n _ _ P) as (z & -> & C).
  destruct (assoc x (o_map co)) as [q1|] eqn:A; [|discriminate].
  pose proof V as [V1 V2].
  destruct C as [(M & -> & ->)|(M & ->)].
  - cbn [String.eqb] in E. injection E as ->.
    destruct (String.eqb_spec n "") as [X|_]; [contradiction|]. now apply item_find_child.
  - replace (String.eqb (y ++ "/" ++ n) "") with false by (symmetry; apply String.eqb_neq; destruct y; discriminate).
    destruct (String.eqb_spec y "") as [->|Y].
    + injection E as ->. cbn [append]. cbn [item_find]. rewrite Eq, Kq.
      change (strip_slash (String "/" n)) with n. unfold partition_slash.
      rewrite partition_no by exact V2. destruct (assoc n (o_map qo)); reflexivity.
    + eapply item_find_deeper; eauto. rewrite !str_length_app. cbn. lia.
Qed.

(** ** Templates *)

Lemma tmpl_ind2 (P : tmpl -> Prop) :
  (forall t, (forall d, In d (tm_depends t) -> P d) -> P t) -> forall t, P t.
Proof.
  intros H. fix IH 1. intros [n ns r deps a c]. apply H. cbn.
  destruct deps as [ds|]; [|intros d []].
  induction ds as [|x ds IHd]; intros d I; [destruct I|].
  destruct I as [<-|I]; [apply IH|apply IHd, I].
Qed.

(** The loop over the dependencies as a function of its own. *)
Fixpoint apply_deps (nss : list (string * namespace)) (c : nat) (ds : list tmpl) (s : tstate)
    (dm : list (string * nat)) : tstate * result (list (string * nat)) :=
  match ds with
  | [] => (s, Ok dm)
  | d :: r =>
      match apply nss c d s with
      | (s1, Err e) => (s1, Err e)
      | (s1, Ok e) =>
          match dep_entry (fst s1) e with
          | Err x => (s1, Err x)
          | Ok (k, _) => apply_deps nss c r s1 (assoc_set k e dm)
          end
      end
  end.

Lemma apply_eq nss c t s :
  apply nss c t s =
  match apply_deps nss c (tm_depends t) s [] with
  | (s1, Err e) => (s1, Err e)
  | (s1, Ok dm) => apply_own nss c t dm s1
  end.
Proof.
  destruct t as [n ns r deps a cr]. cbn [apply tm_depends].
  destruct deps as [ds|]; [|reflexivity].
  match goal with |- match ?x with _ => _ end = match ?y with _ => _ end => replace x with y; [reflexivity|] end.
  generalize (@nil (string * nat)). revert s. induction ds as [|d ds IH]; intros s dm; [reflexivity|].
  cbn [apply_deps]. destruct (apply nss c d s) as [s1 [e|e]]; [|reflexivity].
  destruct (dep_entry (fst s1) e) as [[k x]|]; [|reflexivity]. apply IH.
Qed.

Definition dep_ok (nss : list (string * namespace)) (c : nat) (x : creation) : Prop :=
  forall d, In d (tm_depends (cr_t x)) -> present nss c (cr_before x) d.

(** Invariant of states and logs. *)
Definition J (nss : list (string * namespace)) (c : nat) (h0 : heap) (s : tstate) : Prop :=
  let (h, log) := s in
  reachable h /\ extends h0 h /\
  (forall x, In x log ->
     extends (cr_before x) h /\ dep_ok nss c x /\
     (exists r, tm_ref nss (cr_t x) = Ok r /\ coll_find (cr_before x) c r = Ok None) /\
     (cr_ok x = true -> present nss c h (cr_t x))) /\
  ForallOrdPairs (fun x y => cr_ok x = true -> present nss c (cr_before y) (cr_t x)) log.

Lemma present_ext nss c h h' t : Inv h -> extends h h' -> present nss c h t -> present nss c h' t.
Proof. intros I X (r & e & R & F). exists r, e. split; auto. eapply coll_find_ext; eauto. Qed.

Lemma J_extend nss c h0 h log h' :
  J nss c h0 (h, log) -> reachable h' -> extends h h' -> J nss c h0 (h', log).
Proof.
  intros (R & X & L & O) R' X'. split; [auto|]. split; [eapply extends_trans; eauto|]. split; [|auto].
  intros x I. destruct (L x I) as (A & B & C & D). split; [eapply extends_trans; eauto|].
  split; [auto|]. split; [auto|]. intros K. eapply present_ext; eauto. now apply inv_reachable.
Qed.

Lemma J_log nss c h0 h log x :
  J nss c h0 (h, log) -> extends h0 (cr_before x) ->
  forall h', reachable h' -> extends h h' -> cr_before x = h ->
  dep_ok nss c x -> (exists r, tm_ref nss (cr_t x) = Ok r /\ coll_find (cr_before x) c r = Ok None) ->
  (cr_ok x = true -> present nss c h' (cr_t x)) ->
  J nss c h0 (h', log ++ [x]).
Proof.
  intros Jh _ h' R' X' B D N P. pose proof (J_extend _ _ _ _ _ _ Jh R' X') as (R & X & L & O).
  destruct Jh as (_ & _ & L0 & _). split; [auto|]. split; [auto|]. split.
  - intros y I. apply in_app_iff in I as [I|[<-|[]]]; [auto|].
    split; [rewrite B; exact X'|]. split; [exact D|]. split; [exact N|exact P].
  - revert O. assert (A : forall y, In y log -> cr_ok y = true -> present nss c (cr_before x) (cr_t y)).
    { intros y I K. rewrite B. destruct (L0 y I) as (_ & _ & _ & Y). auto. }
    revert A. clear. induction log as [|y log IH]; cbn [app]; intros A O.
    + constructor; [constructor|constructor].
    + inversion O as [|? ? F O']; subst. constructor.
      * apply Forall_app. split; [exact F|]. constructor; [|constructor]. apply A. now left.
      * apply IH; auto. intros; apply A; auto. now right.
Qed.

(** [done t h e]: in every state that extends [h], applying [t] returns [e] and changes nothing. *)
Definition done nss c (t : tmpl) (h : heap) (e : nat) : Prop :=
  forall h' log, extends h h' -> apply nss c t (h', log) = ((h', log), Ok e).

Definition own_done nss c (t : tmpl) (h : heap) (e : nat) : Prop :=
  forall h' log dm, extends h h' -> apply_own nss c t dm (h', log) = ((h', log), Ok e).

Lemma apply_own_main nss c t dm h0 h log s' r :
  contract t -> valid_name (tm_name t) -> has_kind KColl h c -> J nss c h0 (h, log) ->
  (forall d, In d (tm_depends t) -> present nss c h d) ->
  apply_own nss c t dm (h, log) = (s', r) ->
  J nss c h0 s' /\ extends h (fst s') /\
  (exists new, snd s' = log ++ new /\ forall x, In x new -> cr_t x = t) /\
  (forall e, r = Ok e -> own_done nss c t (fst s') e /\
     exists rf, tm_ref nss t = Ok rf /\ coll_find (fst s') c rf = Ok (Some e)).
Proof.
  intros CT V KC Jh DP E. unfold apply_own in E.
  destruct (role_ref nss (tm_ns t) (tm_role t)) as [pref|x] eqn:RR.
  2:{ injection E as <- <-. split; [exact Jh|]. split; [apply extends_refl|].
      split; [exists []; rewrite app_nil_r; split; [reflexivity|intros ? []]|discriminate]. }
  assert (PN : pref <> "").
  { unfold role_ref in RR. destruct (assoc (tm_ns t) nss) as [ns|]; [|discriminate].
    destruct (rassoc (tm_role t) (ns_map ns)); [|discriminate]. injection RR as <-. apply normpath_nonempty. }
  assert (TR : tm_ref nss t = Ok (pref ++ "/" ++ tm_name t)%string).
  { unfold tm_ref. rewrite RR. reflexivity. }
  assert (R : reachable h) by apply Jh. pose proof (inv_reachable h R) as I.
  destruct (coll_make h c pref) as [h1 mr] eqn:M.
  assert (R1 : reachable h1) by (eapply reachable_make; eauto).
  pose proof (inv_reachable h1 R1) as I1.
  assert (X1 : extends h h1).
  { apply grown_extends. edestruct coll_make_inv as (_ & G & _); [exact I| |exact M|exact G].
    exact KC. }
  assert (J1 : J nss c h0 (h1, log)) by (eapply J_extend; eauto).
  destruct mr as [p|x].
  2:{ injection E as <- <-. split; [exact J1|]. split; [exact X1|].
      split; [exists []; rewrite app_nil_r; split; [reflexivity|intros ? []]|discriminate]. }
  destruct (made_found _ _ _ _ _ R KC M) as (F1 & KP & _).
  pose proof KP as (po & Ep & KPo). change (nth_error h1 p) with (get h1 p) in Ep.
  assert (Child : forall g hh oo, get hh p = Some oo -> o_kind oo = KPkg -> item_find (S g) hh p (tm_name t) = Ok (assoc (tm_name t) (o_map oo)))
    by (intros; now apply item_find_child).
  assert (Deep : forall hh oo, Inv hh -> extends h1 hh -> get hh p = Some oo -> o_kind oo = KPkg ->
     coll_find hh c (pref ++ "/" ++ tm_name t)%string = Ok (assoc (tm_name t) (o_map oo))).
  { intros hh oo Ih Xh Eo Ko. eapply coll_find_deeper; eauto. eapply coll_find_ext; [exact I1|exact Xh|exact F1]. }
  assert (Done : forall hh oo e, Inv hh -> extends h1 hh -> get hh p = Some oo -> o_kind oo = KPkg ->
     assoc (tm_name t) (o_map oo) = Some e -> own_done nss c t hh e /\
     exists rf, tm_ref nss t = Ok rf /\ coll_find hh c rf = Ok (Some e)).
  { intros hh oo e Ih Xh Eo Ko A. split.
    - intros h' log' dm' X'. unfold apply_own. rewrite RR.
      rewrite (coll_make_ext _ _ _ _ _ h' I KC M) by (eapply extends_trans; eauto).
      destruct (X' p oo Eo) as (o' & Eo' & Ko' & _ & _ & _ & _ & (z & Z)).
      rewrite (Child _ h' o') by (auto; congruence). rewrite Z, assoc_app, A. reflexivity.
    - exists (pref ++ "/" ++ tm_name t)%string. split; [exact TR|]. rewrite (Deep hh oo); auto. now rewrite A. }
  rewrite (Child _ h1 po Ep KPo) in E.
  destruct (assoc (tm_name t) (o_map po)) as [e0|] eqn:A.
  { injection E as <- <-. split; [exact J1|]. split; [exact X1|].
    split; [exists []; rewrite app_nil_r; split; [reflexivity|intros ? []]|].
    intros e [= <-]. cbn [fst]. eapply Done; eauto. apply extends_refl. }
  assert (NF : exists rf, tm_ref nss t = Ok rf /\ coll_find h1 c rf = Ok None).
  { exists (pref ++ "/" ++ tm_name t)%string. split; [exact TR|].
    rewrite (Deep h1 po); auto using extends_refl. now rewrite A. }
  assert (DP1 : forall b, dep_ok nss c (mkCr t h1 b)).
  { intros b d Id. exact (present_ext nss c h h1 d I X1 (DP d Id)). }
  assert (X01 : extends h0 h1) by apply J1.
  destruct (tm_create t h1 p dm) as [h2 cres] eqn:C.
  destruct (CT h1 p dm h2 cres R1 KP C) as (R2 & X2 & CE).
  assert (Fail : J nss c h0 (h2, log ++ [mkCr t h1 false])).
  { apply (J_log nss c h0 h1 log (mkCr t h1 false) J1 X01 h2 R2 X2 eq_refl (DP1 false) NF). discriminate. }
  assert (Xh2 : extends h h2) by (eapply extends_trans; eauto).
  assert (New : forall b, exists new, log ++ [mkCr t h1 b] = log ++ new /\ forall x, In x new -> cr_t x = t).
  { intros b. exists [mkCr t h1 b]. split; auto. intros x [<-|[]]. reflexivity. }
  destruct cres as [[e|]|x]; cycle 1.
  { injection E as <- <-. split; [exact Fail|]. split; [exact Xh2|]. split; [apply New|discriminate]. }
  { injection E as <- <-. split; [exact Fail|]. split; [exact Xh2|]. split; [apply New|discriminate]. }
  destruct (is_arelement h2 e) eqn:AR; cycle 1.
  { injection E as <- <-. split; [exact Fail|]. split; [exact Xh2|]. split; [apply New|discriminate]. }
  destruct (CE e eq_refl) as (NM & CA).
  pose proof (inv_reachable h2 R2) as I2.
  destruct (tm_append t) eqn:TA.
  - destruct (pkg_append h2 p e) as [h3 [u|x]] eqn:PA.
    + pose proof (extends_kind _ _ _ _ X2 KP) as KP2.
      assert (R3 : reachable h3) by (eapply reachable_append; eauto).
      destruct (append_new h1 h2 p e h3 u X2 CA KP2 AR PA) as (X3 & po' & io & Ep' & Kp' & Ee & Ae).
      destruct NM as (eo & Ee' & Ne). change (nth_error h2 e) with (get h2 e) in Ee'.
      rewrite Ee in Ee'. injection Ee' as <-. rewrite Ne in Ae.
      destruct (Done h3 po' e (inv_reachable _ R3) X3 Ep' Kp' Ae) as (D1 & D2).
      injection E as <- <-. split; [|split; [|split]].
      * apply (J_log nss c h0 h1 log (mkCr t h1 true) J1 X01 h3 R3 X3 eq_refl (DP1 true) NF). intros _. destruct D2 as (rf & T1 & T2). exists rf, e. auto.
      * cbn. exact (extends_trans _ _ _ X1 X3).
      * apply New.
      * intros e' [= <-]. cbn [fst]. auto.
    + assert (h3 = h2) as ->.
      { unfold pkg_append in PA. destruct (get h2 p); [|congruence]. destruct (get h2 e) as [io|]; [|congruence].
        destruct (o_kind io); try congruence; destruct (assoc (o_name io) (o_map o)); congruence. }
      injection E as <- <-. split; [exact Fail|]. split; [exact Xh2|]. split; [apply New|discriminate].
  - pose proof (extends_kind _ _ _ _ X2 KP) as KP2.
    destruct KP2 as (po2 & Ep2 & Kp2). change (nth_error h2 p) with (get h2 p) in Ep2.
    assert (Ae : assoc (tm_name t) (o_map po2) = Some e).
    { destruct (children_unique_inv h2 p I2 po2 Ep2 (or_introl Kp2)) as (_ & _ & U). now apply U. }
    destruct (Done h2 po2 e I2 X2 Ep2 Kp2 Ae) as (D1 & D2).
    injection E as <- <-. split; [|split; [|split]].
    * apply (J_log nss c h0 h1 log (mkCr t h1 true) J1 X01 h2 R2 X2 eq_refl (DP1 true) NF). intros _. destruct D2 as (rf & T1 & T2). exists rf, e. auto.
    * exact Xh2.
    * apply New.
    * intros e' [= <-]. cbn [fst]. auto.
Qed.

(** What one application guarantees. *)
Definition applied nss c (t : tmpl) h0 (h : heap) (log : list creation) (s' : tstate) (r : result nat) : Prop :=
  J nss c h0 s' /\ extends h (fst s') /\
  (exists new, snd s' = log ++ new /\ forall x, In x new -> part_of (cr_t x) t) /\
  (forall e, r = Ok e -> done nss c t (fst s') e /\
     exists rf, tm_ref nss t = Ok rf /\ coll_find (fst s') c rf = Ok (Some e)).

Lemma apply_deps_main nss c h0 ds :
  (forall d, In d ds -> well_behaved d /\
     forall h log s' r, has_kind KColl h c -> J nss c h0 (h, log) ->
       apply nss c d (h, log) = (s', r) -> applied nss c d h0 h log s' r) ->
  forall h log dm s' r,
  has_kind KColl h c -> J nss c h0 (h, log) -> apply_deps nss c ds (h, log) dm = (s', r) ->
  J nss c h0 s' /\ extends h (fst s') /\
  (exists new, snd s' = log ++ new /\ forall x, In x new -> exists d, In d ds /\ part_of (cr_t x) d) /\
  (forall dm', r = Ok dm' ->
     (forall d, In d ds -> present nss c (fst s') d) /\
     forall h' log', extends (fst s') h' -> forall dm0, exists dm1,
       apply_deps nss c ds (h', log') dm0 = ((h', log'), Ok dm1)).
Proof.
  induction ds as [|d ds IH]; intros H h log dm s' r KC Jh E; cbn [apply_deps] in E.
  - injection E as <- <-. split; [exact Jh|]. split; [apply extends_refl|].
    split; [exists []; rewrite app_nil_r; split; [reflexivity|intros ? []]|].
    intros dm' _. split; [intros ? []|]. intros. eexists. reflexivity.
  - destruct (H d (or_introl eq_refl)) as (WB & Hd).
    destruct (apply nss c d (h, log)) as [[h1 log1] r1] eqn:Ed.
    destruct (Hd _ _ _ _ KC Jh Ed) as (J1 & X1 & (new1 & L1 & P1) & D1). cbn [fst snd] in *.
    assert (KC1 : has_kind KColl h1 c) by (eapply extends_kind; eauto).
    destruct r1 as [e|x].
    2:{ injection E as <- <-. split; [exact J1|]. split; [exact X1|]. split.
        - exists new1. split; [exact L1|]. intros x0 I0. exists d. split; [now left|auto].
        - discriminate. }
    destruct (D1 e eq_refl) as (Dn & rf & T1 & F1).
    destruct (dep_entry h1 e) as [[k e']|x] eqn:DE.
    2:{ injection E as <- <-. split; [exact J1|]. split; [exact X1|]. split.
        - exists new1. split; [exact L1|]. intros x0 I0. exists d. split; [now left|auto].
        - discriminate. }
    destruct (IH (fun d0 I0 => H d0 (or_intror I0)) _ _ _ _ _ KC1 J1 E) as (J2 & X2 & (new2 & L2 & P2) & D2).
    split; [exact J2|]. split; [eapply extends_trans; eauto|]. split.
    + exists (new1 ++ new2). split; [now rewrite L2, L1, app_assoc|].
      intros x I0. apply in_app_iff in I0 as [I0|I0].
      * exists d. split; [now left|auto].
      * destruct (P2 x I0) as (d' & Id & Pd). exists d'. split; [now right|auto].
    + intros dm' ->. destruct (D2 dm' eq_refl) as (Pr & Ag). split.
      * intros d' [<-|I0]; [|auto]. eapply present_ext; [|exact X2|].
        -- apply inv_reachable. apply J1.
        -- exists rf, e. auto.
      * intros h' log' X' dm0. cbn [apply_deps].
        assert (X'' : extends h1 h') by (eapply extends_trans; eauto).
        rewrite (Dn h' log' X''). cbn [fst]. rewrite (dep_entry_ext _ _ _ _ X'' DE).
        apply Ag. exact X'.
Qed.

Lemma well_behaved_dep t d : well_behaved t -> In d (tm_depends t) -> well_behaved d.
Proof. intros W I x P. apply W. eapply po_dep; eauto. Qed.

Lemma apply_main nss c h0 t : well_behaved t ->
  forall h log s' r, has_kind KColl h c -> J nss c h0 (h, log) ->
    apply nss c t (h, log) = (s', r) -> applied nss c t h0 h log s' r.
Proof.
  induction t as [t IH] using tmpl_ind2. intros W h log s' r KC Jh E.
  rewrite apply_eq in E.
  destruct (apply_deps nss c (tm_depends t) (h, log) []) as [[h1 log1] r1] eqn:Ed.
  edestruct apply_deps_main as (J1 & X1 & (new1 & L1 & P1) & D1); [|exact KC|exact Jh|exact Ed|].
  { intros d I. split; [eapply well_behaved_dep; eauto|]. apply IH; auto. eapply well_behaved_dep; eauto. }
  cbn [fst snd] in *.
  assert (PO : forall x, In x new1 -> part_of (cr_t x) t).
  { intros x I. destruct (P1 x I) as (d & Id & Pd). eapply po_dep; eauto. }
  destruct r1 as [dm|x].
  2:{ injection E as <- <-. split; [exact J1|]. split; [exact X1|]. split; [eauto|discriminate]. }
  destruct (D1 dm eq_refl) as (Pr & Ag).
  destruct (W t (po_self t)) as (CT & V).
  assert (KC1 : has_kind KColl h1 c) by (eapply extends_kind; eauto).
  destruct (apply_own_main nss c t dm h0 h1 log1 s' r CT V KC1 J1 Pr E) as (J2 & X2 & (new2 & L2 & P2) & D2).
  split; [exact J2|]. split; [eapply extends_trans; eauto|]. split.
  - exists (new1 ++ new2). split; [now rewrite L2, L1, app_assoc|].
    intros x I. apply in_app_iff in I as [I|I]; [auto|]. rewrite (P2 x I). apply po_self.
  - intros e ->. destruct (D2 e eq_refl) as (Dn & RF). split; [|exact RF].
    intros h' log' X'. rewrite apply_eq.
    destruct (Ag h' log' (extends_trans _ _ _ X2 X') []) as (dm1 & ->). apply Dn. exact X'.
Qed.

Lemma J_start nss c h : reachable h -> J nss c h (h, []).
Proof.
  intros R. split; [exact R|]. split; [apply extends_refl|]. split; [intros x []|constructor].
Qed.

Lemma apply_all_main nss c h0 ts : (forall t, In t ts -> well_behaved t) ->
  forall h log, has_kind KColl h c -> J nss c h0 (h, log) ->
  J nss c h0 (apply_all nss c ts (h, log)) /\ extends h (fst (apply_all nss c ts (h, log))).
Proof.
  induction ts as [|t ts IH]; intros W h log KC Jh; [split; [exact Jh|apply extends_refl]|].
  unfold apply_all in *. cbn [fold_left].
  destruct (apply nss c t (h, log)) as [[h1 log1] r] eqn:E. cbn [fst].
  destruct (apply_main nss c h0 t (W t (or_introl eq_refl)) _ _ _ _ KC Jh E) as (J1 & X1 & _). cbn [fst] in X1.
  destruct (IH (fun t I => W t (or_intror I)) h1 log1) as (J2 & X2); [eapply extends_kind; eauto|exact J1|].
  split; [exact J2|eapply extends_trans; eauto].
Qed.
