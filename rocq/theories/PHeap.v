(** Proofs about the package tree. *)
From Coq Require Import Permutation.
From Verif Require Import Base PBase MHeap SHeap.

Lemma get_upd h i f j :
  get (upd h i f) j = if Nat.eqb i j then option_map f (get h j) else get h j.
Proof.
  revert i j; induction h as [|o h IH]; intros i j; cbn.
  - unfold get; destruct i; cbn; rewrite ?nth_error_nil; destruct j; cbn; try destruct (Nat.eqb _ _); reflexivity.
  - destruct i as [|i], j as [|j]; cbn; auto.
Qed.

Lemma upd_length h i f : List.length (upd h i f) = List.length h.
Proof. revert i; induction h as [|o h IH]; intros [|i]; cbn; auto. Qed.

Lemma get_lt h i o : get h i = Some o -> i < List.length h.
Proof. intros H. apply nth_error_Some. unfold get in H. congruence. Qed.

Lemma get_alloc h k n j :
  get (h ++ [new_obj k n]) j =
  if Nat.eqb j (List.length h) then Some (new_obj k n) else get h j.
Proof.
  unfold get. destruct (Nat.eqb_spec j (List.length h)) as [->|N].
  - rewrite nth_error_app2 by lia. now rewrite Nat.sub_diag.
  - destruct (Nat.lt_ge_cases j (List.length h)) as [L|G].
    + now rewrite nth_error_app1.
    + rewrite nth_error_app2 by lia.
      replace (nth_error h j) with (@None obj)
        by (symmetry; apply nth_error_None; lia).
      destruct (j - List.length h) as [|m] eqn:E; [lia|]. destruct m; reflexivity.
Qed.

(** Name of a (possibly dangling) identity. *)
Definition nm (h : heap) (i : nat) : string :=
  match get h i with Some o => o_name o | None => "" end.

Definition kd (h : heap) (i : nat) : option kind :=
  match get h i with Some o => Some (o_kind o) | None => None end.

Definition kids (o : obj) : list nat := o_packages o ++ o_elements o.

Definition is_box (k : kind) : Prop := k = KPkg \/ k = KColl.

Definition is_item (k : kind) : Prop := k = KPkg \/ k = KElem \/ k = KComp.

(** Per-object invariant of the state. *)
Record good (h : heap) (i : nat) (o : obj) : Prop := {
  g_kids : forall j, In j (kids o) -> j < List.length h;
  g_map : is_box (o_kind o) ->
          Permutation (o_map o) (map (fun j => (nm h j, j)) (kids o)) /\ NoDup (map fst (o_map o));
  g_pkgs : forall j, In j (o_packages o) -> kd h j = Some KPkg;
  g_elems : forall j, In j (o_elements o) ->
            match o_kind o with
            | KPkg => kd h j = Some KElem \/ kd h j = Some KComp
            | KElem | KComp => kd h j = Some KMem
            | _ => False
            end;
  g_nobox : ~ is_box (o_kind o) -> o_packages o = [] /\ o_map o = [];
  g_coll : o_kind o = KColl -> o_parent o = None;
  g_parent : forall p, o_parent o = Some p ->
             exists po, get h p = Some po /\
               match o_kind o with
               | KColl => False
               | KMem => (o_kind po = KElem \/ o_kind po = KComp) /\ In i (o_elements po)
               | _ => is_box (o_kind po) /\ assoc (o_name o) (o_map po) = Some i
               end
}.

Definition Inv (h : heap) : Prop := forall i o, get h i = Some o -> good h i o.

(** [h'] has the objects of [h], with the same kinds and names. *)
Definition same_ids (h h' : heap) : Prop :=
  forall i o, get h i = Some o ->
    exists o', get h' i = Some o' /\ o_kind o' = o_kind o /\ o_name o' = o_name o.

Lemma same_nm h h' i : same_ids h h' -> i < List.length h -> nm h' i = nm h i.
Proof.
  intros S L. unfold nm. destruct (get h i) as [o|] eqn:E.
  - destruct (S i o E) as (o' & -> & _ & ->). reflexivity.
  - apply nth_error_None in E. lia.
Qed.

Lemma same_kd h h' i k : same_ids h h' -> kd h i = Some k -> kd h' i = Some k.
Proof.
  intros S. unfold kd. destruct (get h i) as [o|] eqn:E; [|discriminate].
  destruct (S i o E) as (o' & -> & -> & _). auto.
Qed.

Lemma same_len h h' : same_ids h h' -> List.length h <= List.length h'.
Proof.
  intros S. destruct (List.length h) as [|n] eqn:L; [lia|].
  destruct (get h n) as [o|] eqn:E.
  - destruct (S n o E) as (o' & E' & _). apply get_lt in E'. lia.
  - apply nth_error_None in E. lia.
Qed.

Lemma same_refl h : same_ids h h.
Proof. intros i o H. eauto. Qed.

Lemma kids_names h h' l :
  same_ids h h' -> (forall j, In j l -> j < List.length h) ->
  map (fun j => (nm h' j, j)) l = map (fun j => (nm h j, j)) l.
Proof.
  intros S L. apply map_ext_in. intros j I. now rewrite (same_nm h h') by auto.
Qed.

Lemma inv_nil : Inv [].
Proof. intros i o H. destruct i; discriminate. Qed.

Lemma same_alloc h k n : same_ids h (h ++ [new_obj k n]).
Proof.
  intros i o H. exists o. rewrite get_alloc.
  destruct (Nat.eqb_spec i (List.length h)) as [->|N]; [apply get_lt in H; lia|auto].
Qed.

Lemma good_same_obj h h' i o :
  same_ids h h' -> good h i o ->
  (forall p po, o_parent o = Some p -> get h p = Some po ->
     exists po', get h' p = Some po' /\ o_kind po' = o_kind po
       /\ (forall n a, assoc n (o_map po) = Some a -> assoc n (o_map po') = Some a)
       /\ (forall a, In a (o_elements po) -> In a (o_elements po'))) ->
  good h' i o.
Proof.
  intros S [G1 G2 G3 G4 G5 G6 G7] HP. split; auto.
  - intros j I. pose proof (same_len _ _ S). specialize (G1 j I). lia.
  - intros B. rewrite (kids_names h h'); auto.
  - intros j I. eapply same_kd; eauto.
  - intros j I. specialize (G4 j I). destruct (o_kind o); auto; try (eapply same_kd; eauto).
    destruct G4; [left|right]; eapply same_kd; eauto.
  - intros p E. destruct (G7 p E) as (po & E1 & M).
    destruct (HP p po E E1) as (po' & E' & K & A & I).
    exists po'. split; auto. rewrite K. destruct (o_kind o); intuition.
Qed.

Lemma inv_alloc h k n : Inv h -> Inv (h ++ [new_obj k n]).
Proof.
  intros H i o E. rewrite get_alloc in E.
  destruct (Nat.eqb_spec i (List.length h)) as [->|N].
  - injection E as <-. split; cbn; auto; try (intros; discriminate); try (intros ? []); try (intros; split; constructor).
  - eapply good_same_obj; [apply same_alloc | apply H; exact E|].
    intros p po Ep Eg. exists po. rewrite get_alloc.
    destruct (Nat.eqb_spec p (List.length h)) as [->|N']; [apply get_lt in Eg; lia|auto].
Qed.

(** The combined effect of "set the parent, then register": the state after attaching
    [i] below [p] with one of the three registering functions. *)
Definition attach (reg : string -> nat -> obj -> obj) (h : heap) (p i : nat) (n : string) : heap :=
  upd (upd h i (set_parent p)) p (reg n i).

Lemma get_attach reg h p i n j :
  get (attach reg h p i n) j =
  match get h j with
  | None => None
  | Some o => Some ((if Nat.eqb p j then reg n i else (fun x => x))
                      ((if Nat.eqb i j then set_parent p else (fun x => x)) o))
  end.
Proof.
  unfold attach. rewrite !get_upd.
  destruct (Nat.eqb p j), (Nat.eqb i j), (get h j); reflexivity.
Qed.

Lemma same_attach reg h p i n :
  (forall o, o_kind (reg n i o) = o_kind o /\ o_name (reg n i o) = o_name o) ->
  same_ids h (attach reg h p i n).
Proof.
  intros R j o E. rewrite get_attach, E. eexists. split; [reflexivity|].
  destruct (Nat.eqb p j), (Nat.eqb i j); cbn;
    rewrite ?(proj1 (R _)), ?(proj2 (R _)); auto.
Qed.

Lemma add_package_keeps n i o :
  o_kind (add_package n i o) = o_kind o /\ o_name (add_package n i o) = o_name o.
Proof. auto. Qed.
Lemma add_element_keeps n i o :
  o_kind (add_element n i o) = o_kind o /\ o_name (add_element n i o) = o_name o.
Proof. auto. Qed.

(** Attaching a package or an element under a fresh name keeps the invariant. *)
Lemma inv_attach reg h p i po io :
  (reg = add_package /\ o_kind io = KPkg) \/
  (reg = add_element /\ (o_kind io = KElem \/ o_kind io = KComp) /\ o_kind po = KPkg) ->
  Inv h -> get h p = Some po -> get h i = Some io -> is_box (o_kind po) ->
  assoc (o_name io) (o_map po) = None ->
  Inv (attach reg h p i (o_name io)).
Proof.
  intros R H Ep Ei B F.
  set (h' := attach reg h p i (o_name io)).
  assert (RK : forall o, o_kind (reg (o_name io) i o) = o_kind o /\ o_name (reg (o_name io) i o) = o_name o)
    by (destruct R as [[-> _]|[-> _]]; auto).
  assert (S : same_ids h h') by (apply same_attach; auto).
  assert (Li : i < List.length h) by (eapply get_lt; eauto).
  assert (Lh : List.length h' = List.length h) by (unfold h', attach; now rewrite !upd_length).
  assert (RM : forall o, o_map (reg (o_name io) i o) = assoc_set (o_name io) i (o_map o))
    by (destruct R as [[-> _]|[-> _]]; auto).
  assert (RP : forall o, o_parent (reg (o_name io) i o) = o_parent o)
    by (destruct R as [[-> _]|[-> _]]; auto).
  assert (RE : forall o a, In a (o_elements o) -> In a (o_elements (reg (o_name io) i o)))
    by (destruct R as [[-> _]|[-> _]]; cbn; intros; auto; apply in_or_app; auto).
  (* what happened to the object p' that is somebody's parent *)
  assert (HP : forall q qo, get h q = Some qo ->
     exists qo', get h' q = Some qo' /\ o_kind qo' = o_kind qo
       /\ (forall n a, assoc n (o_map qo) = Some a -> assoc n (o_map qo') = Some a)
       /\ (forall a, In a (o_elements qo) -> In a (o_elements qo'))).
  { intros q qo Eq. unfold h'. rewrite get_attach, Eq. eexists. split; [reflexivity|].
    destruct (Nat.eqb_spec p q) as [<-|N]; [|destruct (Nat.eqb i q); auto].
    rewrite Ep in Eq; injection Eq as <-.
    set (x := (if Nat.eqb i p then set_parent p else fun x => x) po).
    assert (X : o_map x = o_map po /\ o_kind x = o_kind po /\ o_elements x = o_elements po)
      by (unfold x; destruct (Nat.eqb i p); repeat split; reflexivity).
    destruct X as (X1 & X2 & X3).
    rewrite (proj1 (RK x)), RM, X1, X2. repeat split; auto.
    - intros n a A. rewrite assoc_set_fresh by auto. now rewrite assoc_app, A.
    - intros a I. apply RE. now rewrite X3. }
  intros j o E. unfold h' in E. rewrite get_attach in E.
  destruct (get h j) as [oj|] eqn:Ej; [|discriminate].
  injection E as <-.
  pose proof (H j oj Ej) as G.
  (* step 1: the parent assignment *)
  set (o1 := (if Nat.eqb i j then set_parent p else (fun x => x)) oj) in *.
  assert (K1 : o_kind o1 = o_kind oj /\ o_name o1 = o_name oj /\ o_packages o1 = o_packages oj
     /\ o_elements o1 = o_elements oj /\ o_map o1 = o_map oj)
    by (unfold o1; destruct (Nat.eqb i j); repeat split; reflexivity).
  destruct K1 as (K1 & N1 & P1 & E1 & M1).
  assert (G1 : good h' j o1).
  { pose proof (good_same_obj h h' j oj S G (fun p' po' _ Eg => HP p' po' Eg)) as [A1 A2 A3 A4 A5 A6 A7].
    unfold kids in *.
    split; unfold kids; rewrite ?K1, ?N1, ?P1, ?E1, ?M1; auto.
    - unfold o1. destruct (Nat.eqb_spec i j) as [<-|N]; [|auto].
      rewrite Ei in Ej. injection Ej as <-. intros KC. exfalso.
      destruct R as [[_ R]|(_ & [R|R] & _)]; congruence.
    - unfold o1. destruct (Nat.eqb_spec i j) as [<-|N]; [|auto].
      rewrite Ei in Ej. injection Ej as <-. cbn. intros p' [= <-].
      destruct (HP p po Ep) as (po' & Ep' & Kp & _ & _). exists po'. split; auto.
      assert (A : is_box (o_kind po') /\ assoc (o_name io) (o_map po') = Some i).
      { rewrite Kp. split; auto.
        unfold h' in Ep'. rewrite get_attach, Ep, Nat.eqb_refl in Ep'. injection Ep' as <-.
        rewrite RM. replace (o_map _) with (o_map po) by (destruct (Nat.eqb i p); reflexivity).
        rewrite assoc_set_fresh by auto. rewrite assoc_app, F. cbn. now rewrite String.eqb_refl. }
      destruct R as [[_ ->]|(_ & [->| ->] & _)]; exact A. }
  (* step 2: the registration in p *)
  destruct (Nat.eqb_spec p j) as [<-|N]; [|exact G1].
  rewrite Ep in Ej; injection Ej as <-.
  destruct G1 as [A1 A2 A3 A4 A5 A6 A7].
  assert (NI : nm h' i = o_name io).
  { destruct (S i io Ei) as (io' & Ei' & _ & Nn). unfold nm. now rewrite Ei'. }
  assert (KI : kd h' i = Some (o_kind io)).
  { destruct (S i io Ei) as (io' & Ei' & Kk & _). unfold kd. rewrite Ei'. now f_equal. }
  assert (Fm : assoc (o_name io) (o_map o1) = None) by now rewrite M1.
  destruct R as [[-> KP]|(-> & KE & KB)].
  - split; unfold kids; cbn [o_kind o_packages o_elements o_map o_parent add_package o_name].
    + intros a I. rewrite !in_app_iff in I. cbn in I. rewrite Lh.
      destruct I as [[I|[<-|[]]]|I]; auto; rewrite <- Lh; apply A1; unfold kids; rewrite in_app_iff; auto.
    + intros _. destruct A2 as [A2 A2']; [rewrite K1; auto|].
      rewrite assoc_set_fresh by exact Fm. split.
      * unfold kids in A2. rewrite !map_app in *. cbn [map]. rewrite NI, <- app_assoc.
        eapply Permutation_trans; [apply Permutation_sym, Permutation_cons_append|].
        eapply Permutation_trans; [apply perm_skip; exact A2 | apply Permutation_middle].
      * rewrite map_app. cbn. apply assoc_none in Fm.
        apply (Permutation_NoDup (l := o_name io :: map fst (o_map o1))).
        { apply Permutation_cons_append. } constructor; auto.
    + intros a I. rewrite in_app_iff in I. destruct I as [I|[<-|[]]]; auto. now rewrite KI, KP.
    + auto.
    + intros NB. exfalso. apply NB. now rewrite K1.
    + auto.
    + auto.
  - split; unfold kids; cbn [o_kind o_packages o_elements o_map o_parent add_element o_name].
    + intros a I. rewrite !in_app_iff in I. cbn in I. rewrite Lh.
      destruct I as [I|[I|[<-|[]]]]; auto; rewrite <- Lh; apply A1; unfold kids; rewrite in_app_iff; auto.
    + intros _. destruct A2 as [A2 A2']; [rewrite K1; auto|].
      rewrite assoc_set_fresh by exact Fm. split.
      * unfold kids in A2. rewrite !map_app in *. cbn [map]. rewrite NI, app_assoc.
        apply Permutation_app_tail. exact A2.
      * rewrite map_app. cbn. apply assoc_none in Fm.
        apply (Permutation_NoDup (l := o_name io :: map fst (o_map o1))).
        { apply Permutation_cons_append. } constructor; auto.
    + auto.
    + rewrite K1, KB in *. intros a I. rewrite in_app_iff in I. destruct I as [I|[<-|[]]]; auto.
      rewrite KI. destruct KE as [->| ->]; auto.
    + intros NB. exfalso. apply NB. now rewrite K1.
    + auto.
    + auto.
Qed.

Lemma inv_pkg_append h p i :
  Inv h -> (exists po, get h p = Some po /\ o_kind po = KPkg) -> Inv (fst (pkg_append h p i)).
Proof.
  intros H (po & Ep & KP). unfold pkg_append. rewrite Ep.
  destruct (get h i) as [io|] eqn:Ei; [|exact H].
  destruct (o_kind io) eqn:K; try exact H;
    (destruct (assoc (o_name io) (o_map po)) eqn:A; [exact H|]); cbn [fst].
  - apply (inv_attach add_package h p i po io); [left|..]; auto. left; auto.
  - apply (inv_attach add_element h p i po io); [right|..]; auto. left; auto.
  - apply (inv_attach add_element h p i po io); [right|..]; auto. left; auto.
Qed.

Lemma inv_coll_append h p i :
  Inv h -> (exists po, get h p = Some po /\ o_kind po = KColl) -> Inv (fst (coll_append h p i)).
Proof.
  intros H (po & Ep & KP). unfold coll_append. rewrite Ep.
  destruct (get h i) as [io|] eqn:Ei; [|exact H].
  destruct (o_kind io) eqn:K; try exact H.
  destruct (assoc (o_name io) (o_map po)) eqn:A; [exact H|].
  apply (inv_attach add_package h p i po io); [left|..]; auto. right; auto.
Qed.

(** [create_package] is "construct, then attach". *)
Lemma create_package_ok h p po n h' q :
  get h p = Some po -> create_package h p n = (h', Ok q) ->
  assoc n (o_map po) = None /\ q = List.length h /\
  h' = attach add_package (h ++ [new_obj KPkg n]) p q n.
Proof.
  intros Ep. unfold create_package. rewrite Ep.
  destruct (assoc n (o_map po)); [discriminate|].
  unfold alloc. intros E; injection E as <- <-. auto.
Qed.

Lemma create_package_fresh h p po n :
  get h p = Some po -> assoc n (o_map po) = None ->
  create_package h p n =
  (attach add_package (h ++ [new_obj KPkg n]) p (List.length h) n, Ok (List.length h)).
Proof. intros E A. unfold create_package. now rewrite E, A. Qed.

Lemma inv_create h p n :
  Inv h -> (exists po, get h p = Some po /\ is_box (o_kind po)) -> Inv (fst (create_package h p n)).
Proof.
  intros H (po & Ep & B). destruct (assoc n (o_map po)) eqn:A.
  - unfold create_package. rewrite Ep, A. exact H.
  - rewrite (create_package_fresh h p po) by auto. cbn [fst].
    apply (inv_attach add_package (h ++ [new_obj KPkg n]) p (List.length h) po (new_obj KPkg n)).
    + left; auto.
    + apply inv_alloc, H.
    + rewrite get_alloc. destruct (Nat.eqb_spec p (List.length h)) as [->|N]; [|auto].
      apply get_lt in Ep. lia.
    + rewrite get_alloc, Nat.eqb_refl. reflexivity.
    + auto.
    + exact A.
Qed.

(** Growth: everything that existed is still there. *)
Lemma grown_refl h : grown h h.
Proof.
  intros i o E. exists o. repeat split; auto; exists []; now rewrite app_nil_r.
Qed.

Lemma grown_trans a b c : grown a b -> grown b c -> grown a c.
Proof.
  intros AB BC i o E. destruct (AB i o E) as (o1 & E1 & K1 & N1 & P1 & L1 & (p1 & Q1) & (m1 & M1)).
  destruct (BC i o1 E1) as (o2 & E2 & K2 & N2 & P2 & L2 & (p2 & Q2) & (m2 & M2)).
  exists o2. repeat split; try congruence.
  - exists (p1 ++ p2). now rewrite Q2, Q1, app_assoc.
  - exists (m1 ++ m2). now rewrite M2, M1, app_assoc.
Qed.

Lemma grown_same h h' : grown h h' -> same_ids h h'.
Proof. intros G i o E. destruct (G i o E) as (o' & E' & K & N & _). eauto. Qed.

Lemma grown_create h p po n h' q :
  get h p = Some po -> create_package h p n = (h', Ok q) -> grown h h'.
Proof.
  intros Ep C. destruct (create_package_ok _ _ _ _ _ _ Ep C) as (A & Q & ->). subst q.
  intros i o E. pose proof (get_lt _ _ _ E) as L.
  change (nth_error (attach add_package (h ++ [new_obj KPkg n]) p (List.length h) n) i)
    with (get (attach add_package (h ++ [new_obj KPkg n]) p (List.length h) n) i).
  change (nth_error h i) with (get h i) in E.
  rewrite get_attach, get_alloc.
  destruct (Nat.eqb_spec i (List.length h)) as [->|N]; [lia|]. rewrite E.
  destruct (Nat.eqb_spec (List.length h) i) as [X|_]; [lia|].
  eexists. split; [reflexivity|].
  destruct (Nat.eqb_spec p i) as [->|N2].
  - rewrite Ep in E. injection E as <-. cbn. repeat split; auto.
    + eexists; reflexivity.
    + exists [(n, List.length h)]. now rewrite assoc_set_fresh.
  - repeat split; auto; exists []; now rewrite app_nil_r.
Qed.

(** What is true right after creating a package. *)
Lemma created h p po n h' q :
  get h p = Some po -> create_package h p n = (h', Ok q) ->
  get h' q = Some (mkObj KPkg n (Some p) [] [] []) /\
  exists po', get h' p = Some po' /\ o_kind po' = o_kind po /\ assoc n (o_map po') = Some q.
Proof.
  intros Ep C. destruct (create_package_ok _ _ _ _ _ _ Ep C) as (A & Q & ->).
  pose proof (get_lt _ _ _ Ep) as L. subst q. split.
  - rewrite get_attach, get_alloc, Nat.eqb_refl. f_equal.
    destruct (Nat.eqb_spec p (List.length h)); [lia|]. reflexivity.
  - rewrite get_attach, get_alloc.
    destruct (Nat.eqb_spec p (List.length h)); [lia|]. rewrite Ep.
    destruct (Nat.eqb_spec (List.length h) p); [lia|]. rewrite Nat.eqb_refl.
    eexists. split; [reflexivity|]. cbn. split; auto.
    rewrite assoc_set_fresh by auto. rewrite assoc_app, A. cbn. now rewrite String.eqb_refl.
Qed.

(** Unfolding equation of [pkg_make]. *)
Lemma pkg_make_eq f h p ref :
  pkg_make (S f) h p ref =
  if starts_slash ref then (h, Err ValueError)
  else let (n, rest) := partition_slash ref in
       let cont h' q := if String.eqb rest "" then (h', Ok q) else pkg_make f h' q rest in
       match get h p with
       | None => (h, Err AttributeError)
       | Some po =>
           match assoc n (o_map po) with
           | None => match create_package h p n with
                     | (h', Ok q) => cont h' q
                     | (h', Err e) => (h', Err e)
                     end
           | Some q => match get h q with
                       | Some qo => match o_kind qo with KPkg => cont h q | _ => (h, Err KeyError) end
                       | None => (h, Err AttributeError)
                       end
           end
       end.
Proof. reflexivity. Qed.

(** One induction for everything about [Package.make_packages]. *)
Lemma pkg_make_inv f h p ref h' r :
  Inv h -> (exists po, get h p = Some po /\ o_kind po = KPkg) ->
  pkg_make f h p ref = (h', r) ->
  Inv h' /\ grown h h' /\ (forall q, r = Ok q -> kd h' q = Some KPkg).
Proof.
  revert h p ref h' r; induction f as [|f IH]; intros h p ref h' r H (po & Ep & KP) E.
  { cbn in E. injection E as <- <-. split; [|split]; auto using grown_refl. discriminate. }
  rewrite pkg_make_eq in E.
  destruct (starts_slash ref).
  { injection E as <- <-. split; [|split]; auto using grown_refl. discriminate. }
  destruct (partition_slash ref) as [n rest] eqn:P. cbv zeta in E. rewrite Ep in E.
  destruct (assoc n (o_map po)) as [q|] eqn:A.
  - destruct (get h q) as [qo|] eqn:Eq; [|injection E as <- <-; split; [|split]; auto using grown_refl; discriminate].
    destruct (o_kind qo) eqn:K; try (injection E as <- <-; split; [|split]; auto using grown_refl; discriminate).
    destruct (String.eqb rest "") eqn:R.
    + injection E as <- <-. split; [|split]; auto using grown_refl.
      intros q' [= <-]. unfold kd. now rewrite Eq, K.
    + eapply (IH h q rest); eauto.
  - destruct (create_package h p n) as [h1 [q|e]] eqn:C.
    + assert (I1 : Inv h1).
      { pose proof (inv_create h p n H) as X. rewrite C in X. apply X. exists po. split; auto. left; auto. }
      pose proof (grown_create _ _ _ _ _ _ Ep C) as G1.
      destruct (created _ _ _ _ _ _ Ep C) as (Eq & _).
      destruct (String.eqb rest "") eqn:R.
      * injection E as <- <-. split; [|split]; auto. intros q' [= <-]. unfold kd. now rewrite Eq.
      * destruct (IH h1 q rest h' r I1) as (I2 & G2 & K2); eauto.
        split; [|split]; auto. eapply grown_trans; eauto.
    + unfold create_package in C. rewrite Ep, A in C. discriminate.
Qed.

Lemma coll_make_inv h c ref h' r :
  Inv h -> (exists co, get h c = Some co /\ o_kind co = KColl) ->
  coll_make h c ref = (h', r) ->
  Inv h' /\ grown h h' /\ (forall q, r = Ok q -> kd h' q = Some KPkg).
Proof.
  intros H (co & Ec & KC) E. unfold coll_make in E.
  destruct (partition_slash (strip_slash ref)) as [n rest] eqn:P. cbv zeta in E. rewrite Ec in E.
  assert (CP : forall q, assoc n (o_map co) = Some q -> kd h q = Some KPkg).
  { intros q A. destruct (H c co Ec) as [G1 G2 G3 G4 _ _ _].
    destruct G2 as [G2 _]; [right; auto|]. apply assoc_in in A.
    eapply Permutation_in in A; [|exact G2]. apply in_map_iff in A as (j & J & I).
    injection J as _ ->. unfold kids in I. apply in_app_iff in I as [I|I]; [auto|].
    specialize (G4 q I). rewrite KC in G4. contradiction. }
  destruct (assoc n (o_map co)) as [q|] eqn:A.
  - specialize (CP q eq_refl).
    destruct (String.eqb rest "") eqn:R.
    + injection E as <- <-. split; [|split]; auto using grown_refl. intros ? [= <-]; auto.
    + eapply pkg_make_inv in E; eauto.
      unfold kd in CP. destruct (get h q) as [qo|] eqn:Eq; [|discriminate].
      injection CP as CP. eauto.
  - destruct (create_package h c n) as [h1 [q|e]] eqn:C.
    + assert (I1 : Inv h1).
      { pose proof (inv_create h c n H) as X. rewrite C in X. apply X. exists co. split; auto. right; auto. }
      pose proof (grown_create _ _ _ _ _ _ Ec C) as G1.
      destruct (created _ _ _ _ _ _ Ec C) as (Eq & _).
      destruct (String.eqb rest "") eqn:R.
      * injection E as <- <-. split; [|split]; auto. intros q' [= <-]. unfold kd. now rewrite Eq.
      * edestruct pkg_make_inv as (I2 & G2 & K2); [exact I1| |exact E|]; eauto.
        split; [|split]; auto. eapply grown_trans; eauto.
    + unfold create_package in C. rewrite Ec, A in C. discriminate.
Qed.

Lemma is_kind_spec k h i : is_kind k h i = true -> exists o, get h i = Some o /\ o_kind o = k.
Proof.
  unfold is_kind. destruct (get h i) as [o|]; [|discriminate].
  intros E. exists o. split; auto. destruct k, (o_kind o); congruence.
Qed.

Lemma inv_member h c i : Inv h -> Inv (fst (add_member h c i)).
Proof.
  intros H. unfold add_member.
  destruct (get h c) as [co|] eqn:Ec; [|exact H].
  destruct (get h i) as [io|] eqn:Ei; [|exact H].
  assert (Core : (o_kind co = KElem \/ o_kind co = KComp) -> o_kind io = KMem ->
                 Inv (upd (upd h i (set_parent c)) c (add_member_to i))).
  { intros KC KI.
    change (upd (upd h i (set_parent c)) c (add_member_to i))
      with (attach (fun _ j o => add_member_to j o) h c i "").
    set (h' := attach (fun _ j o => add_member_to j o) h c i "").
    assert (S : same_ids h h') by (apply same_attach; auto).
    assert (Lh : List.length h' = List.length h) by (unfold h', attach; now rewrite !upd_length).
    assert (NE : Nat.eqb i c = false).
    { apply Nat.eqb_neq. intros ->. rewrite Ei in Ec. injection Ec as <-. destruct KC; congruence. }
    assert (HP : forall q qo, get h q = Some qo ->
       exists qo', get h' q = Some qo' /\ o_kind qo' = o_kind qo
         /\ (forall n a, assoc n (o_map qo) = Some a -> assoc n (o_map qo') = Some a)
         /\ (forall a, In a (o_elements qo) -> In a (o_elements qo'))).
    { intros q qo Eq. unfold h'. rewrite get_attach, Eq. eexists. split; [reflexivity|].
      destruct (Nat.eqb c q), (Nat.eqb i q); cbn; repeat split; auto; intros; apply in_or_app; auto. }
    intros j o E. unfold h' in E. rewrite get_attach in E.
    destruct (get h j) as [oj|] eqn:Ej; [|discriminate]. injection E as <-.
    pose proof (good_same_obj h h' j oj S (H j oj Ej) (fun p' po' _ Eg => HP p' po' Eg)) as G.
    destruct (Nat.eqb_spec c j) as [<-|NC].
    - rewrite NE. rewrite Ec in Ej. injection Ej as <-.
      destruct G as [A1 A2 A3 A4 A5 A6 A7].
      assert (NB : ~ is_box (o_kind co)) by (intros [B|B]; destruct KC; congruence).
      split; unfold kids; cbn [o_kind o_packages o_elements o_map o_parent add_member_to o_name]; auto.
      + intros a I. rewrite !in_app_iff in I. destruct I as [I|[I|[<-|[]]]].
        * apply A1. unfold kids. rewrite in_app_iff. auto.
        * apply A1. unfold kids. rewrite in_app_iff. auto.
        * rewrite Lh. eapply get_lt; eauto.
      + intros B; contradiction.
      + intros a I. rewrite in_app_iff in I. destruct I as [I|[<-|[]]]; [exact (A4 a I)|].
        assert (kd h' i = Some KMem).
        { apply (same_kd h h' i KMem S). unfold kd. now rewrite Ei, KI. }
        destruct KC as [->| ->]; auto.
    - destruct (Nat.eqb_spec i j) as [<-|NI]; [|exact G].
      rewrite Ei in Ej. injection Ej as <-.
      destruct G as [A1 A2 A3 A4 A5 A6 A7].
      split; unfold kids in *; cbn [o_kind o_packages o_elements o_map o_parent set_parent o_name]; auto.
      + rewrite KI; discriminate.
      + intros p [= <-].
        destruct (HP c co Ec) as (co' & Ec' & Kc' & _ & _). exists co'. split; auto.
        rewrite KI, Kc'. split; auto.
        unfold h' in Ec'. rewrite get_attach, Ec, Nat.eqb_refl, NE in Ec'. injection Ec' as <-.
        cbn. apply in_or_app. right. now left. }
  destruct (o_kind co) eqn:KC; try exact H; destruct (o_kind io) eqn:KI; try exact H; cbn [fst]; auto.
Qed.

Lemma inv_step h o : Inv h -> Inv (fst (step h o)).
Proof.
  intros H. destruct o as [k n|p i|c i|p n|c r|p r|c i]; cbn [step].
  - apply inv_alloc, H.
  - destruct (is_kind KPkg h p) eqn:K; [|exact H]. apply inv_pkg_append; auto. now apply is_kind_spec.
  - destruct (is_kind KColl h c) eqn:K; [|exact H]. apply inv_coll_append; auto. now apply is_kind_spec.
  - destruct (is_kind KPkg h p || is_kind KColl h p) eqn:K; [|exact H].
    pose proof (inv_create h p n H) as X.
    assert (B : exists po, get h p = Some po /\ is_box (o_kind po)).
    { apply orb_true_iff in K as [K|K]; apply is_kind_spec in K as (o & E & Ko);
        exists o; split; auto; [left|right]; auto. }
    destruct (create_package h p n) as [h1 [q|e]]; cbn [fst] in *; auto.
  - destruct (is_kind KColl h c) eqn:K; [|exact H]. apply is_kind_spec in K.
    destruct (coll_make h c r) as [h1 [q|e]] eqn:E; cbn [fst];
      eapply coll_make_inv in E; intuition eauto.
  - destruct (is_kind KPkg h p) eqn:K; [|exact H]. apply is_kind_spec in K.
    destruct (pkg_make (S (String.length r)) h p r) as [h1 [q|e]] eqn:E; cbn [fst];
      eapply pkg_make_inv in E; intuition eauto.
  - apply inv_member, H.
Qed.

Lemma inv_fold ops h : Inv h -> Inv (fold_left (fun h o => fst (step h o)) ops h).
Proof.
  revert h; induction ops as [|o ops IH]; cbn [fold_left]; intros h H; [exact H|].
  apply IH, inv_step, H.
Qed.

Lemma inv_reachable h : reachable h -> Inv h.
Proof. intros [ops ->]. apply inv_fold, inv_nil. Qed.

(** ** Lookup *)

Lemma first_named_same h h' n l :
  same_ids h h' -> (forall j, In j l -> j < List.length h) ->
  first_named h' n l = first_named h n l.
Proof.
  intros S. induction l as [|i l IH]; intros L; [reflexivity|]. cbn [first_named].
  assert (Li : i < List.length h) by (apply L; now left).
  destruct (get h i) as [o|] eqn:E; [|apply nth_error_None in E; lia].
  destruct (S i o E) as (o' & -> & _ & ->). rewrite IH; auto. intros; apply L; now right.
Qed.

Lemma item_find_grown f h h' p ref i :
  Inv h -> grown h h' -> item_find f h p ref = Ok (Some i) -> item_find f h' p ref = Ok (Some i).
Proof.
  intros H G. revert p ref; induction f as [|f IH]; intros p ref E; [discriminate|].
  cbn [item_find] in *. destruct (get h p) as [po|] eqn:Ep; [|discriminate].
  destruct (G p po Ep) as (po' & Ep' & K & N & P & L & _ & (m & M)).
  change (nth_error h' p) with (get h' p) in Ep'. rewrite Ep', K.
  destruct (o_kind po) eqn:KP; auto.
  - destruct (partition_slash (strip_slash ref)) as [n rest].
    destruct (assoc n (o_map po)) as [q|] eqn:A; [|discriminate].
    rewrite M, assoc_app, A. destruct (String.eqb rest ""); auto.
  - rewrite L. rewrite (first_named_same h h'); auto using grown_same.
    intros j I. apply (g_kids h p po (H p po Ep)). unfold kids. apply in_or_app; auto.
Qed.

Lemma coll_find_grown h h' c ref i :
  Inv h -> grown h h' -> coll_find h c ref = Ok (Some i) -> coll_find h' c ref = Ok (Some i).
Proof.
  intros H G E. unfold coll_find in *. destruct (get h c) as [co|] eqn:Ec; [|discriminate].
  destruct (G c co Ec) as (co' & Ec' & K & N & P & L & _ & (m & M)).
  change (nth_error h' c) with (get h' c) in Ec'. rewrite Ec'.
  destruct (partition_slash (strip_slash ref)) as [n rest].
  destruct (assoc n (o_map co)) as [q|] eqn:A; [|discriminate].
  rewrite M, assoc_app, A. destruct (String.eqb rest ""); [exact E|].
  eapply item_find_grown; eauto.
Qed.

Lemma grown_assoc h h' p po n q :
  grown h h' -> get h p = Some po -> assoc n (o_map po) = Some q ->
  exists po', get h' p = Some po' /\ o_kind po' = o_kind po /\ assoc n (o_map po') = Some q.
Proof.
  intros G Ep A. destruct (G p po Ep) as (po' & Ep' & K & _ & _ & _ & _ & (m & M)).
  exists po'. repeat split; auto. now rewrite M, assoc_app, A.
Qed.

(** After [Package.make_packages] succeeds, [Package.find] with the same string finds
    the package, and making it again does nothing. *)
Lemma pkg_make_find f h p po ref h' q :
  Inv h -> get h p = Some po -> o_kind po = KPkg ->
  pkg_make f h p ref = (h', Ok q) ->
  forall g, String.length ref < g -> item_find g h' p ref = Ok (Some q).
Proof.
  revert h p po ref h' q; induction f as [|f IH]; intros h p po ref h' q H Ep KP E g L; [discriminate|].
  rewrite pkg_make_eq in E.
  destruct (starts_slash ref) eqn:SS; [discriminate|].
  destruct (partition_slash ref) as [n rest] eqn:P. cbv zeta in E. rewrite Ep in E.
  destruct g as [|g]; [lia|]. cbn [item_find].
  rewrite (starts_slash_strip _ SS), P.
  assert (Next : forall h1 po1 q1, Inv h1 -> get h1 p = Some po1 -> o_kind po1 = KPkg ->
            assoc n (o_map po1) = Some q1 -> (exists qo, get h1 q1 = Some qo /\ o_kind qo = KPkg) ->
            (if String.eqb rest "" then (h1, Ok q1) else pkg_make f h1 q1 rest) = (h', Ok q) ->
            match get h' p with
            | None => Err AttributeError
            | Some po0 =>
              match o_kind po0 with
              | KPkg => match assoc n (o_map po0) with
                        | None => Ok None
                        | Some q2 => if String.eqb rest "" then Ok (Some q2) else item_find g h' q2 rest
                        end
              | KComp => Ok (first_named h' (fst (n, rest)) (o_elements po0))
              | _ => Err AttributeError
              end
            end = Ok (Some q)).
  { intros h1 po1 q1 I1 E1 K1 A1 (qo & Eq1 & Kq1) C.
    destruct (String.eqb rest "") eqn:R.
    - injection C as <- <-. now rewrite E1, K1, A1.
    - assert (Lr : String.length rest < g).
      { pose proof (partition_len _ _ _ _ P) as X. apply String.eqb_neq in R. specialize (X R). lia. }
      pose proof (IH h1 q1 qo rest h' q I1 Eq1 Kq1 C g Lr) as F.
      edestruct pkg_make_inv as (I2 & G2 & _); [exact I1| |exact C|]; eauto.
      destruct (grown_assoc h1 h' p po1 n q1 G2 E1 A1) as (po' & -> & -> & ->). now rewrite K1. }
  destruct (assoc n (o_map po)) as [q1|] eqn:A.
  - destruct (get h q1) as [qo|] eqn:Eq; [|discriminate].
    destruct (o_kind qo) eqn:Kq; try discriminate.
    eapply Next; eauto.
  - destruct (create_package h p n) as [h1 [q1|e]] eqn:C; [|discriminate].
    destruct (created _ _ _ _ _ _ Ep C) as (Eq1 & po1 & Ep1 & Kp1 & A1).
    eapply (Next h1 po1 q1); eauto.
    + pose proof (inv_create h p n H) as X. rewrite C in X. apply X. exists po. split; auto. left; auto.
    + congruence.
Qed.

Lemma pkg_make_again f h p po ref h' q :
  Inv h -> get h p = Some po -> o_kind po = KPkg ->
  pkg_make f h p ref = (h', Ok q) -> pkg_make f h' p ref = (h', Ok q).
Proof.
  revert h p po ref h' q; induction f as [|f IH]; intros h p po ref h' q H Ep KP E; [discriminate|].
  rewrite pkg_make_eq in *.
  destruct (starts_slash ref) eqn:SS; [discriminate|].
  destruct (partition_slash ref) as [n rest] eqn:P. cbv zeta in *. rewrite Ep in E.
  assert (Next : forall h1 po1 q1, Inv h1 -> get h1 p = Some po1 ->
            assoc n (o_map po1) = Some q1 -> (exists qo, get h1 q1 = Some qo /\ o_kind qo = KPkg) ->
            (if String.eqb rest "" then (h1, Ok q1) else pkg_make f h1 q1 rest) = (h', Ok q) ->
            exists po', get h' p = Some po' /\ assoc n (o_map po') = Some q1 /\
              (exists qo, get h' q1 = Some qo /\ o_kind qo = KPkg) /\
              (if String.eqb rest "" then (h', Ok q1) else pkg_make f h' q1 rest) = (h', Ok q)).
  { intros h1 po1 q1 I1 E1 A1 (qo & Eq1 & Kq1) C.
    destruct (String.eqb rest "") eqn:R.
    - injection C as <- <-. eauto 8.
    - pose proof (IH h1 q1 qo rest h' q I1 Eq1 Kq1 C) as F.
      edestruct pkg_make_inv as (I2 & G2 & _); [exact I1| |exact C|]; eauto.
      destruct (grown_assoc h1 h' p po1 n q1 G2 E1 A1) as (po' & Ep' & _ & A').
      destruct (G2 q1 qo Eq1) as (qo' & Eq' & Kq' & _).
      exists po'. repeat split; auto. exists qo'. split; auto. congruence. }
  assert (Fin : forall po' q1, get h' p = Some po' -> assoc n (o_map po') = Some q1 ->
              (exists qo, get h' q1 = Some qo /\ o_kind qo = KPkg) ->
              (if String.eqb rest "" then (h', Ok q1) else pkg_make f h' q1 rest) = (h', Ok q) ->
              match get h' p with
              | None => (h', Err AttributeError)
              | Some po0 =>
                match assoc n (o_map po0) with
                | None => match create_package h' p n with
                          | (h'0, Ok q0) => if String.eqb rest "" then (h'0, Ok q0) else pkg_make f h'0 q0 rest
                          | (h'0, Err e) => (h'0, Err e)
                          end
                | Some q0 => match get h' q0 with
                             | Some qo => match o_kind qo with
                                          | KPkg => if String.eqb rest "" then (h', Ok q0) else pkg_make f h' q0 rest
                                          | _ => (h', Err KeyError) end
                             | None => (h', Err AttributeError)
                             end
                end
              end = (h', Ok q)).
  { intros po' q1 -> -> (qo & -> & ->) F. exact F. }
  destruct (assoc n (o_map po)) as [q1|] eqn:A.
  - destruct (get h q1) as [qo|] eqn:Eq; [|discriminate].
    destruct (o_kind qo) eqn:Kq; try discriminate.
    destruct (Next h po q1) as (po' & X1 & X2 & X3 & X4); eauto.
  - destruct (create_package h p n) as [h1 [q1|e]] eqn:C; [|discriminate].
    destruct (created _ _ _ _ _ _ Ep C) as (Eq1 & po1 & Ep1 & Kp1 & A1).
    destruct (Next h1 po1 q1) as (po' & X1 & X2 & X3 & X4); eauto.
    pose proof (inv_create h p n H) as X. rewrite C in X. apply X. exists po. split; auto. left; auto.
Qed.

(** The collection-level versions. *)
Lemma coll_entry_pkg h c co n q :
  Inv h -> get h c = Some co -> o_kind co = KColl -> assoc n (o_map co) = Some q ->
  exists qo, get h q = Some qo /\ o_kind qo = KPkg.
Proof.
  intros H Ec KC A. destruct (H c co Ec) as [G1 G2 G3 G4 _ _ _].
  destruct G2 as [G2 _]; [right; auto|]. apply assoc_in in A.
  eapply Permutation_in in A; [|exact G2]. apply in_map_iff in A as (j & J & I).
  injection J as _ ->. unfold kids in I.
  assert (X : kd h q = Some KPkg).
  { apply in_app_iff in I as [I|I]; [auto|]. specialize (G4 q I). rewrite KC in G4. contradiction. }
  unfold kd in X. destruct (get h q) as [qo|]; [|discriminate]. injection X as X. eauto.
Qed.

Lemma coll_make_find h c co ref h' q :
  Inv h -> get h c = Some co -> o_kind co = KColl ->
  coll_make h c ref = (h', Ok q) ->
  coll_find h' c ref = Ok (Some q) /\ coll_make h' c ref = (h', Ok q).
Proof.
  intros H Ec KC E.
  assert (Main : forall n rest, partition_slash (strip_slash ref) = (n, rest) ->
     exists q1 co', get h' c = Some co' /\ assoc n (o_map co') = Some q1 /\
       (if String.eqb rest "" then Ok (Some q1) else item_find (S (String.length rest)) h' q1 rest) = Ok (Some q) /\
       (if String.eqb rest "" then (h', Ok q1) else pkg_make (S (String.length rest)) h' q1 rest) = (h', Ok q)).
  { intros n rest P. unfold coll_make in E. rewrite P in E. cbv zeta in E. rewrite Ec in E.
    assert (Next : forall h1 co1 q1, Inv h1 -> get h1 c = Some co1 -> assoc n (o_map co1) = Some q1 ->
       (exists qo, get h1 q1 = Some qo /\ o_kind qo = KPkg) ->
       (if String.eqb rest "" then (h1, Ok q1) else pkg_make (S (String.length rest)) h1 q1 rest) = (h', Ok q) ->
       exists q1 co', get h' c = Some co' /\ assoc n (o_map co') = Some q1 /\
       (if String.eqb rest "" then Ok (Some q1) else item_find (S (String.length rest)) h' q1 rest) = Ok (Some q) /\
       (if String.eqb rest "" then (h', Ok q1) else pkg_make (S (String.length rest)) h' q1 rest) = (h', Ok q)).
    { intros h1 co1 q1 I1 E1 A1 (qo & Eq1 & Kq1) C.
      destruct (String.eqb rest "") eqn:R.
      - injection C as <- <-. eauto 8.
      - pose proof (pkg_make_find _ _ _ _ _ _ _ I1 Eq1 Kq1 C (S (String.length rest)) (Nat.lt_succ_diag_r _)) as F.
        pose proof (pkg_make_again _ _ _ _ _ _ _ I1 Eq1 Kq1 C) as F2.
        edestruct pkg_make_inv as (I2 & G2 & _); [exact I1| |exact C|]; eauto.
        destruct (grown_assoc h1 h' c co1 n q1 G2 E1 A1) as (co' & Ec' & _ & A').
        exists q1, co'. auto. }
    destruct (assoc n (o_map co)) as [q1|] eqn:A.
    - eapply (Next h co q1); eauto. eapply coll_entry_pkg; eauto.
    - destruct (create_package h c n) as [h1 [q1|e]] eqn:C; [|discriminate].
      destruct (created _ _ _ _ _ _ Ec C) as (Eq1 & po1 & Ep1 & Kp1 & A1).
      eapply (Next h1 po1 q1); eauto.
      pose proof (inv_create h c n H) as X. rewrite C in X. apply X. exists co. split; auto. right; auto. }
  unfold coll_find, coll_make. destruct (partition_slash (strip_slash ref)) as [n rest] eqn:P.
  destruct (Main n rest eq_refl) as (q1 & co' & -> & A & F1 & F2). cbv zeta.
  rewrite A. split; [exact F1 | exact F2].
Qed.

(** Fuel never runs out. *)
Lemma pkg_make_fuel f h p ref h' e :
  String.length ref < f -> pkg_make f h p ref = (h', Err e) -> e <> OutOfFuel.
Proof.
  revert h p ref; induction f as [|f IH]; intros h p ref L E; [lia|].
  rewrite pkg_make_eq in E. destruct (starts_slash ref); [injection E as _ <-; discriminate|].
  destruct (partition_slash ref) as [n rest] eqn:P. cbv zeta in E.
  assert (Next : forall h1 q, (if String.eqb rest "" then (h1, Ok q) else pkg_make f h1 q rest) = (h', Err e) ->
            e <> OutOfFuel).
  { intros h1 q. destruct (String.eqb rest "") eqn:R; [discriminate|].
    intros C. eapply IH; [|exact C]. apply String.eqb_neq in R.
    pose proof (partition_len _ _ _ _ P R). lia. }
  destruct (get h p) as [po|]; [|injection E as _ <-; discriminate].
  destruct (assoc n (o_map po)) as [q|].
  - destruct (get h q) as [qo|]; [|injection E as _ <-; discriminate].
    destruct (o_kind qo); eauto; injection E as _ <-; discriminate.
  - destruct (create_package h p n) as [h1 [q|e1]] eqn:C; eauto.
    injection E as _ <-. unfold create_package in C.
    destruct (get h p) as [po'|]; [|injection C as _ <-; discriminate].
    destruct (assoc n (o_map po')); [injection C as _ <-; discriminate|].
    unfold alloc in C. discriminate.
Qed.

Lemma coll_make_fuel h c ref h' e : coll_make h c ref = (h', Err e) -> e <> OutOfFuel.
Proof.
  unfold coll_make. destruct (partition_slash (strip_slash ref)) as [n rest]. cbv zeta.
  assert (Next : forall h1 q, (if String.eqb rest "" then (h1, Ok q)
              else pkg_make (S (String.length rest)) h1 q rest) = (h', Err e) -> e <> OutOfFuel).
  { intros h1 q. destruct (String.eqb rest ""); [discriminate|]. apply pkg_make_fuel. lia. }
  destruct (get h c) as [co|] eqn:Ec; [|intros E; injection E as _ <-; discriminate].
  destruct (assoc n (o_map co)) as [q|]; [eauto|].
  destruct (create_package h c n) as [h1 [q|e1]] eqn:C; eauto.
  intros E. injection E as _ <-. unfold create_package in C. rewrite Ec in C.
  destruct (assoc n (o_map co)); [injection C as _ <-; discriminate|]. unfold alloc in C. discriminate.
Qed.

(** KeyError (a path component is a non-package element) is raised before anything was
    created. *)
Lemma pkg_make_empty_no_key f h p po ref h' :
  get h p = Some po -> o_map po = [] -> pkg_make f h p ref <> (h', Err KeyError).
Proof.
  revert h p po ref; induction f as [|f IH]; intros h p po ref Ep M E; [discriminate|].
  rewrite pkg_make_eq in E. destruct (starts_slash ref); [discriminate|].
  destruct (partition_slash ref) as [n rest]. cbv zeta in E. rewrite Ep, M in E. cbn [assoc] in E.
  rewrite (create_package_fresh h p po n Ep) in E by now rewrite M.
  destruct (String.eqb rest ""); [discriminate|].
  assert (C : create_package h p n =
     (attach add_package (h ++ [new_obj KPkg n]) p (List.length h) n, Ok (List.length h)))
    by (apply create_package_fresh with po; auto; now rewrite M).
  destruct (created _ _ _ _ _ _ Ep C) as (Eq & _).
  eapply IH; [exact Eq|reflexivity|exact E].
Qed.

Lemma pkg_make_key f h p ref h' : pkg_make f h p ref = (h', Err KeyError) -> h' = h.
Proof.
  revert h p ref; induction f as [|f IH]; intros h p ref E; [discriminate|].
  rewrite pkg_make_eq in E. destruct (starts_slash ref); [discriminate|].
  destruct (partition_slash ref) as [n rest]. cbv zeta in E.
  destruct (get h p) as [po|] eqn:Ep; [|discriminate].
  destruct (assoc n (o_map po)) as [q|] eqn:A.
  - destruct (get h q) as [qo|]; [|discriminate].
    destruct (o_kind qo); try congruence. destruct (String.eqb rest ""); [discriminate|]. eauto.
  - destruct (create_package h p n) as [h1 [q|e1]] eqn:C.
    + destruct (String.eqb rest ""); [discriminate|]. exfalso.
      destruct (created _ _ _ _ _ _ Ep C) as (Eq & _).
      eapply pkg_make_empty_no_key; [exact Eq|reflexivity|exact E].
    + unfold create_package in C. rewrite Ep, A in C. discriminate.
Qed.

Lemma coll_make_key h c ref h' : coll_make h c ref = (h', Err KeyError) -> h' = h.
Proof.
  unfold coll_make. destruct (partition_slash (strip_slash ref)) as [n rest]. cbv zeta.
  destruct (get h c) as [co|] eqn:Ec; [|discriminate].
  destruct (assoc n (o_map co)) as [q|] eqn:A.
  - destruct (String.eqb rest ""); [discriminate|]. apply pkg_make_key.
  - destruct (create_package h c n) as [h1 [q|e1]] eqn:C.
    + destruct (String.eqb rest ""); [discriminate|]. intros E. exfalso.
      destruct (created _ _ _ _ _ _ Ec C) as (Eq & _).
      eapply pkg_make_empty_no_key; [exact Eq|reflexivity|exact E].
    + unfold create_package in C. rewrite Ec, A in C. discriminate.
Qed.

(** ** Listed children, uniqueness *)

Lemma nm_spec h i o : get h i = Some o -> nm h i = o_name o.
Proof. intros E. unfold nm. now rewrite E. Qed.

Lemma assoc_listed h p po n a :
  Inv h -> get h p = Some po -> is_box (o_kind po) ->
  (assoc n (o_map po) = Some a <-> listed_child h p n a).
Proof.
  intros H Ep B. destruct (H p po Ep) as [G1 G2 _ _ _ _ _]. destruct (G2 B) as [PM ND]. split.
  - intros A. exists po. split; [exact Ep|]. split; [exact B|].
    apply assoc_in in A. eapply Permutation_in in A; [|exact PM].
    apply in_map_iff in A as (j & J & I). injection J as Jn ->.
    split; [unfold kids in I; apply in_app_iff in I; exact I|].
    specialize (G1 a I). destruct (get h a) as [ao|] eqn:Ea; [|apply nth_error_None in Ea; lia].
    exists ao. split; auto. rewrite <- Jn. symmetry. now apply nm_spec.
  - intros (po' & Ep' & _ & I & (ao & Ea & Na)).
    change (nth_error h p) with (get h p) in Ep'. rewrite Ep in Ep'. injection Ep' as <-.
    apply assoc_nodup; auto. eapply Permutation_in; [symmetry; exact PM|].
    apply in_map_iff. exists a. split.
    + f_equal. rewrite <- Na. now apply nm_spec.
    + unfold kids. apply in_app_iff. exact I.
Qed.

Lemma children_unique_inv h i : Inv h -> children_unique h i.
Proof.
  intros H o E B. change (nth_error h i) with (get h i) in E.
  split; [|split].
  - intros a b n Ia Ib Na Nb.
    assert (A : assoc n (o_map o) = Some a).
    { apply (assoc_listed h i o n a H E B). exists o. rewrite in_app_iff in Ia. auto. }
    assert (A' : assoc n (o_map o) = Some b).
    { apply (assoc_listed h i o n b H E B). exists o. rewrite in_app_iff in Ib. auto. }
    congruence.
  - destruct (H i o E) as [G1 G2 _ _ _ _ _]. destruct (G2 B) as [PM ND].
    apply Permutation_map with (f := fst) in PM.
    assert (N2 : NoDup (map fst (map (fun j => (nm h j, j)) (kids o))))
      by (eapply Permutation_NoDup; eauto).
    rewrite map_map in N2. cbn in N2.
    clear -N2. unfold kids in N2. induction (o_packages o ++ o_elements o) as [|x l IH]; constructor.
    + cbn in N2. inversion N2; subst. intros I. apply H1. apply in_map_iff. eauto.
    + apply IH. cbn in N2. now inversion N2.
  - intros n a. now apply assoc_listed.
Qed.

(** ** Paths *)

Lemma pkg_make_path f h p po ref h' q :
  Inv h -> get h p = Some po -> o_kind po = KPkg ->
  pkg_make f h p ref = (h', Ok q) ->
  exists ns, path h' p ns q /\ ns <> [] /\ (ref = join "/" ns \/ ref = (join "/" ns ++ "/")%string).
Proof.
  revert h p po ref h' q; induction f as [|f IH]; intros h p po ref h' q H Ep KP E; [discriminate|].
  rewrite pkg_make_eq in E.
  destruct (starts_slash ref) eqn:SS; [discriminate|].
  destruct (partition_slash ref) as [n rest] eqn:P. cbv zeta in E. rewrite Ep in E.
  assert (Next : forall h1 po1 q1, Inv h1 -> get h1 p = Some po1 -> o_kind po1 = KPkg ->
            assoc n (o_map po1) = Some q1 -> (exists qo, get h1 q1 = Some qo /\ o_kind qo = KPkg) ->
            (if String.eqb rest "" then (h1, Ok q1) else pkg_make f h1 q1 rest) = (h', Ok q) ->
            exists ns, path h' p ns q /\ ns <> [] /\ (ref = join "/" ns \/ ref = (join "/" ns ++ "/")%string)).
  { intros h1 po1 q1 I1 E1 K1 A1 (qo & Eq1 & Kq1) C.
    destruct (partition_spec _ _ _ _ P) as [Mn Sp].
    destruct (String.eqb rest "") eqn:R.
    - apply eqb_empty in R. subst rest. injection C as <- <-.
      exists [n]. split; [constructor; apply (assoc_listed h1 p po1); auto; left; auto|].
      split; [discriminate|]. cbn. destruct Sp as [[-> _] | ->]; auto.
    - destruct (IH h1 q1 qo rest h' q I1 Eq1 Kq1 C) as (ns & Pa & Nn & J).
      edestruct pkg_make_inv as (I2 & G2 & _); [exact I1| |exact C|]; eauto.
      destruct (grown_assoc h1 h' p po1 n q1 G2 E1 A1) as (po' & Ep' & K' & A').
      exists (n :: ns). split; [|split; [discriminate|]].
      + econstructor; [|exact Pa]. apply (assoc_listed h' p po'); auto. left; congruence.
      + apply String.eqb_neq in R. destruct Sp as [[_ ->] | ->]; [contradiction|].
        destruct ns as [|m ns]; [contradiction|]. rewrite join_cons.
        destruct J as [-> | ->]; [left; reflexivity|right]. rewrite !str_app_assoc. reflexivity. }
  destruct (assoc n (o_map po)) as [q1|] eqn:A.
  - destruct (get h q1) as [qo|] eqn:Eq; [|discriminate].
    destruct (o_kind qo) eqn:Kq; try discriminate.
    eapply Next; eauto.
  - destruct (create_package h p n) as [h1 [q1|e]] eqn:C; [|discriminate].
    destruct (created _ _ _ _ _ _ Ep C) as (Eq1 & po1 & Ep1 & Kp1 & A1).
    eapply (Next h1 po1 q1); eauto.
    + pose proof (inv_create h p n H) as X. rewrite C in X. apply X. exists po. split; auto. left; auto.
    + congruence.
Qed.

Lemma coll_make_path h c co ref h' q :
  Inv h -> get h c = Some co -> o_kind co = KColl ->
  coll_make h c ref = (h', Ok q) ->
  exists ns, path h' c ns q /\ ns <> [] /\
    (strip_slash ref = join "/" ns \/ strip_slash ref = (join "/" ns ++ "/")%string).
Proof.
  intros H Ec KC E. unfold coll_make in E.
  destruct (partition_slash (strip_slash ref)) as [n rest] eqn:P. cbv zeta in E. rewrite Ec in E.
  destruct (partition_spec _ _ _ _ P) as [Mn Sp].
  assert (Next : forall h1 po1 q1, Inv h1 -> get h1 c = Some po1 -> o_kind po1 = KColl ->
            assoc n (o_map po1) = Some q1 -> (exists qo, get h1 q1 = Some qo /\ o_kind qo = KPkg) ->
            (if String.eqb rest "" then (h1, Ok q1) else pkg_make (S (String.length rest)) h1 q1 rest) = (h', Ok q) ->
            exists ns, path h' c ns q /\ ns <> [] /\
              (strip_slash ref = join "/" ns \/ strip_slash ref = (join "/" ns ++ "/")%string)).
  { intros h1 po1 q1 I1 E1 K1 A1 (qo & Eq1 & Kq1) C.
    destruct (String.eqb rest "") eqn:R.
    - apply eqb_empty in R. subst rest. injection C as <- <-.
      exists [n]. split; [constructor; apply (assoc_listed h1 c po1); auto; right; auto|].
      split; [discriminate|]. cbn. destruct Sp as [[-> _] | ->]; auto.
    - destruct (pkg_make_path _ h1 q1 qo rest h' q I1 Eq1 Kq1 C) as (ns & Pa & Nn & J).
      edestruct pkg_make_inv as (I2 & G2 & _); [exact I1| |exact C|]; eauto.
      destruct (grown_assoc h1 h' c po1 n q1 G2 E1 A1) as (po' & Ep' & K' & A').
      exists (n :: ns). split; [|split; [discriminate|]].
      + econstructor; [|exact Pa]. apply (assoc_listed h' c po'); auto. right; congruence.
      + apply String.eqb_neq in R. destruct Sp as [[_ ->] | ->]; [contradiction|].
        destruct ns as [|m ns]; [contradiction|]. rewrite join_cons.
        destruct J as [-> | ->]; [left; reflexivity|right]. rewrite !str_app_assoc. reflexivity. }
  destruct (assoc n (o_map co)) as [q1|] eqn:A.
  - eapply Next; eauto. eapply coll_entry_pkg; eauto.
  - destruct (create_package h c n) as [h1 [q1|e]] eqn:C; [|discriminate].
    destruct (created _ _ _ _ _ _ Ec C) as (Eq1 & po1 & Ep1 & Kp1 & A1).
    eapply (Next h1 po1 q1); eauto.
    + pose proof (inv_create h c n H) as X. rewrite C in X. apply X. exists co. split; auto. right; auto.
    + congruence.
Qed.

(** ** References *)

(** Walking up from [i] through [l] (parents of [i], innermost first) to root [r]. *)
Inductive up (h : heap) : nat -> list nat -> nat -> Prop :=
| up_end i o : get h i = Some o -> o_parent o = None -> up h i [] i
| up_step i o p l r : get h i = Some o -> o_parent o = Some p -> up h p l r -> up h i (p :: l) r.

Lemma chain_up_list h i r : chain h i r -> exists l, up h i l r.
Proof.
  induction 1 as [i (o & E & P)|i p r (o & E & P) _ (l & U)].
  - exists []. econstructor; eauto.
  - exists (p :: l). econstructor; eauto.
Qed.

Lemma up_chain h i l r : up h i l r -> chain h i r.
Proof.
  induction 1; [constructor|econstructor]; eauto; eexists; eauto.
Qed.

Lemma up_det h i l r l' r' : up h i l r -> up h i l' r' -> l = l' /\ r = r'.
Proof.
  intros U; revert l' r'; induction U as [i o E P|i o p l r E P U IH]; intros l' r' V; inversion V; subst.
  - auto.
  - congruence.
  - congruence.
  - rewrite E in H. injection H as <-. rewrite P in H0. injection H0 as <-.
    destruct (IH _ _ H1) as [-> ->]. auto.
Qed.

Lemma up_suffix h i l r a l2 :
  up h i l r -> forall l1, l = l1 ++ a :: l2 -> up h a l2 r.
Proof.
  induction 1 as [i o E P|i o p l r E P U IH]; intros l1 Eq.
  - destruct l1; discriminate.
  - destruct l1 as [|b l1]; cbn in Eq; injection Eq as -> Eq.
    + now subst.
    + eauto.
Qed.

Lemma up_nodup h i l r : up h i l r -> NoDup (i :: l).
Proof.
  induction 1 as [i o E P|i o p l r E P U IH].
  - constructor; [auto|constructor].
  - constructor; [|exact IH]. intros I.
    apply in_split in I as (l1 & l2 & Eq).
    assert (V : up h i (p :: l) r) by (econstructor; eauto).
    assert (W : up h i l2 r) by (eapply up_suffix; [exact V|exact Eq]).
    destruct (up_det _ _ _ _ _ _ V W) as [X _].
    rewrite Eq in X. apply (f_equal (@List.length nat)) in X.
    rewrite app_length in X. cbn in X. lia.
Qed.

Lemma up_length h i l r : up h i l r -> List.length l < List.length h.
Proof.
  intros U.
  assert (A : forall a, In a (i :: l) -> a < List.length h).
  { intros a I. apply in_split in I as (l1 & l2 & Eq).
    destruct l1 as [|b l1]; cbn in Eq; injection Eq as <- Eq.
    - inversion U; subst; eapply get_lt; eauto.
    - apply up_suffix with (a := a) (l2 := l2) (l1 := l1) in U; auto.
      inversion U; subst; eapply get_lt; eauto. }
  assert (X : List.length (i :: l) <= List.length (seq 0 (List.length h))).
  { apply NoDup_incl_length; [eapply up_nodup; eauto|].
    intros a I. apply in_seq. specialize (A a I). lia. }
  rewrite seq_length in X. cbn in X. lia.
Qed.

(** What [update_ref_parts] collects. *)
Lemma ref_parts_up h i l r f :
  Inv h -> up h i l r -> List.length l < f ->
  ref_parts f h i =
  Ok (match kd h r with
      | Some KColl => map Some (map (nm h) (removelast (i :: l)) ++ [""])
      | _ => map Some (map (nm h) (i :: l)) ++ [None]
      end).
Proof.
  intros H U. revert f. induction U as [i o E P|i o p l r E P U IH]; intros f L;
    (destruct f as [|f]; [cbn in L; lia|]); cbn [ref_parts]; rewrite E.
  - destruct (o_kind o) eqn:K; rewrite ?P; unfold kd, nm; rewrite E, K; cbn; rewrite ?E; reflexivity.
  - assert (NC : o_kind o <> KColl).
    { intros K. pose proof (g_coll h i o (H i o E) K). congruence. }
    cbn [List.length] in L. rewrite P, IH by lia.
    replace (match o_kind o with
             | KColl => Ok [Some ""]
             | _ => let* r0 := Ok match kd h r with
                         | Some KColl => map Some (map (nm h) (removelast (p :: l)) ++ [""])
                         | _ => map Some (map (nm h) (p :: l)) ++ [None]
                         end in Ok (Some (o_name o) :: r0)
             end)
      with (Ok (Some (o_name o) :: match kd h r with
                         | Some KColl => map Some (map (nm h) (removelast (p :: l)) ++ [""])
                         | _ => map Some (map (nm h) (p :: l)) ++ [None]
                         end)) by (destruct (o_kind o); congruence || reflexivity).
    assert (NN : nm h i = o_name o) by now apply nm_spec.
    destruct (kd h r) as [[]|]; cbn [map app removelast]; rewrite NN; auto.
Qed.

Lemma all_some_map l : all_some (map Some l) = Some l.
Proof. induction l as [|a l IH]; cbn; [auto|]. now rewrite IH. Qed.

Lemma all_some_none l : all_some (map Some l ++ [None]) = None.
Proof. induction l as [|a l IH]; cbn; [auto|]. now rewrite IH. Qed.

Lemma calc_ref_up h i l r :
  Inv h -> up h i l r -> kd h i <> Some KColl ->
  calc_ref h i =
  Ok (match kd h r with
      | Some KColl => Some (join "/" ("" :: rev (map (nm h) (i :: removelast l))))
      | _ => None
      end).
Proof.
  intros H U NC. unfold calc_ref. inversion U as [j o E P|j o p l' r' E P U']; subst; rewrite E, P.
  - destruct (kd h r) as [[]|]; auto. congruence.
  - rewrite (ref_parts_up h p l' r) by (auto; pose proof (up_length _ _ _ _ U'); lia).
    cbn [bind]. destruct (kd h r) as [[]|]; rewrite ?all_some_none; auto.
    rewrite all_some_map. do 2 f_equal.
    change (rev (o_name o :: map (nm h) (removelast (p :: l')) ++ [""]))
      with (rev ((o_name o :: map (nm h) (removelast (p :: l'))) ++ [""])).
    rewrite rev_app_distr. cbn [rev app]. f_equal.
    replace (o_name o) with (nm h i) by (now apply nm_spec).
    reflexivity.
Qed.

(** If the reference string exists, the parent chain ends in a collection. *)
Lemma ref_parts_some f h i t :
  Inv h -> ref_parts f h i = Ok t -> exists l r, up h i l r /\ List.length l < f.
Proof.
  intros H. revert i t; induction f as [|f IH]; intros i t E; [discriminate|].
  cbn [ref_parts] in E. destruct (get h i) as [o|] eqn:Eo; [|discriminate].
  destruct (o_parent o) as [p|] eqn:P.
  - assert (X : exists r, ref_parts f h p = Ok r).
    { destruct (o_kind o) eqn:K.
      - pose proof (g_coll h i o (H i o Eo) K). congruence.
      - destruct (ref_parts f h p); [eauto|discriminate].
      - destruct (ref_parts f h p); [eauto|discriminate].
      - destruct (ref_parts f h p); [eauto|discriminate].
      - destruct (ref_parts f h p); [eauto|discriminate]. }
    destruct X as (t' & X). destruct (IH p t' X) as (l & r & U & L).
    exists (p :: l), r. split; [econstructor; eauto|cbn; lia].
  - exists [], i. split; [econstructor; eauto|cbn; lia].
Qed.

Lemma calc_ref_some h i s :
  Inv h -> calc_ref h i = Ok (Some s) ->
  exists l c, up h i l c /\ kd h c = Some KColl /\ l <> [].
Proof.
  intros H E. unfold calc_ref in E. destruct (get h i) as [o|] eqn:Eo; [|discriminate].
  destruct (o_parent o) as [p|] eqn:P; [|discriminate].
  destruct (ref_parts (S (List.length h)) h p) as [t|e] eqn:R; [|discriminate].
  destruct (ref_parts_some _ _ _ _ H R) as (l & c & U & L).
  assert (V : up h i (p :: l) c) by (econstructor; eauto).
  exists (p :: l), c. split; auto. split; [|discriminate].
  assert (NC : kd h i <> Some KColl).
  { unfold kd. rewrite Eo. intros [= K]. pose proof (g_coll h i o (H i o Eo) K). congruence. }
  pose proof (calc_ref_up h i (p :: l) c H V NC) as X.
  unfold calc_ref in X. rewrite Eo, P, R in X.
  cbn [bind] in *. rewrite E in X. destruct (kd h c) as [[]|]; congruence.
Qed.

(** Every object on the chain above a package or element is a package, except the root. *)
Lemma up_box h i l r o :
  Inv h -> up h i l r -> get h i = Some o -> is_item (o_kind o) ->
  forall a, In a l -> exists ao, get h a = Some ao /\ is_box (o_kind ao).
Proof.
  intros H U. revert o. induction U as [i o' E P|i o' p l r E P U IH]; intros o Eo K a I; [destruct I|].
  rewrite E in Eo. injection Eo as <-.
  destruct (g_parent h i o' (H i o' E) p P) as (po & Ep & M).
  assert (B : is_box (o_kind po)) by (destruct K as [K|[K|K]]; rewrite K in M; tauto).
  destruct I as [<-|I]; [eauto|].
  destruct B as [B|B].
  - apply (IH po Ep); auto. left; auto.
  - pose proof (g_coll h p po (H p po Ep) B) as NP. inversion U; subst; [destruct I|congruence].
Qed.

Lemma join_path_cons n ns : ns <> [] -> join "/" (n :: ns) = (n ++ String slash (join "/" ns))%string.
Proof. destruct ns as [|m ns]; [contradiction|]. intros _. reflexivity. Qed.

Lemma join_valid_nonempty ns : (forall n, In n ns -> valid_name n) -> ns <> [] ->
  join "/" ns <> "" /\ starts_slash (join "/" ns) = false.
Proof.
  destruct ns as [|n ns]; [contradiction|]. intros V _.
  destruct (V n (or_introl eq_refl)) as [N M].
  destruct ns as [|m ns].
  - cbn. split; auto. now apply starts_slash_mem.
  - rewrite join_path_cons by discriminate. split.
    + destruct n; [congruence|discriminate].
    + rewrite starts_slash_app by auto. now apply starts_slash_mem.
Qed.

(** Finding down a path of names from a package. *)
Lemma item_find_path h p ns i f :
  Inv h -> path h p ns i -> (forall n, In n ns -> valid_name n) ->
  kd h p = Some KPkg -> String.length (join "/" ns) < f ->
  item_find f h p (join "/" ns) = Ok (Some i).
Proof.
  intros H PA. revert f. induction PA as [p n i L|p n q ns i L PA IH]; intros f V K Lf;
    (destruct f as [|f]; [lia|]); cbn [item_find]; unfold kd in K;
    (destruct (get h p) as [po|] eqn:Ep; [|discriminate]); injection K as K; rewrite K;
    apply (assoc_listed h p po n _ H Ep (or_introl K)) in L;
    destruct (V n (or_introl eq_refl)) as [N M].
  - cbn [join]. rewrite starts_slash_strip by now apply starts_slash_mem.
    unfold partition_slash. rewrite partition_no by auto. rewrite L. reflexivity.
  - assert (NE : ns <> []) by (destruct PA; discriminate).
    assert (Vn : forall m, In m ns -> valid_name m) by (intros; apply V; now right).
    destruct (join_valid_nonempty ns Vn NE) as [JN JS].
    rewrite join_path_cons in * by auto.
    rewrite starts_slash_strip by (rewrite starts_slash_app by auto; now apply starts_slash_mem).
    unfold partition_slash. rewrite partition_sep by auto. rewrite L.
    apply String.eqb_neq in JN. rewrite JN.
    apply IH; auto.
    + (* q is a package: it has children on the path *)
      assert (B : exists qo, get h q = Some qo /\ is_box (o_kind qo)).
      { destruct PA as [p' n' i' (qo & Eq & B & _)|p' n' q' ns' i' (qo & Eq & B & _) _]; exists qo; auto. }
      destruct B as (qo & Eq & B). unfold kd. rewrite Eq. f_equal. destruct B as [B|B]; auto. exfalso.
      apply assoc_in in L. destruct (H p po Ep) as [G1 G2 G3 G4 _ _ _].
      destruct (G2 (or_introl K)) as [PM _]. eapply Permutation_in in L; [|exact PM].
      apply in_map_iff in L as (j & J & I). injection J as _ ->.
      unfold kids in I. apply in_app_iff in I as [I|I].
      * specialize (G3 q I). unfold kd in G3. rewrite Eq in G3. congruence.
      * specialize (G4 q I). rewrite K in G4. unfold kd in G4. rewrite Eq in G4.
        destruct G4 as [G4|G4]; congruence.
    + rewrite str_length_app in Lf. cbn in Lf. lia.
Qed.

Lemma coll_find_path h c ns i :
  Inv h -> path h c ns i -> (forall n, In n ns -> valid_name n) -> kd h c = Some KColl ->
  forall s, s = join "/" ns \/ s = join "/" ("" :: ns) -> coll_find h c s = Ok (Some i).
Proof.
  intros H PA V K s Hs.
  assert (NE : ns <> []) by (destruct PA; discriminate).
  destruct (join_valid_nonempty ns V NE) as [JN JS].
  assert (SS : strip_slash s = join "/" ns).
  { destruct Hs as [->| ->].
    - now apply starts_slash_strip.
    - rewrite join_path_cons by auto. reflexivity. }
  unfold coll_find. rewrite SS. unfold kd in K.
  destruct (get h c) as [co|] eqn:Ec; [|discriminate]. injection K as K.
  inversion PA as [p n j L|p n q ns' j L PA']; subst.
  - apply (assoc_listed h c co n i H Ec (or_intror K)) in L.
    destruct (V n (or_introl eq_refl)) as [N M].
    cbn [join]. unfold partition_slash. rewrite partition_no by auto. rewrite L. reflexivity.
  - apply (assoc_listed h c co n q H Ec (or_intror K)) in L.
    destruct (V n (or_introl eq_refl)) as [N M].
    assert (NE' : ns' <> []) by (destruct PA'; discriminate).
    assert (Vn : forall m, In m ns' -> valid_name m) by (intros; apply V; now right).
    destruct (join_valid_nonempty ns' Vn NE') as [JN' JS'].
    rewrite join_path_cons by auto. unfold partition_slash. rewrite partition_sep by auto. rewrite L.
    apply String.eqb_neq in JN'. rewrite JN'.
    destruct (coll_entry_pkg h c co n q H Ec K L) as (qo & Eq & Kq).
    apply item_find_path; auto. unfold kd. now rewrite Eq, Kq.
Qed.

Lemma path_snoc h c ns p n i : path h c ns p -> listed_child h p n i -> path h c (ns ++ [n]) i.
Proof.
  induction 1 as [q m j L|q m r ns j L PA IH]; intros K; cbn.
  - econstructor; [exact L|]. now constructor.
  - econstructor; [exact L|]. auto.
Qed.

(** The parent chain of an attached item, read backwards, is a path of listed children. *)
Lemma up_path h i l c o :
  Inv h -> up h i l c -> get h i = Some o -> is_item (o_kind o) -> kd h c = Some KColl ->
  path h c (rev (map (nm h) (i :: removelast l))) i.
Proof.
  intros H U. revert o. induction U as [i o' E P|i o' p l c E P U IH]; intros o Eo K KC.
  - exfalso. rewrite E in Eo. injection Eo as <-. unfold kd in KC. rewrite E in KC. injection KC as KC.
    destruct K as [K|[K|K]]; congruence.
  - rewrite E in Eo. injection Eo as <-.
    destruct (g_parent h i o' (H i o' E) p P) as (po & Ep & M).
    assert (BA : is_box (o_kind po) /\ assoc (o_name o') (o_map po) = Some i)
      by (destruct K as [K|[K|K]]; rewrite K in M; exact M).
    destruct BA as [B A].
    apply (assoc_listed h p po (o_name o') i H Ep B) in A.
    cbn [map rev]. rewrite (nm_spec h i o' E).
    destruct B as [B|B].
    + assert (NL : l <> []).
      { intros ->. inversion U; subst. unfold kd in KC. rewrite Ep in KC. congruence. }
      destruct l as [|p2 l]; [contradiction|].
      cbn [removelast]. specialize (IH po Ep (or_introl B) KC).
      change (removelast (p :: p2 :: l)) with (p :: removelast (p2 :: l)).
      eapply path_snoc; [exact IH|exact A].
    + pose proof (g_coll h p po (H p po Ep) B) as NP.
      inversion U; subst; [|congruence]. cbn. now constructor.
Qed.

Lemma ref_find h i o s :
  Inv h -> valid_names h -> get h i = Some o -> is_item (o_kind o) ->
  calc_ref h i = Ok (Some s) ->
  exists c, chain h i c /\ kd h c = Some KColl /\ coll_find h c s = Ok (Some i)
    /\ root_collection (S (List.length h)) h i = Ok (Some c).
Proof.
  intros H V E K C. destruct (calc_ref_some h i s H C) as (l & c & U & KC & NL).
  exists c. split; [eapply up_chain; eauto|]. split; [exact KC|].
  assert (NC : kd h i <> Some KColl).
  { unfold kd. rewrite E. intros [= X]. destruct K as [K|[K|K]]; congruence. }
  rewrite (calc_ref_up h i l c H U NC), KC in C. injection C as C.
  split.
  - eapply coll_find_path; [exact H|eapply up_path; eauto| |exact KC|right; symmetry; exact C].
    intros n I. apply in_rev in I. apply in_map_iff in I as (j & <- & I).
    assert (J : exists jo, get h j = Some jo /\ o_kind jo <> KColl).
    { destruct I as [<-|I].
      - exists o. split; auto. intros X. destruct K as [K|[K|K]]; congruence.
      - (* members of [removelast l] have a parent *)
        clear -H U I. induction U as [i o E P|i o p l r E P U IH]; [destruct I|].
        destruct l as [|p2 l]; [destruct I|]. cbn [removelast] in I.
        destruct I as [<-|I].
        + inversion U as [|i' o2 p' l' r' E2 P2 U2]; subst. exists o2. split; auto.
          intros X. pose proof (g_coll h p o2 (H p o2 E2) X). congruence.
        + apply IH. exact I. }
    destruct J as (jo & Ej & Kj). rewrite (nm_spec h j jo Ej). eapply V; eauto.
  - pose proof (up_length _ _ _ _ U) as L. clear -U KC L.
    assert (X : List.length l < S (List.length h)) by lia. revert X.
    generalize (S (List.length h)) as f. clear L.
    induction U as [i o E P|i o p l r E P U IH]; intros f L; (destruct f as [|f]; [cbn in L; lia|]); cbn [root_collection].
    + rewrite E, P. unfold kd in KC. rewrite E in KC. injection KC as ->. reflexivity.
    + rewrite E, P. apply IH; auto. cbn in L. lia.
Qed.

(** Two attached items with the same reference are the same item. *)
Lemma ref_injective h i j oi oj s c :
  Inv h -> valid_names h -> get h i = Some oi -> get h j = Some oj ->
  is_item (o_kind oi) -> is_item (o_kind oj) ->
  chain h i c -> chain h j c ->
  calc_ref h i = Ok (Some s) -> calc_ref h j = Ok (Some s) -> i = j.
Proof.
  intros H V Ei Ej Ki Kj Ci Cj Ri Rj.
  destruct (ref_find h i oi s H V Ei Ki Ri) as (c1 & C1 & _ & F1 & _).
  destruct (ref_find h j oj s H V Ej Kj Rj) as (c2 & C2 & _ & F2 & _).
  assert (U : forall a x y, chain h a x -> chain h a y -> x = y).
  { intros a x y Cx Cy. apply chain_up_list in Cx as (lx & Ux). apply chain_up_list in Cy as (ly & Uy).
    eapply up_det; eauto. }
  rewrite (U i c1 c C1 Ci) in F1. rewrite (U j c2 c C2 Cj) in F2. congruence.
Qed.

(** The reference is missing exactly when the chain of parents misses a collection. *)
Lemma ref_none_iff h i o r :
  Inv h -> get h i = Some o -> o_kind o <> KColl -> chain h i r ->
  (calc_ref h i = Ok None <-> kd h r <> Some KColl) /\
  (kd h r = Some KColl -> exists s, calc_ref h i = Ok (Some s)) /\
  root_collection (S (List.length h)) h i =
    Ok (match kd h r with Some KColl => Some r | _ => None end).
Proof.
  intros H E K C. apply chain_up_list in C as (l & U).
  assert (NC : kd h i <> Some KColl) by (unfold kd; rewrite E; congruence).
  rewrite (calc_ref_up h i l r H U NC). split; [|split].
  - destruct (kd h r) as [[]|]; split; congruence.
  - intros ->. eauto.
  - pose proof (up_length _ _ _ _ U) as L.
    assert (X : List.length l < S (List.length h)) by lia. revert X.
    generalize (S (List.length h)) as f. clear L NC E K.
    induction U as [i o' E P|i o' p l r E P U IH]; intros f L; (destruct f as [|f]; [cbn in L; lia|]); cbn [root_collection].
    + rewrite E, P. unfold kd. rewrite E. destruct (o_kind o'); reflexivity.
    + rewrite E, P. apply IH. cbn in L. lia.
Qed.

(** ** When [make_packages] succeeds *)

Definition valid_all (ns : list string) : Prop := forall n, In n ns -> valid_name n.

Definition blocked (h : heap) (p : nat) (ns : list string) : Prop :=
  exists a b x, ns = a ++ b /\ path h p a x /\ kd h x <> Some KPkg.

Lemma path_head h p n ns x :
  path h p (n :: ns) x ->
  exists q, listed_child h p n q /\ ((ns = [] /\ q = x) \/ path h q ns x).
Proof. intros P. inversion P; subst; eauto. Qed.

Lemma path_tail h p n q ns x :
  listed_child h p n q -> (ns = [] /\ q = x) \/ path h q ns x -> path h p (n :: ns) x.
Proof. intros L [[-> ->]|P]; econstructor; eauto. Qed.

Lemma pkg_make_total f h p po ns :
  Inv h -> get h p = Some po -> o_kind po = KPkg -> valid_all ns -> ns <> [] ->
  String.length (join "/" ns) < f ->
  (blocked h p ns -> exists h', pkg_make f h p (join "/" ns) = (h', Err KeyError)) /\
  (~ blocked h p ns -> exists h' q, pkg_make f h p (join "/" ns) = (h', Ok q)).
Proof.
  revert h p po ns; induction f as [|f IH]; intros h p po ns H Ep KP V NE L; [lia|].
  destruct ns as [|n ns]; [contradiction|].
  destruct (V n (or_introl eq_refl)) as [N M].
  assert (Vn : valid_all ns) by (intros m I; apply V; now right).
  assert (P : partition_slash (join "/" (n :: ns)) = (n, join "/" ns) /\
              starts_slash (join "/" (n :: ns)) = false).
  { destruct ns as [|m ns].
    - cbn [join]. split; [now apply partition_no|now apply starts_slash_mem].
    - rewrite join_path_cons by discriminate. split; [now apply partition_sep|].
      rewrite starts_slash_app by auto. now apply starts_slash_mem. }
  destruct P as [P SS]. rewrite pkg_make_eq, SS, P. cbv zeta. rewrite Ep.
  assert (Lr : ns <> [] -> String.length (join "/" ns) < f).
  { intros Nn. rewrite join_path_cons in L by auto. rewrite str_length_app in L. cbn in L. lia. }
  assert (RE : String.eqb (join "/" ns) "" = true <-> ns = []).
  { rewrite eqb_empty. split; [|now intros ->]. intros X. destruct ns as [|m ns]; auto.
    destruct (join_valid_nonempty (m :: ns) Vn ltac:(discriminate)). contradiction. }
  destruct (assoc n (o_map po)) as [q|] eqn:A.
  - pose proof (proj1 (assoc_listed h p po n q H Ep (or_introl KP)) A) as LC.
    assert (Eq : exists qo, get h q = Some qo).
    { destruct LC as (o' & _ & _ & _ & (qo & Eq & _)). eauto. }
    destruct Eq as (qo & Eq). rewrite Eq.
    assert (Uniq : forall x, listed_child h p n x -> x = q).
    { intros x LX. apply (assoc_listed h p po n x H Ep (or_introl KP)) in LX. congruence. }
    destruct (o_kind qo) eqn:Kq.
    2: { destruct ns as [|m ns].
         - rewrite (proj2 RE eq_refl). split; [|intros _; exists h, q; reflexivity].
           intros (a & b & x & E & PA & KX). exfalso.
           destruct a as [|y a]; [inversion PA|]. destruct a; [|discriminate].
           injection E as <- E. destruct (path_head _ _ _ _ _ PA) as (z & LZ & [[_ <-]|PZ]).
           + rewrite (Uniq z LZ) in KX. unfold kd in KX. rewrite Eq, Kq in KX. congruence.
           + inversion PZ.
         - assert (R : String.eqb (join "/" (m :: ns)) "" = false).
           { apply not_true_is_false. intros R. apply RE in R. discriminate. }
           rewrite R.
           destruct (IH h q qo (m :: ns) H Eq Kq Vn ltac:(discriminate) (Lr ltac:(discriminate))) as [I1 I2].
           assert (BE : blocked h p (n :: m :: ns) <-> blocked h q (m :: ns)).
           { split; intros (a & b & x & E & PA & KX).
             - destruct a as [|y a]; [inversion PA|]. injection E as <- E.
               destruct (path_head _ _ _ _ _ PA) as (z & LZ & [[-> <-]|PZ]).
               + exfalso. rewrite (Uniq z LZ) in KX. unfold kd in KX. rewrite Eq, Kq in KX. congruence.
               + rewrite (Uniq z LZ) in PZ. exists a, b, x. auto.
             - exists (n :: a), b, x. split; [cbn; now f_equal|]. split; auto.
               eapply path_tail; eauto. }
           rewrite BE. auto. }
    all: split; [eauto|intros NB; exfalso; apply NB; exists [n], ns, q;
                 split; [reflexivity|]; split; [now constructor|]; unfold kd; rewrite Eq, Kq; congruence].
  - assert (NB : ~ blocked h p (n :: ns)).
    { intros (a & b & x & E & PA & KX). destruct a as [|y a]; [inversion PA|]. injection E as <- E.
      destruct (path_head _ _ _ _ _ PA) as (z & LZ & _).
      apply (assoc_listed h p po n z H Ep (or_introl KP)) in LZ. congruence. }
    split; [contradiction|]. intros _.
    destruct (create_package h p n) as [h1 [q|e]] eqn:C;
      [|unfold create_package in C; rewrite Ep, A in C; discriminate].
    destruct (created _ _ _ _ _ _ Ep C) as (Eq & _).
    destruct (String.eqb (join "/" ns) "") eqn:R; [eauto|].
    assert (Nn : ns <> []) by (intros ->; discriminate).
    assert (I1 : Inv h1).
    { pose proof (inv_create h p n H) as X. rewrite C in X. apply X. exists po. split; auto. left; auto. }
    destruct (IH h1 q _ ns I1 Eq eq_refl Vn Nn (Lr Nn)) as [_ I2]. apply I2.
    intros (a & b & x & E & PA & KX). destruct a as [|y a]; [inversion PA|].
    destruct (path_head _ _ _ _ _ PA) as (z & LZ & _).
    apply (assoc_listed h1 q _ y z I1 Eq (or_introl eq_refl)) in LZ. discriminate.
Qed.

Lemma coll_make_total h c co ns s :
  Inv h -> get h c = Some co -> o_kind co = KColl -> valid_all ns -> ns <> [] ->
  s = join "/" ns \/ s = ("/" ++ join "/" ns)%string ->
  (blocked h c ns -> exists h', coll_make h c s = (h', Err KeyError)) /\
  (~ blocked h c ns -> exists h' q, coll_make h c s = (h', Ok q)).
Proof.
  intros H Ec KC V NE Hs.
  destruct ns as [|n ns]; [contradiction|].
  destruct (V n (or_introl eq_refl)) as [N M].
  assert (Vn : valid_all ns) by (intros m I; apply V; now right).
  assert (P : partition_slash (strip_slash s) = (n, join "/" ns)).
  { assert (X : strip_slash s = join "/" (n :: ns)).
    { destruct (join_valid_nonempty (n :: ns) V NE) as [_ JS]. destruct Hs as [->| ->].
      - now apply starts_slash_strip.
      - reflexivity. }
    rewrite X. destruct ns as [|m ns]; [now apply partition_no|].
    rewrite join_path_cons by discriminate. now apply partition_sep. }
  unfold coll_make. rewrite P. cbv zeta. rewrite Ec.
  assert (RE : String.eqb (join "/" ns) "" = true -> ns = []).
  { rewrite eqb_empty. intros X. destruct ns as [|m ns]; auto.
    destruct (join_valid_nonempty (m :: ns) Vn ltac:(discriminate)). contradiction. }
  destruct (assoc n (o_map co)) as [q|] eqn:A.
  - destruct (coll_entry_pkg h c co n q H Ec KC A) as (qo & Eq & Kq).
    pose proof (proj1 (assoc_listed h c co n q H Ec (or_intror KC)) A) as LC.
    assert (Uniq : forall x, listed_child h c n x -> x = q).
    { intros x LX. apply (assoc_listed h c co n x H Ec (or_intror KC)) in LX. congruence. }
    destruct (String.eqb (join "/" ns) "") eqn:R.
    + rewrite (RE eq_refl) in *. split; [|eauto].
      intros (a & b & x & E & PA & KX). exfalso.
      destruct a as [|y a]; [inversion PA|]. destruct a; [|discriminate].
      injection E as <- E. destruct (path_head _ _ _ _ _ PA) as (z & LZ & [[_ <-]|PZ]).
      * rewrite (Uniq z LZ) in KX. unfold kd in KX. rewrite Eq, Kq in KX. congruence.
      * inversion PZ.
    + assert (Nn : ns <> []) by (intros ->; discriminate).
      destruct (pkg_make_total (S (String.length (join "/" ns))) h q qo ns H Eq Kq Vn Nn
                  (Nat.lt_succ_diag_r _)) as [I1 I2].
      assert (BE : blocked h c (n :: ns) <-> blocked h q ns).
      { split; intros (a & b & x & E & PA & KX).
        - destruct a as [|y a]; [inversion PA|]. injection E as <- E.
          destruct (path_head _ _ _ _ _ PA) as (z & LZ & [[-> <-]|PZ]).
          + exfalso. rewrite (Uniq z LZ) in KX. unfold kd in KX. rewrite Eq, Kq in KX. congruence.
          + rewrite (Uniq z LZ) in PZ. exists a, b, x. auto.
        - exists (n :: a), b, x. split; [cbn; now f_equal|]. split; auto.
          eapply path_tail; eauto. }
      rewrite BE. auto.
  - assert (NB : ~ blocked h c (n :: ns)).
    { intros (a & b & x & E & PA & KX). destruct a as [|y a]; [inversion PA|]. injection E as <- E.
      destruct (path_head _ _ _ _ _ PA) as (z & LZ & _).
      apply (assoc_listed h c co n z H Ec (or_intror KC)) in LZ. congruence. }
    split; [contradiction|]. intros _.
    destruct (create_package h c n) as [h1 [q|e]] eqn:C;
      [|unfold create_package in C; rewrite Ec, A in C; discriminate].
    destruct (created _ _ _ _ _ _ Ec C) as (Eq & _).
    destruct (String.eqb (join "/" ns) "") eqn:R; [eauto|].
    assert (Nn : ns <> []) by (intros ->; discriminate).
    assert (I1 : Inv h1).
    { pose proof (inv_create h c n H) as X. rewrite C in X. apply X. exists co. split; auto. right; auto. }
    destruct (pkg_make_total (S (String.length (join "/" ns))) h1 q _ ns I1 Eq eq_refl Vn Nn
                (Nat.lt_succ_diag_r _)) as [_ I2]. apply I2.
    intros (a & b & x & E & PA & KX). destruct a as [|y a]; [inversion PA|].
    destruct (path_head _ _ _ _ _ PA) as (z & LZ & _).
    apply (assoc_listed h1 q _ y z I1 Eq (or_introl eq_refl)) in LZ. discriminate.
Qed.

(** ** Statements in the vocabulary of the specification *)

Lemma has_kind_kd k h i : has_kind k h i <-> kd h i = Some k.
Proof.
  unfold has_kind, kd, get. destruct (nth_error h i) as [o|]; split.
  - intros (o' & [= <-] & ->). reflexivity.
  - intros [= <-]. eauto.
  - intros (o' & E & _). discriminate.
  - discriminate.
Qed.

Lemma made_found h c ref h' q :
  reachable h -> has_kind KColl h c -> coll_make h c ref = (h', Ok q) ->
  coll_find h' c ref = Ok (Some q) /\ has_kind KPkg h' q /\
  exists ns lead trail,
    path h' c ns q /\ ref = (lead ++ join "/" ns ++ trail)%string
    /\ (lead = "" \/ lead = "/") /\ (trail = "" \/ trail = "/").
Proof.
  intros R (co & Ec & KC) E. apply inv_reachable in R.
  split; [eapply coll_make_find; eauto|]. split.
  - apply has_kind_kd. edestruct coll_make_inv as (_ & _ & K); [exact R| |exact E|]; eauto.
  - destruct (coll_make_path h c co ref h' q R Ec KC E) as (ns & PA & _ & J).
    assert (X : exists lead, ref = (lead ++ strip_slash ref)%string /\ (lead = "" \/ lead = "/")).
    { destruct ref as [|x s]; [exists ""; auto|]. cbn.
      destruct (Ascii.eqb_spec x slash) as [->|NX]; [exists "/"; auto|exists ""; auto]. }
    destruct X as (lead & X & HL). exists ns, lead.
    destruct J as [J|J]; [exists ""|exists "/"]; rewrite X, J; repeat split; auto.
    now rewrite str_app_nil_r.
Qed.

Lemma make_keeps_lookups h c ref h' r c2 ref2 i :
  reachable h -> has_kind KColl h c -> coll_make h c ref = (h', r) ->
  coll_find h c2 ref2 = Ok (Some i) -> coll_find h' c2 ref2 = Ok (Some i).
Proof.
  intros R (co & Ec & KC) E F. apply inv_reachable in R.
  edestruct coll_make_inv as (_ & G & _); [exact R| |exact E|]; eauto using coll_find_grown.
Qed.

Lemma make_all_found h c refs h' qs :
  reachable h -> has_kind KColl h c -> coll_make_all h c refs = (h', Ok qs) ->
  Forall2 (fun r q => coll_find h' c r = Ok (Some q)) refs qs /\ grown h h'.
Proof.
  intros R (co & Ec & KC). apply inv_reachable in R.
  revert h co R Ec KC qs; induction refs as [|r rs IH]; intros h co R Ec KC qs E; cbn [coll_make_all] in E.
  - injection E as <- <-. split; [constructor|apply grown_refl].
  - destruct (coll_make h c r) as [h1 [q|e]] eqn:C; [|discriminate].
    destruct (coll_make_all h1 c rs) as [h2 [qs'|e]] eqn:D; [|discriminate].
    injection E as -> <-.
    edestruct coll_make_inv as (I1 & G1 & _); [exact R| |exact C|]; eauto.
    destruct (G1 c co Ec) as (co1 & Ec1 & K1 & _).
    destruct (IH h1 co1 I1 Ec1 ltac:(congruence) qs' D) as [F G2].
    split; [|eapply grown_trans; eauto]. constructor; auto.
    destruct (coll_make_find h c co r h1 q R Ec KC C) as [X _].
    eapply coll_find_grown; eauto.
Qed.

Lemma step_rejected h o h' e :
  step h o = (h', Err e) ->
  (forall c r, o = OMake c r \/ o = OPkgMake c r -> e = KeyError) ->
  h' = h.
Proof.
  intros E K. destruct o as [k n|p i|c i|p n|c r|p r|c i]; cbn [step] in E.
  - discriminate.
  - destruct (is_kind KPkg h p); [|congruence]. unfold pkg_append in E.
    destruct (get h p) as [po|], (get h i) as [io|]; try congruence.
    destruct (o_kind io); try congruence;
      destruct (assoc (o_name io) (o_map po)); congruence.
  - destruct (is_kind KColl h c); [|congruence]. unfold coll_append in E.
    destruct (get h c) as [po|], (get h i) as [io|]; try congruence.
    destruct (o_kind io); try congruence;
      destruct (assoc (o_name io) (o_map po)); congruence.
  - destruct (is_kind KPkg h p || is_kind KColl h p); [|congruence].
    unfold create_package in E. destruct (get h p) as [po|]; [|congruence].
    destruct (assoc n (o_map po)); [congruence|]. unfold alloc in E. discriminate.
  - destruct (is_kind KColl h c); [|congruence]. specialize (K c r (or_introl eq_refl)). subst e.
    destruct (coll_make h c r) as [h1 [q|e]] eqn:C; [discriminate|].
    injection E as -> ->. eapply coll_make_key; eauto.
  - destruct (is_kind KPkg h p); [|congruence]. specialize (K p r (or_intror eq_refl)). subst e.
    destruct (pkg_make (S (String.length r)) h p r) as [h1 [q|e]] eqn:C; [discriminate|].
    injection E as -> ->. eapply pkg_make_key; eauto.
  - unfold add_member in E. destruct (get h c) as [co|], (get h i) as [io|]; try congruence.
    destruct (o_kind co); try congruence; destruct (o_kind io); congruence.
Qed.

(** Does the reference calculation end?  Exactly when the parent links do. *)
Lemma calc_ref_ends h i o :
  Inv h -> get h i = Some o -> o_kind o <> KColl ->
  ((exists r, chain h i r) <-> exists x, calc_ref h i = Ok x).
Proof.
  intros H E K. split.
  - intros (r & C). apply chain_up_list in C as (l & U).
    rewrite (calc_ref_up h i l r H U); eauto. unfold kd. rewrite E. congruence.
  - intros (x & C). unfold calc_ref in C. rewrite E in C.
    destruct (o_parent o) as [p|] eqn:P.
    + destruct (ref_parts (S (List.length h)) h p) as [t|e] eqn:R; [|discriminate].
      destruct (ref_parts_some _ _ _ _ H R) as (l & r & U & _). exists r.
      econstructor; [|eapply up_chain; exact U]. exists o. auto.
    + exists i. constructor. exists o. auto.
Qed.

Lemma leads_blocked h p ns : leads_into_element h p ns <-> blocked h p ns.
Proof.
  split; intros (a & b & x & E & P & K); exists a, b, x; repeat split; auto.
  - intros X. apply K. now apply has_kind_kd.
  - intros X. apply K. now apply has_kind_kd.
Qed.

(** ** Members of elements *)

Lemma item_find_member h p ns q m f :
  Inv h -> path h p ns q -> (forall n, In n ns -> valid_name n) -> valid_name m ->
  kd h p = Some KPkg -> String.length (join "/" (ns ++ [m])) < f ->
  exists f', 0 < f' /\ item_find f h p (join "/" (ns ++ [m])) = item_find f' h q m.
Proof.
  intros H PA V Vm. revert f. induction PA as [p n q L|p n p' ns q L PA IH]; intros f K Lf.
  - destruct f as [|f]; [lia|].
    cbn [item_find app]. unfold kd in K.
    destruct (get h p) as [po|] eqn:Ep; [|discriminate]. injection K as K. rewrite K.
    apply (assoc_listed h p po n _ H Ep (or_introl K)) in L.
    destruct (V n (or_introl eq_refl)) as [N M]. destruct Vm as [Nm Mm].
    rewrite join_path_cons in * by discriminate. cbn [join] in *.
    rewrite starts_slash_strip by (rewrite starts_slash_app by auto; now apply starts_slash_mem).
    unfold partition_slash. rewrite partition_sep by auto. rewrite L.
    apply String.eqb_neq in Nm. rewrite Nm.
    exists f. split; [|reflexivity].
    cbn [app] in Lf. rewrite join_path_cons in Lf by discriminate. rewrite str_length_app in Lf. cbn in Lf. lia.
  - destruct f as [|f]; [lia|].
    cbn [item_find app]. unfold kd in K.
    destruct (get h p) as [po|] eqn:Ep; [|discriminate]. injection K as K. rewrite K.
    apply (assoc_listed h p po n _ H Ep (or_introl K)) in L.
    destruct (V n (or_introl eq_refl)) as [N M].
    assert (NE : ns ++ [m] <> []) by (destruct ns; discriminate).
    assert (Vn : forall x, In x ns -> valid_name x) by (intros; apply V; now right).
    assert (Vn' : forall x, In x (ns ++ [m]) -> valid_name x).
    { intros x I. apply in_app_iff in I as [I|[<-|[]]]; auto. }
    destruct (join_valid_nonempty (ns ++ [m]) Vn' NE) as [JN JS].
    cbn [app] in Lf. rewrite join_path_cons in * by auto.
    rewrite starts_slash_strip by (rewrite starts_slash_app by auto; now apply starts_slash_mem).
    unfold partition_slash. rewrite partition_sep by auto. rewrite L.
    apply String.eqb_neq in JN. rewrite JN.
    apply IH; auto.
    + assert (B : exists qo, get h p' = Some qo /\ is_box (o_kind qo)).
      { destruct PA as [p2 n' i' (qo & Eq & B & _)|p2 n' q' ns' i' (qo & Eq & B & _) _]; exists qo; auto. }
      destruct B as (qo & Eq & B). unfold kd. rewrite Eq. f_equal. destruct B as [B|B]; auto. exfalso.
      apply assoc_in in L. destruct (H p po Ep) as [G1 G2 G3 G4 _ _ _].
      destruct (G2 (or_introl K)) as [PM _]. eapply Permutation_in in L; [|exact PM].
      apply in_map_iff in L as (j & J & I). injection J as _ ->.
      unfold kids in I. apply in_app_iff in I as [I|I].
      * specialize (G3 p' I). unfold kd in G3. rewrite Eq in G3. congruence.
      * specialize (G4 p' I). rewrite K in G4. unfold kd in G4. rewrite Eq in G4.
        destruct G4 as [G4|G4]; congruence.
    + rewrite str_length_app in Lf. cbn in Lf. lia.
Qed.

Lemma first_named_in h n l i :
  In i l -> nm h i = n -> (forall j, In j l -> j < List.length h) ->
  (forall j, In j l -> nm h j = n -> j = i) -> first_named h n l = Some i.
Proof.
  intros I N L U. induction l as [|a l IH]; [destruct I|]. cbn [first_named].
  assert (La : a < List.length h) by (apply L; now left).
  destruct (get h a) as [ao|] eqn:Ea; [|apply nth_error_None in Ea; lia].
  destruct (String.eqb_spec (o_name ao) n) as [E|E].
  - f_equal. apply U; [now left|]. rewrite <- E. now apply nm_spec.
  - apply IH.
    + destruct I as [->|I]; auto. exfalso. apply E. rewrite <- N. symmetry. now apply nm_spec.
    + intros; apply L; now right.
    + intros; apply U; auto; now right.
Qed.

(** Looking up the reference of a member of an element. *)
Lemma member_find h i o e eo s :
  Inv h -> valid_names h -> get h i = Some o -> o_kind o = KMem ->
  o_parent o = Some e -> get h e = Some eo ->
  calc_ref h i = Ok (Some s) ->
  exists c, chain h i c /\ kd h c = Some KColl /\
    (o_kind eo = KElem -> coll_find h c s = Err AttributeError) /\
    (o_kind eo = KComp -> coll_find h c s = Ok (first_named h (o_name o) (o_elements eo))).
Proof.
  intros H V E K P Ee C. destruct (calc_ref_some h i s H C) as (l & c & U & KC & NL).
  exists c. split; [eapply up_chain; eauto|]. split; [exact KC|].
  assert (NC : kd h i <> Some KColl) by (unfold kd; rewrite E; congruence).
  rewrite (calc_ref_up h i l c H U NC), KC in C.
  change (Ok (Some (join "/" ("" :: rev (map (nm h) (i :: removelast l))))) = Ok (Some s)) in C.
  destruct (g_parent h i o (H i o E) e P) as (eo' & Ee' & M). rewrite Ee in Ee'. injection Ee' as <-.
  rewrite K in M. destruct M as [KE IM].
  inversion U as [? o1 E1 P1|? o1 p1 l1 ? E1 P1 U1]; subst; [contradiction|].
  rewrite E in E1. injection E1 as <-. rewrite P in P1. injection P1 as <-.
  assert (NL1 : l1 <> []).
  { intros ->. inversion U1; subst. unfold kd in KC. rewrite Ee in KC. injection KC as KC. destruct KE; congruence. }
  assert (Item : is_item (o_kind eo)) by (destruct KE as [->| ->]; unfold is_item; auto).
  pose proof (up_path h e l1 c eo H U1 Ee Item KC) as PA.
  destruct l1 as [|p2 l1]; [contradiction|].
  change (removelast (e :: p2 :: l1)) with (e :: removelast (p2 :: l1)) in C.
  set (ns := rev (map (nm h) (e :: removelast (p2 :: l1)))) in *.
  change (rev (map (nm h) (i :: e :: removelast (p2 :: l1)))) with (ns ++ [nm h i]) in C.
  rewrite (nm_spec h i o E) in C.
  assert (Vi : valid_name (o_name o)) by (apply (V i o E); congruence).
  assert (Vns : forall n, In n ns -> valid_name n).
  { intros n I. unfold ns in I. apply in_rev in I. apply in_map_iff in I as (j & <- & I).
    assert (J : exists jo, get h j = Some jo /\ o_kind jo <> KColl).
    { destruct I as [<-|I].
      - exists eo. split; auto. destruct KE; congruence.
      - clear -H U1 I. remember (p2 :: l1) as l eqn:El. clear El.
        induction U1 as [i o E P|i o p l r E P U IH]; [destruct I|].
        destruct l as [|p3 l]; [destruct I|]. cbn [removelast] in I.
        destruct I as [<-|I].
        + inversion U as [|i' o2 p' l' r' E2 P2 U2]; subst. exists o2. split; auto.
          intros X. pose proof (g_coll h p o2 (H p o2 E2) X). congruence.
        + apply IH. exact I. }
    destruct J as (jo & Ej & Kj). rewrite (nm_spec h j jo Ej). eapply V; eauto. }
  assert (Down : exists f', 0 < f' /\ coll_find h c s = item_find f' h e (o_name o)).
  { injection C as <-.
    assert (NE : ns <> []) by (destruct PA; discriminate).
    assert (Vn' : forall x, In x (ns ++ [o_name o]) -> valid_name x).
    { intros x I. apply in_app_iff in I as [I|[<-|[]]]; auto. }
    assert (NE' : ns ++ [o_name o] <> []) by (destruct ns; discriminate).
    change (match ns ++ [o_name o] with [] => "" | _ :: _ => String "/" (join "/" (ns ++ [o_name o])) end)
      with (join "/" ("" :: ns ++ [o_name o])).
    rewrite join_path_cons by auto. unfold coll_find.
    unfold kd in KC. destruct (get h c) as [co|] eqn:Ec; [|discriminate]. injection KC as KC.
    cbn [String.append strip_slash]. rewrite Ascii.eqb_refl.
    clearbody ns. inversion PA as [p n j L|p n q ns' j L PA']; subst.
    - apply (assoc_listed h c co n e H Ec (or_intror KC)) in L.
      destruct (Vns n (or_introl eq_refl)) as [N M].
      cbn [app]. rewrite join_path_cons by discriminate. cbn [join].
      unfold partition_slash. rewrite partition_sep by auto. rewrite L.
      destruct Vi as [Ni Mi]. apply String.eqb_neq in Ni. rewrite Ni.
      eexists. split; [|reflexivity]. lia.
    - apply (assoc_listed h c co n q H Ec (or_intror KC)) in L.
      destruct (Vns n (or_introl eq_refl)) as [N M].
      cbn [app].
      assert (Vq : forall m, In m ns' -> valid_name m) by (intros; apply Vns; now right).
      assert (Vq' : forall m, In m (ns' ++ [o_name o]) -> valid_name m) by (intros; apply Vn'; now right).
      assert (NE2 : ns' ++ [o_name o] <> []) by (destruct ns'; discriminate).
      destruct (join_valid_nonempty _ Vq' NE2) as [JN' JS'].
      rewrite join_path_cons by auto. unfold partition_slash. rewrite partition_sep by auto. rewrite L.
      apply String.eqb_neq in JN'. rewrite JN'.
      destruct (coll_entry_pkg h c co n q H Ec KC L) as (qo & Eq & Kq).
      apply item_find_member; auto. unfold kd. now rewrite Eq, Kq. }
  destruct Down as (f' & Lf & ->). destruct f' as [|f']; [lia|]. cbn [item_find]. rewrite Ee.
  split; intros Ke; rewrite Ke; [reflexivity|].
  destruct Vi as [_ Mi]. unfold partition_slash. rewrite partition_no by auto. reflexivity.
Qed.
