(** Proofs about references. *)
From Verif Require Import Base PBase MEnum PEnum MRefTab MXml SXml MRef SEnum.

Lemma dest_value_inj a b : IdentifiableSubTypes_value a = IdentifiableSubTypes_value b -> a = b.
Proof.
  pose (f := fun d => IdentifiableSubTypes_value d).
  assert (H : exists g, forall d, g (f d) = Some d).
  { assert (M : mapped em_IdentifiableSubTypes) by (split; discriminate).
    assert (G : good em_IdentifiableSubTypes).
    { apply (goodp_good _ M). intros d. destruct d; vm_compute; reflexivity. }
    destruct G as (from & to & F & T & G).
    exists (fun n => match nth_error to n with Some e => match assoc (eval_ e) from with Some e' => Some (eval_ e') | None => None end | None => None end).
    intros d. destruct (G d) as (t & e & N & E & e' & As & E' & _). unfold f. change (IdentifiableSubTypes_value d) with (em_value em_IdentifiableSubTypes d).
    rewrite N, E, As, E'. reflexivity. }
  destruct H as [g H]. intros E. assert (X : Some a = Some b) by (rewrite <- (H a), <- (H b); unfold f; now rewrite E). now injection X.
Qed.
Lemma dest_eqb_spec a b : dest_eqb a b = true <-> a = b.
Proof. unfold dest_eqb. rewrite Nat.eqb_eq. split; [apply dest_value_inj|now intros ->]. Qed.
Lemma accepts_spec c d : accepts c d = true <-> In d (rc_accepted c).
Proof.
  unfold accepts. rewrite existsb_exists. split.
  - intros (x & I & E). apply dest_eqb_spec in E. now subst.
  - intros I. exists d. split; auto. now apply dest_eqb_spec.
Qed.
Lemma ref_new_some c v d : ref_new c v (Some d) = if accepts c d then Ok (mkRef v d) else Err ValueError.
Proof. reflexivity. Qed.

(** Per-class facts, by computation. *)
Definition class_ok (c : ref_class) : bool :=
  negb (match rc_accepted c with [] => true | _ => false end) &&
  match rc_default c with
  | Some d => accepts c d && Nat.eqb (List.length (rc_accepted c)) 1
  | None => Nat.leb 2 (List.length (rc_accepted c))
  end &&
  match rc_reader c, rc_default c with
  | DestText t, Some d => match enum_to_xml em_IdentifiableSubTypes d 51 with Ok t' => String.eqb t t' | Err _ => false end
  | DestText _, None => false
  | _, _ => true
  end.
Lemma classes_ok : forallb class_ok all_ref_classes = true. Proof. vm_compute. reflexivity. Qed.
Lemma class_in c : In c all_ref_classes -> class_ok c = true.
Proof. intros I. pose proof classes_ok as H. rewrite forallb_forall in H. auto. Qed.
Definition name_once (l : list ref_class) (c : ref_class) : bool := Nat.eqb (List.length (filter (fun c' => String.eqb (rc_name c) (rc_name c')) l)) 1.
Lemma name_once_inj l c c' : forallb (name_once l) l = true -> In c l -> In c' l -> rc_name c = rc_name c' -> c = c'.
Proof.
  intros H I I' E. rewrite forallb_forall in H. specialize (H c I). unfold name_once in H. apply Nat.eqb_eq in H.
  assert (F : In c (filter (fun x => String.eqb (rc_name c) (rc_name x)) l)) by (apply filter_In; split; auto; apply String.eqb_refl).
  assert (F' : In c' (filter (fun x => String.eqb (rc_name c) (rc_name x)) l)) by (apply filter_In; split; auto; rewrite E; apply String.eqb_refl).
  destruct (filter _ _) as [|x [|y l0]]; try discriminate. destruct F as [<-|[]], F' as [<-|[]]. reflexivity.
Qed.
Lemma names_once : forallb (name_once all_ref_classes) all_ref_classes = true. Proof. vm_compute. reflexivity. Qed.
Lemma class_name_inj c c' : In c all_ref_classes -> In c' all_ref_classes -> rc_name c = rc_name c' -> c = c'.
Proof. apply name_once_inj, names_once. Qed.

Lemma dest_text_any : forall d, exists t, forall v, enum_to_xml em_IdentifiableSubTypes d v = Ok t /\ xml_to_enum em_IdentifiableSubTypes t v = Ok d.
Proof.
  intros d. assert (M : mapped em_IdentifiableSubTypes) by (split; discriminate).
  assert (G : good em_IdentifiableSubTypes).
  { apply (goodp_good _ M). intros x. destruct x; vm_compute; reflexivity. }
  destruct G as (from & to & F & T & G). destruct (G d) as (t & e & N & E & e' & As & E' & V).
  assert (P : forall s e, assoc s from = Some e -> vers e = None).
  { intros s e0 A. apply assoc_in in A. injection F as <-. clear - A.
    assert (B : forallb (fun p => vers_eqb (vers (snd p)) None) (match em_from em_IdentifiableSubTypes with Some l => l | None => [] end) = true) by (vm_compute; reflexivity).
    rewrite forallb_forall in B. specialize (B _ A). cbn [snd] in B. destruct (vers e0); [discriminate|reflexivity]. }
  exists t. intros v. unfold enum_to_xml, xml_to_enum. rewrite F, T, N, As, !entry_value_eq.
  rewrite <- V, (P _ _ As). cbn [okv]. now rewrite E, E'.
Qed.

Lemma default_single c : In c all_ref_classes -> forall d, rc_default c = Some d -> rc_accepted c = [d].
Proof.
  intros I d E. pose proof (class_in c I) as C. unfold class_ok in C. rewrite E in C. rewrite !andb_true_iff in C. destruct C as [[_ [C1 C2]] _].
  apply accepts_spec in C1. apply Nat.eqb_eq in C2. destruct (rc_accepted c) as [|x [|y l]]; try discriminate. destruct C1 as [->|[]]. reflexivity.
Qed.

Lemma ref_round_trip c : In c all_ref_classes -> rc_reader c <> NoReader ->
  forall version tag r step d, valid_ref c r ->
  exists w, write_ref tag r = Ok [w] /\ read_ref c version (element step d w) = Ok r.
Proof.
  intros I NR version tag r step dp V. destruct (dest_text_any (rf_dest r)) as (t & T). unfold write_ref.
  rewrite (proj1 (T 51%N)). eexists. split; [reflexivity|]. unfold read_ref. cbn [element x_attrs assoc x_text]. rewrite String.eqb_refl.
  pose proof (class_in c I) as C. unfold class_ok in C. rewrite !andb_true_iff in C. destruct C as [[C0 C1] C2].
  destruct r as [v d]. cbn [rf_dest rf_value] in *. unfold valid_ref in V. cbn in V.
  destruct (rc_reader c) as [tx| |]; [| |congruence].
  - destruct (rc_default c) as [d0|] eqn:D; [|discriminate].
    pose proof (default_single c I d0 D) as S. rewrite S in V. destruct V as [->|[]]. rewrite (proj1 (T 51%N)) in C2. apply String.eqb_eq in C2. subst tx.
    rewrite String.eqb_refl. unfold ref_default. rewrite D, ref_new_some. assert (A : accepts c d = true) by (apply accepts_spec; rewrite S; now left). now rewrite A.
  - rewrite (proj2 (T version)). cbn [bind]. rewrite ref_new_some. apply accepts_spec in V. now rewrite V.
Qed.
