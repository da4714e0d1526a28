(** Proofs about the enumeration tables. *)
From Verif Require Import Base PBase MEnum.

(** Properties of one table pair, decided entry by entry. *)
Definition vers {A} (e : entry A) : option (list N) := match e with Plain _ => None | Versioned _ l => Some l end.
Definition eval_ {A} (e : entry A) : A := match e with Plain a => a | Versioned a _ => a end.
Definition okv (o : option (list N)) (v : N) : bool := match o with None => true | Some l => existsb (N.eqb v) l end.
Lemma entry_value_eq {A} (e : entry A) v : entry_value e v = if okv (vers e) v then Ok (eval_ e) else Err VersionError.
Proof. destruct e; cbn; reflexivity. Qed.

(** Every member has an entry in both tables, with the same versions. *)
Definition good {A} (m : enum_map A) : Prop :=
  exists from to, em_from m = Some from /\ em_to m = Some to /\
    forall a, exists t e, nth_error to (em_value m a) = Some e /\ eval_ e = t /\
      exists e', assoc t from = Some e' /\ eval_ e' = a /\ vers e' = vers e.
(** Every text of the reading table is the text of its member. *)
Definition exact_ {A} (m : enum_map A) : Prop :=
  exists from to, em_from m = Some from /\ em_to m = Some to /\
    forall s e, In (s, e) from -> exists e', nth_error to (em_value m (eval_ e)) = Some e' /\ eval_ e' = s /\ vers e' = vers e.

Lemma assoc_in {A} k (l : list (string * A)) x : assoc k l = Some x -> In (k, x) l.
Proof.
  induction l as [|[k' y] l IH]; cbn; [discriminate|]. destruct (String.eqb_spec k k') as [->|]; [|auto]. intros H. injection H as ->. now left.
Qed.

Lemma good_write {A} (m : enum_map A) a : good m -> exists t o, (forall v, enum_to_xml m a v = if okv o v then Ok t else Err VersionError) /\
   forall v, xml_to_enum m t v = if okv o v then Ok a else Err VersionError.
Proof.
  intros (from & to & F & T & G). destruct (G a) as (t & e & N & E & e' & As & E' & V). exists t, (vers e).
  unfold enum_to_xml, xml_to_enum. rewrite F, T, N. split; intros v; [|rewrite As]; rewrite entry_value_eq; [now rewrite E|]. now rewrite V, E'.
Qed.

Lemma exact_read {A} (m : enum_map A) s v a : exact_ m -> xml_to_enum m s v = Ok a -> enum_to_xml m a v = Ok s.
Proof.
  intros (from & to & F & T & G). unfold enum_to_xml, xml_to_enum. rewrite F, T. destruct (assoc s from) as [e|] eqn:As; [|discriminate].
  destruct (G s e (assoc_in _ _ _ As)) as (e' & N & E & V). rewrite entry_value_eq. destruct (okv (vers e) v) eqn:O; [|discriminate].
  intros X. injection X as <-. rewrite N, entry_value_eq, V, O, E. reflexivity.
Qed.

Definition mapped {A} (m : enum_map A) : Prop := em_from m <> None /\ em_to m <> None.
Definition the (P : forall A, enum_map A -> Prop) (e : some_enum) : Prop := match e with SomeEnum A m => P A m end.

(** The same, in a form that computes. *)
Definition goodp {A} (m : enum_map A) (a : A) : Prop :=
  match em_from m, em_to m with
  | Some from, Some to =>
      match nth_error to (em_value m a) with
      | Some e => match assoc (eval_ e) from with Some e' => (eval_ e', vers e') = (a, vers e) | None => False end
      | None => False
      end
  | _, _ => False
  end.
Definition vers_eqb (a b : option (list N)) : bool :=
  match a, b with
  | None, None => true
  | Some l, Some l' => if list_eq_dec N.eq_dec l l' then true else false
  | _, _ => false
  end.
Definition exactb {A} (m : enum_map A) : bool :=
  match em_from m, em_to m with
  | Some from, Some to =>
      forallb (fun p => match nth_error to (em_value m (eval_ (snd p))) with
                        | Some e' => String.eqb (eval_ e') (fst p) && vers_eqb (vers e') (vers (snd p))
                        | None => false end) from
  | _, _ => false
  end.
Lemma goodp_good {A} (m : enum_map A) : mapped m -> (forall a, goodp m a) -> good m.
Proof.
  intros [M1 M2] G. unfold goodp in G. unfold good. destruct (em_from m) as [from|]; [|congruence]. destruct (em_to m) as [to|]; [|congruence].
  do 2 eexists. split; [reflexivity|]. split; [reflexivity|]. intros a. specialize (G a).
  destruct (nth_error to (em_value m a)) as [e|]; [|destruct G]. exists (eval_ e), e. split; [reflexivity|]. split; [reflexivity|].
  destruct (assoc (eval_ e) from) as [e'|]; [|destruct G]. exists e'. split; [reflexivity|]. injection G as G1 G2. auto.
Qed.
Lemma exactb_exact {A} (m : enum_map A) : exactb m = true -> exact_ m.
Proof.
  unfold exactb, exact_. destruct (em_from m) as [from|]; [|discriminate]. destruct (em_to m) as [to|]; [|discriminate]. intros H.
  do 2 eexists. split; [reflexivity|]. split; [reflexivity|]. intros s e I. rewrite forallb_forall in H. specialize (H _ I). cbn [fst snd] in H.
  destruct (nth_error to _) as [e'|]; [|discriminate]. exists e'. split; [reflexivity|]. apply andb_true_iff in H as [H1 H2].
  apply String.eqb_eq in H1. split; [exact H1|]. unfold vers_eqb in H2. destruct (vers e'), (vers e); try discriminate; auto.
  destruct (list_eq_dec N.eq_dec l l0); [congruence|discriminate].
Qed.

Lemma all_good : Forall (the (fun A m => mapped m -> good m)) all_enums.
Proof.
  unfold all_enums. repeat (apply Forall_cons; [intros M; first [exfalso; apply (proj1 M); reflexivity | exfalso; apply (proj2 M); reflexivity
    | apply (goodp_good _ M); let a := fresh in intros a; destruct a; vm_compute; reflexivity]|]). apply Forall_nil.
Qed.
Lemma all_exact : Forall (the (fun A m => mapped m -> em_name m <> "CalibrationAxisCategory" -> exact_ m)) all_enums.
Proof.
  unfold all_enums. repeat (apply Forall_cons; [intros M NE; first [exfalso; apply (proj1 M); reflexivity | exfalso; apply (proj2 M); reflexivity
    | exfalso; apply NE; reflexivity | apply exactb_exact; vm_compute; reflexivity]|]). apply Forall_nil.
Qed.
