(** C19: the value specification builder. *)
From Verif Require Import Base PBase MNum SNum MXml SXml PXml2 PropsArxml MRef MEnum MCodec SCodec PCodec MElemA SElemA MElemB SElemB PElemB MStr SElem PSame PropsElem MValue SValue PValue.
Open Scope list_scope.

(** Any tree of text, number, "not available", array and record values is what make_value builds from
    its notation: the same nesting, order, labels and leaf values. *)
Theorem C19_builds m : proper m -> make_value (notation_of m) = Ok m.
Proof. apply value_of_notation. Qed.
(** Whatever make_value accepts, it builds the tree the data denotes: the notation of the tree built
    differs from the data only in the spelling of the markers and in unused third components. *)
Theorem C19_mirrors d m : make_value d = Ok m -> proper m /\ same_notation d (notation_of m).
Proof. apply value_mirrors. Qed.
(** Exactly the well-formed data is accepted, at any depth. *)
Theorem C19_accepts d : (exists m, make_value d = Ok m) <-> acceptable d.
Proof. apply accepts_deep. Qed.
(** Two different trees never share a notation. *)
Theorem C19_injective m m' : proper m -> proper m' -> notation_of m = notation_of m' -> m = m'.
Proof. intros P P' E. pose proof (C19_builds m P) as X. rewrite E, (C19_builds m' P') in X. now inversion X. Qed.
(** make_value_with_check: an object that is already a value specification is kept, None is kept, a
    reference to a constant becomes a constant reference, and data is built as above. *)
Theorem C19_with_check a :
  match a with
  | ISpec e => make_value_with_check a = Ok (Some (VSpec e))
  | IConstantRef r => make_value_with_check a = Ok (Some (VSpec (ConstantReference None (Some r))))
  | IData DNone => make_value_with_check a = Ok None
  | IData d => (forall v, make_value_with_check a = Ok v -> exists m, v = Some (VMade m) /\ proper m /\ same_notation d (notation_of m)) /\
               ((exists v, make_value_with_check a = Ok v) <-> acceptable d)
  end.
Proof.
  destruct a as [d|e|r]; try reflexivity.
  assert (K : forall r0, r0 = (let* m := make_value d in Ok (Some (VMade m))) ->
     (forall v, r0 = Ok v -> exists m, v = Some (VMade m) /\ proper m /\ same_notation d (notation_of m)) /\ ((exists v, r0 = Ok v) <-> acceptable d)).
  { intros r0 ->. split.
    - intros v E. destruct (make_value d) as [m|] eqn:Em; [|discriminate]. inversion E. subst. exists m. split; [reflexivity|exact (C19_mirrors d m Em)].
    - rewrite <- C19_accepts. split.
      + intros [v E]. destruct (make_value d) as [m|]; [|discriminate]. now exists m.
      + intros [m E]. rewrite E. now eexists. }
  destruct d; try reflexivity; try (apply K; reflexivity).
Qed.
(** What is built from texts and numbers that a file can hold is an object that, once written, reads
    back as the same tree of values. *)
Theorem C19_round_trip v d : acceptable d -> writable_data d ->
  exists m e e', make_value d = Ok m /\ spec_of m = Some e /\ reloads_as (write_value_specification_element v) (read_value_specification_element v) e e' /\ same_value_spec e e'.
Proof.
  intros A W. apply C19_accepts in A as [m E]. destruct (proj1 (specified_deep d) W m E) as (e & Es & G). destruct (C25_value_specification v e G) as (e' & R1 & R2). now exists m, e, e'.
Qed.
(** Non-vacuity: a record of an array and labelled values. *)
Definition ex_data : pydata :=
  DTuple [DStr "Init"; DList [DStr "record"; DTuple [DStr "x"; DNum (NInt (-5))]; DList [DStr "a"; DStr "text"; DNone; DBool true];
                              DTuple [DStr "na"; DNone; DNum (NInt 255)]; DTuple [DStr "y"; DNum (NInt 3); DNum (NInt (-1))]]].
Definition ex_made : made :=
  MRecord (Some "Init") [MNum (Some "x") (DNum (NInt (-5))); MArray None [MText None "text"; MNotAvailable None DNone; MNum None (DBool true)];
                         MNotAvailable (Some "na") (DNum (NInt 255)); MNum (Some "y") (DNum (NInt 3))].
Example ex_builds : make_value ex_data = Ok ex_made.
Proof. reflexivity. Qed.
Example ex_proper : proper ex_made.
Proof. cbn. repeat (split; auto; try discriminate). Qed.
Example ex_acceptable : acceptable ex_data.
Proof. apply C19_accepts. exists ex_made. reflexivity. Qed.
Example ex_rejected : make_value (DList [DStr "A"; DTuple [DStr "l"; DTuple [DStr "k"; DNone]]]) = Err TypeError /\ make_value (DList [DStr "X"; DNone]) = Err ValueError
  /\ make_value (DTuple [DStr "l"; DNone; DNum (NInt (-1))]) = Err ValueError /\ make_value (DList []) = Err IndexError.
Proof. repeat split. Qed.
Definition ex_plain : pydata := DTuple [DStr "Init"; DList [DStr "Record"; DTuple [DStr "x"; DNum (NInt (-5))]; DList [DStr "a"; DStr "text"; DNone]; DTuple [DStr "na"; DNone; DNum (NInt 255)]]].
Example ex_writable : acceptable ex_plain /\ writable_data ex_plain.
Proof.
  split; [apply C19_accepts; eexists; reflexivity|].
  repeat match goal with |- good_text _ => good | |- safe_text _ => good | |- True => exact I | |- _ /\ _ => split | |- _ => progress cbn [ex_plain writable_data writable_value good_number] end.
Qed.
Print Assumptions C19_builds.
Print Assumptions C19_mirrors.
Print Assumptions C19_accepts.
Print Assumptions C19_injective.
Print Assumptions C19_with_check.
Print Assumptions C19_round_trip.
