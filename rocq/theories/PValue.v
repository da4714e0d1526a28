(** Proofs about make_value. *)
From Verif Require Import Base PBase MNum MRef SXml SCodec MElemA MElemB SElemB MValue SValue.
Ltac splits := repeat match goal with |- _ /\ _ => split end.
Open Scope list_scope.

Fixpoint pydata_ind2 (P : pydata -> Prop) (H0 : forall d, match d with DList _ | DTuple _ => False | _ => True end -> P d)
  (Hl : forall l, (forall a, In a l -> P a) -> P (DList l)) (Ht : forall l, (forall a, In a l -> P a) -> P (DTuple l)) (d : pydata) {struct d} : P d.
Proof.
  destruct d as [n|b|s| |l|l| ]; try (apply H0; exact I).
  - apply Hl. induction l as [|a l IH]; intros b I; [destruct I|]. destruct I as [I|I]; [rewrite <- I; exact (pydata_ind2 P H0 Hl Ht a)|exact (IH b I)].
  - apply Ht. induction l as [|a l IH]; intros b I; [destruct I|]. destruct I as [I|I]; [rewrite <- I; exact (pydata_ind2 P H0 Hl Ht a)|exact (IH b I)].
Defined.
Fixpoint made_ind2 (P : made -> Prop) (H1 : forall l s, P (MText l s)) (H2 : forall l n, P (MNum l n)) (H3 : forall l p, P (MNotAvailable l p))
  (H4 : forall l es, (forall a, In a es -> P a) -> P (MArray l es)) (H5 : forall l es, (forall a, In a es -> P a) -> P (MRecord l es)) (m : made) {struct m} : P m.
Proof.
  destruct m as [l s|l n|l p|l es|l es]; [apply H1|apply H2|apply H3|apply H4|apply H5].
  all: induction es as [|a es IH]; intros b I; [destruct I|]; destruct I as [I|I]; [rewrite <- I; exact (made_ind2 P H1 H2 H3 H4 H5 a)|exact (IH b I)].
Defined.

Lemma markers_apart m : array_marker m -> record_marker m -> False.
Proof. intros [A|A] [R|R]; congruence. Qed.
Lemma marker_bool m a b : (String.eqb (upper m) a || String.eqb (upper m) b = true <-> upper m = a \/ upper m = b).
Proof. rewrite orb_true_iff, !String.eqb_eq. reflexivity. Qed.

(** ** Every tree can be built *)
Lemma make_each_ok l : (forall a, In a l -> proper a -> make_value (notation_of a) = Ok a) ->
  (fix all l := match l with [] => True | a :: r => proper a /\ all r end) l -> make_each make_value (map notation_of l) = Ok l.
Proof.
  induction l as [|a l IH]; intros H G; [reflexivity|]. destruct G as [G K]. cbn [map make_each]. rewrite (H a (or_introl eq_refl) G). cbn [bind].
  rewrite IH; auto. intros b I. apply H. now right.
Qed.
Lemma value_of_notation m : proper m -> make_value (notation_of m) = Ok m.
Proof.
  induction m as [l s|l n|l p|l es IH|l es IH] using made_ind2; cbn [proper notation_of].
  - intros _. destruct l; reflexivity.
  - intros G. destruct l, n; try destruct G; reflexivity.
  - intros [G1 G2]. destruct l as [l|]; [|rewrite (G1 eq_refl); reflexivity].
    destruct p as [[z|f]| | | | | | ]; try reflexivity. cbn. destruct (Z.ltb_spec z 0); [lia|reflexivity].
  - intros G. pose proof (make_each_ok es IH G) as E. destruct l; cbn [labelled make_value make_from_args]; cbn -[make_value make_each]; rewrite E; reflexivity.
  - intros G. pose proof (make_each_ok es IH G) as E. destruct l; cbn [labelled make_value make_from_args]; cbn -[make_value make_each]; rewrite E; reflexivity.
Qed.

(** ** Everything built mirrors its notation *)
Definition mirrored (d : pydata) (m : made) : Prop := proper m /\ same_notation d (notation_of m).
Lemma make_each_mirrors l : (forall a, In a l -> forall m, make_value a = Ok m -> mirrored a m) -> forall ms, make_each make_value l = Ok ms ->
  (fix all l := match l with [] => True | a :: r => proper a /\ all r end) ms /\ Forall2 same_notation l (map notation_of ms).
Proof.
  induction l as [|a l IH]; intros H ms; cbn [make_each].
  - intros E. inversion E. split; constructor.
  - destruct (make_value a) as [m|] eqn:Em; [|discriminate]. destruct (make_each make_value l) as [ms'|] eqn:El; [|discriminate]. cbn. intros E. inversion E. subst ms.
    destruct (H a (or_introl eq_refl) m Em) as [P1 P2]. destruct (IH (fun b I => H b (or_intror I)) ms' eq_refl) as [Q1 Q2]. split; [split; assumption|constructor; assumption].
Qed.
(** The value without its label. *)
Definition unlabelled (m : made) : made :=
  match m with MText _ s => MText None s | MNum _ n => MNum None n | MNotAvailable _ _ => MNotAvailable None DNone | MArray _ l => MArray None l | MRecord _ l => MRecord None l end.
Definition kids (v : pydata) : list pydata := match v with DList l => l | _ => [] end.
Lemma args_mirror v : (forall a, In a (kids v) -> forall m, make_value a = Ok m -> mirrored a m) ->
  forall label p m, make_from_args make_value label v p = Ok m ->
  match m with
  | MNotAvailable l q => v = DNone /\ l = label /\ q = p /\ match p with DNum (NInt z) => (0 <= z)%Z | _ => True end
  | MText l _ | MNum l _ | MArray l _ | MRecord l _ => v <> DNone /\ l = label /\ proper m /\ exists d, notation_of m = labelled label d /\ same_notation v d
  end.
Proof.
  intros H label p m. destruct v as [n|b|s| |l|l| ]; cbn [make_from_args]; try discriminate.
  - intros E. inversion E. subst. cbn. splits; try discriminate; auto. eexists. split; [reflexivity|]. constructor. exact I.
  - intros E. inversion E. subst. cbn. splits; try discriminate; auto. eexists. split; [reflexivity|]. constructor. exact I.
  - intros E. inversion E. subst. cbn. splits; try discriminate; auto. eexists. split; [reflexivity|]. constructor. exact I.
  - unfold new_not_available. destruct p as [[z|f]| | | | | | ]; try (intros E; inversion E; subst; splits; auto; fail).
    destruct (Z.ltb_spec z 0); [discriminate|]. intros E. inversion E. subst. splits; auto.
  - destruct l as [|[ | |k| | | | ] r]; try discriminate. destruct (_ || _) eqn:A.
    + apply marker_bool in A. destruct (make_each make_value r) as [ms|] eqn:El; [|discriminate]. intros E. inversion E. subst m.
      destruct (make_each_mirrors r (fun a I => H a (or_intror I)) ms El) as [P1 P2]. splits; auto; try discriminate.
      eexists. split; [reflexivity|]. now constructor.
    + destruct (String.eqb (upper k) "R" || _) eqn:B; [|discriminate]. apply marker_bool in B. destruct (make_each make_value r) as [ms|] eqn:El; [|discriminate].
      intros E. inversion E. subst m. destruct (make_each_mirrors r (fun a I => H a (or_intror I)) ms El) as [P1 P2]. splits; auto; try discriminate.
      eexists. split; [reflexivity|]. now apply same_record.
Qed.
Lemma args_mirror_None v : (forall a, In a (kids v) -> forall m, make_value a = Ok m -> mirrored a m) ->
  forall m, make_from_args make_value None v DNone = Ok m -> mirrored v m.
Proof.
  intros Hv m E. pose proof (args_mirror v Hv None DNone m E) as X. destruct m as [l s|l n|l q|l es|l es];
    try (destruct X as (_ & _ & X & d & Ed & Es); split; [exact X|]; rewrite Ed; exact Es).
  destruct X as (-> & -> & -> & _). split; [split; auto; exact I|]. constructor. exact I.
Qed.
Lemma value_mirrors_deep d : (forall m, make_value d = Ok m -> mirrored d m) /\ (forall a, In a (kids d) -> forall m, make_value a = Ok m -> mirrored a m).
Proof.
  induction d as [d D|l IH|l IH] using pydata_ind2.
  - split; [|destruct d; try destruct D; intros a []]. destruct d; try destruct D; cbn [make_value]; apply args_mirror_None; intros a [].
  - assert (K : forall a, In a l -> forall m, make_value a = Ok m -> mirrored a m) by (intros a I; exact (proj1 (IH a I))).
    split; [cbn [make_value]; apply args_mirror_None|]; exact K.
  - split; [|intros a []]. intros m. destruct l as [|[ | |n| | | | ] l]; try discriminate. destruct l as [|v [|p [|q l]]]; try discriminate.
    + cbn [make_value]. intros E. pose proof (args_mirror v (proj2 (IH v (or_intror (or_introl eq_refl)))) (Some n) DNone m E) as X.
      destruct m as [l s|l k|l q|l es|l es]; try (destruct X as (_ & -> & X & d & Ed & Es); split; [exact X|]; rewrite Ed; now constructor).
      destruct X as (-> & -> & -> & _). split; [split; [discriminate|exact I]|]. apply same_pair. constructor. exact I.
    + cbn [make_value]. intros E. pose proof (args_mirror v (proj2 (IH v (or_intror (or_introl eq_refl)))) (Some n) p m E) as X.
      destruct m as [l s|l k|l q|l es|l es]; try (destruct X as (X0 & -> & X & d & Ed & Es); split; [exact X|]; rewrite Ed; now apply same_unused).
      destruct X as (-> & -> & -> & X). split; [split; [discriminate|exact X]|]. destruct p; first [apply same_no_pattern|now apply same_pattern].
Qed.
Lemma value_mirrors d m : make_value d = Ok m -> mirrored d m.
Proof. apply value_mirrors_deep. Qed.

(** ** Which data is accepted *)
Definition made_of (d : pydata) : Prop := exists m, make_value d = Ok m.
Lemma make_each_iff l : (forall a, In a l -> (made_of a <-> acceptable a)) ->
  ((exists ms, make_each make_value l = Ok ms) <-> (fix all l := match l with [] => True | a :: r => acceptable a /\ all r end) l).
Proof.
  induction l as [|a l IH]; intros H; cbn [make_each].
  - split; [auto|]. intros _. now exists [].
  - rewrite <- (H a (or_introl eq_refl)). rewrite <- IH; [|intros b I; apply H; now right]. unfold made_of. split.
    + intros [ms E]. destruct (make_value a) as [m|]; [|discriminate]. destruct (make_each make_value l) as [k|]; [|discriminate]. split; eauto.
    + intros [[m E1] [k E2]]. rewrite E1, E2. now exists (m :: k).
Qed.
Lemma args_iff v label p : (forall a, In a (kids v) -> (made_of a <-> acceptable a)) ->
  ((exists m, make_from_args make_value label v p = Ok m) <-> ok_value acceptable v /\ (v = DNone -> match p with DNum (NInt z) => (0 <= z)%Z | _ => True end)).
Proof.
  intros H. destruct v as [n|b|s| |l|l| ]; cbn [make_from_args ok_value].
  1-3: split; [intros _; split; [exact I|discriminate]|intros _; eexists; reflexivity].
  - unfold new_not_available. destruct p as [[z|f]| | | | | | ]; try (split; [auto|intros _; eexists; reflexivity]).
    destruct (Z.ltb_spec z 0); split; try (intros [m E]; discriminate).
    + intros [_ X]. specialize (X eq_refl). cbn in X. lia.
    + auto.
    + intros _. eexists. reflexivity.
  - destruct l as [|[ | |k| | | | ] r]; try (split; [intros [m E]; discriminate|intros [[] _]]).
    pose proof (make_each_iff r (fun a I => H a (or_intror I))) as E. rewrite <- E. destruct (_ || _) eqn:A.
    + apply marker_bool in A. split.
      * intros [m X]. destruct (make_each make_value r) as [ms|]; [|discriminate]. split; [split; [now left|eauto]|discriminate].
      * intros [[_ [ms X]] _]. rewrite X. eexists. reflexivity.
    + assert (A' : ~ array_marker k) by (intros X; apply marker_bool in X; congruence).
      destruct (String.eqb (upper k) "R" || _) eqn:B.
      * apply marker_bool in B. split.
        -- intros [m X]. destruct (make_each make_value r) as [ms|]; [|discriminate]. split; [split; [now right|eauto]|discriminate].
        -- intros [[_ [ms X]] _]. rewrite X. eexists. reflexivity.
      * split; [intros [m X]; discriminate|]. intros [[[X|X] _] _]; [tauto|]. apply marker_bool in X. congruence.
  - split; [intros [m E]; discriminate|intros [[] _]].
  - split; [intros [m E]; discriminate|intros [[] _]].
Qed.
Lemma accepts_deep d : (made_of d <-> acceptable d) /\ (forall a, In a (kids d) -> (made_of a <-> acceptable a)).
Proof.
  assert (T : forall v, (forall a, In a (kids v) -> (made_of a <-> acceptable a)) -> ((exists m, make_from_args make_value None v DNone = Ok m) <-> ok_value acceptable v)).
  { intros v Hv. rewrite args_iff by exact Hv. tauto. }
  induction d as [d D|l IH|l IH] using pydata_ind2.
  - split; [|destruct d; try destruct D; intros a []]. destruct d; try destruct D; unfold made_of; cbn [make_value acceptable]; apply T; intros a [].
  - assert (K : forall a, In a l -> (made_of a <-> acceptable a)) by (intros a I; exact (proj1 (IH a I))).
    split; [|exact K]. unfold made_of. cbn [make_value acceptable]. now apply T.
  - split; [|intros a []]. unfold made_of. assert (F : forall e, (exists m : made, Err e = Ok m) <-> False) by (split; [intros [m E]; discriminate|tauto]).
    destruct l as [|[ | |n| | | | ] l]; try apply F. destruct l as [|v [|p [|q l]]]; try apply F; cbn [make_value].
    + rewrite args_iff by exact (proj2 (IH v (or_intror (or_introl eq_refl)))). cbn [acceptable]. destruct v; (split; [intros [X _]; exact X|intros X; split; [exact X|intros _; exact I]]).
    + rewrite args_iff by exact (proj2 (IH v (or_intror (or_introl eq_refl)))). cbn [acceptable].
      destruct v as [ | | | | | | ]; cbn [ok_value]; try (split; [intros []|split]; auto; discriminate); try (split; [tauto|split; [assumption|discriminate]]).
      destruct p as [[z|f]| | | | | | ]; cbn; split; auto; intros [_ X]; auto.
    + cbn [acceptable]. destruct v; try apply F. destruct p as [[]| | | | | | ]; apply F.
Qed.

(** ** What is built from writable data can be written *)
Definition specified (m : made) : Prop := exists e, spec_of m = Some e /\ good_ValueSpecificationElement e.
Lemma each_specified l : (forall a, In a l -> writable_data a -> forall m, make_value a = Ok m -> specified m) ->
  (fix all l := match l with [] => True | a :: r => writable_data a /\ all r end) l -> forall ms, make_each make_value l = Ok ms ->
  exists es, (fix all l := match l with [] => Some [] | a :: r => match spec_of a, all r with Some b, Some s => Some (b :: s) | _, _ => None end end) ms = Some es
    /\ all_ok good_ValueSpecificationElement es.
Proof.
  induction l as [|a l IH]; intros H W ms; cbn [make_each].
  - intros E. inversion E. now exists [].
  - destruct W as [W1 W2]. destruct (make_value a) as [m|] eqn:Em; [|discriminate]. destruct (make_each make_value l) as [ms'|] eqn:El; [|discriminate]. cbn. intros E. inversion E. subst ms.
    destruct (H a (or_introl eq_refl) W1 m Em) as (e & E1 & G1). destruct (IH (fun b I => H b (or_intror I)) W2 ms' eq_refl) as (es & E2 & G2).
    exists (e :: es). rewrite E1, E2. split; [reflexivity|split; assumption].
Qed.
Lemma args_specified v label p : opt_ok good_text label -> (forall a, In a (kids v) -> writable_data a -> forall m, make_value a = Ok m -> specified m) ->
  writable_value writable_data v -> match v with DNone => match p with DNone => True | DNum (NInt _) => True | _ => False end | _ => True end ->
  forall m, make_from_args make_value label v p = Ok m -> specified m.
Proof.
  intros L H W P m. unfold specified. destruct v as [n|b|s| |l|l| ]; cbn [make_from_args writable_value] in *; try destruct W.
  - intros E. inversion E. subst. eexists. split; [reflexivity|]. split; assumption.
  - intros E. inversion E. subst. eexists. split; [reflexivity|]. split; [|split]; assumption.
  - unfold new_not_available. destruct p as [[z|f]| | | | | | ]; try destruct P.
    + destruct (Z.ltb_spec z 0); [discriminate|]. intros E. inversion E. subst. eexists. split; [reflexivity|]. split; assumption.
    + intros E. inversion E. subst. eexists. split; [reflexivity|]. split; [assumption|exact I].
  - destruct l as [|[ | |k| | | | ] r]; try discriminate.
    pose proof (each_specified r (fun a I => H a (or_intror I)) W) as E0.
    destruct (_ || _) eqn:A; [|destruct (String.eqb (upper k) "R" || _); [|discriminate]].
    + destruct (make_each make_value r) as [ms|]; [|discriminate]. destruct (E0 ms eq_refl) as (es & E1 & G). intros E. inversion E. subst.
      exists (ArrayValueSpecification label es). cbn [spec_of]. rewrite E1. split; [reflexivity|]. split; assumption.
    + destruct (make_each make_value r) as [ms|]; [|discriminate]. destruct (E0 ms eq_refl) as (es & E1 & G). intros E. inversion E. subst.
      exists (RecordValueSpecification label es). cbn [spec_of]. rewrite E1. split; [reflexivity|]. split; assumption.
Qed.
Lemma specified_deep d : (writable_data d -> forall m, make_value d = Ok m -> specified m) /\ (forall a, In a (kids d) -> writable_data a -> forall m, make_value a = Ok m -> specified m).
Proof.
  induction d as [d D|l IH|l IH] using pydata_ind2.
  - split; [|destruct d; try destruct D; intros a []]. destruct d; try destruct D; intros W; cbn [make_value]; apply args_specified; try exact I; try exact W; intros a [].
  - assert (K : forall a, In a l -> writable_data a -> forall m, make_value a = Ok m -> specified m) by (intros a I; exact (proj1 (IH a I))).
    split; [|exact K]. intros W. cbn [make_value]. apply args_specified; try exact I; [exact K|exact W].
  - split; [|intros a []]. destruct l as [|[ | |n| | | | ] l]; try (intros []; fail). destruct l as [|v [|p [|q l]]]; try (intros []; fail).
    + intros W. assert (W' : good_text n /\ writable_value writable_data v) by exact W. destruct W' as [W1 W2]. cbn [make_value].
      apply args_specified; [exact W1|exact (proj2 (IH v (or_intror (or_introl eq_refl))))|exact W2|destruct v; exact I].
    + intros (W1 & W2 & W3). cbn [make_value]. apply args_specified; [exact W1|exact (proj2 (IH v (or_intror (or_introl eq_refl))))|exact W2|exact W3].
Qed.
