(** Proofs about looking up objects by reference. *)
From Verif Require Import Base PBase MHeap SHeap MNum MRef MCodec MElem1 MElemB MElemC MElem2 MElem4 MElemE MElemF MArxml MFind SFind.
Open Scope list_scope.

Lemma first_named_in {A} (g : A -> string) n l a : first_named g n l = Some a -> In a l /\ g a = n.
Proof.
  induction l as [|b l IH]; cbn; [discriminate|]. destruct (String.eqb_spec (g b) n).
  - intros E. inversion E. subst. auto.
  - intros E. apply IH in E as []. auto.
Qed.
Lemma first_named_none {A} (g : A -> string) n l : first_named g n l = None <-> ~ In n (map g l).
Proof.
  induction l as [|b l IH]; cbn; [tauto|]. destruct (String.eqb_spec (g b) n).
  - split; [discriminate|]. intros H. exfalso. apply H. auto.
  - rewrite IH. intuition.
Qed.
Lemma first_named_found {A} (g : A -> string) l a : NoDup (map g l) -> In a l -> first_named g (g a) l = Some a.
Proof.
  induction l as [|b l IH]; cbn; intros N I; [tauto|]. inversion N as [|? ? N1 N2]. subst. destruct I as [->|I].
  - now rewrite String.eqb_refl.
  - destruct (String.eqb_spec (g b) (g a)) as [E|_]; [|auto]. exfalso. apply N1. rewrite E. now apply in_map.
Qed.

Lemma partition_valid n : mem_char slash n = false -> partition_slash n = (n, "").
Proof.
  unfold partition_slash. induction n as [|c n IH]; cbn; [reflexivity|]. intros H. apply orb_false_iff in H as [-> H]. now rewrite (IH H).
Qed.
Lemma partition_sep n r : mem_char slash n = false -> partition_slash (n ++ "/" ++ r)%string = (n, r).
Proof.
  unfold partition_slash. induction n as [|c n IH]; cbn; [reflexivity|]. intros H. apply orb_false_iff in H as [-> H]. cbn in IH. now rewrite (IH H).
Qed.
Lemma strip_valid n : mem_char slash n = false -> forall r, n <> "" -> strip_slash (n ++ r)%string = (n ++ r)%string.
Proof. destruct n as [|c n]; cbn; [congruence|]. intros H r _. apply orb_false_iff in H as [-> _]. reflexivity. Qed.
Lemma partition_fst s : forall a b, partition_slash s = (a, b) -> mem_char slash a = false.
Proof.
  unfold partition_slash. induction s as [|c s IH]; cbn; intros a b E; [inversion E; reflexivity|]. destruct (Ascii.eqb c slash) eqn:Ec; [inversion E; reflexivity|].
  destruct (partition_at slash s) as [x y]. inversion E. subst. cbn. rewrite Ec. eapply IH. reflexivity.
Qed.
Lemma append_nil_r (s : string) : (s ++ "")%string = s.
Proof. induction s; cbn; congruence. Qed.
Lemma append_assoc (a b c : string) : ((a ++ b) ++ c)%string = (a ++ b ++ c)%string.
Proof. induction a; cbn; congruence. Qed.

Lemma join_cons n ns : ns <> [] -> join "/" (n :: ns) = (n ++ "/" ++ join "/" ns)%string.
Proof. destruct ns; [congruence|reflexivity]. Qed.
Lemma join_nonempty n ns : n <> "" -> join "/" (n :: ns) <> "".
Proof. destruct n; [congruence|]. destruct ns; discriminate. Qed.
Lemma below_path ns n : below (path_string ns) n = path_string (ns ++ [n]) \/ ns = [].
Proof.
  destruct ns as [|a ns]; [now right|left]. unfold below, path_string. rewrite append_assoc. f_equal.
  revert a. induction ns as [|b ns IH]; intros a; [reflexivity|]. change ((a :: b :: ns) ++ [n]) with (a :: ((b :: ns) ++ [n])).
  rewrite !join_cons by discriminate. rewrite !append_assoc, IH. reflexivity.
Qed.
(** Extending a path by names. *)
Fixpoint deeper (path : string) (ns : list string) : string := match ns with [] => path | n :: r => deeper (below path n) r end.
Lemma deeper_string ns : deeper "" ns = match ns with [] => "" | _ => path_string ns end.
Proof.
  enough (E : forall l a, deeper (path_string (a :: l)) ns = path_string (a :: l ++ ns)).
  { destruct ns as [|n ns]; [reflexivity|]. cbn [deeper]. change (below "" n) with (path_string [n]). clear E.
    enough (E : forall l a, deeper (path_string (a :: l)) ns = path_string (a :: l ++ ns)) by exact (E [] n).
    induction ns as [|m ns IH]; intros l a; cbn [deeper]; [now rewrite app_nil_r|].
    destruct (below_path (a :: l) m) as [->|]; [|discriminate]. cbn [app]. rewrite IH. now rewrite <- app_assoc. }
  induction ns as [|m ns IH]; intros l a; cbn [deeper]; [now rewrite app_nil_r|].
  destruct (below_path (a :: l) m) as [->|]; [|discriminate]. cbn [app]. rewrite IH. now rewrite <- app_assoc.
Qed.

(** ** Finding what stands at a path *)
Lemma first_found f l : NoDup (map found_name l) -> In f l -> first_named found_name (found_name f) l = Some f.
Proof. apply first_named_found. Qed.
Lemma first_named_map {A} (g : A -> string) (k : A -> found) n l : (forall a, found_name (k a) = g a) ->
  first_named found_name n (map k l) = option_map k (first_named g n l).
Proof. intros H. induction l as [|a l IH]; cbn; [reflexivity|]. rewrite H. destruct (String.eqb (g a) n); auto. Qed.
Lemma first_named_app {A} (g : A -> string) n l l' :
  first_named g n (l ++ l') = match first_named g n l with Some a => Some a | None => first_named g n l' end.
Proof. induction l as [|a l IH]; cbn; [reflexivity|]. destruct (String.eqb (g a) n); auto. Qed.
(** The find methods search the members in order. *)
Lemma element_find_first e n : mem_char slash n = false ->
  element_find e n = match members e with
                     | [] => element_find e n
                     | l => Ok (first_named found_name n l)
                     end.
Proof.
  intros V. destruct e; cbn [members]; try reflexivity; cbn [element_find].
  all: match goal with
       | |- context [map FTypeElement ?l] => rewrite V, <- (first_named_map type_element_name FTypeElement n l (fun _ => eq_refl)); destruct (map FTypeElement l); reflexivity
       | |- context [map FMode ?l ++ map FTransition ?l'] =>
           assert (E : mode_group_find e n = first_named found_name n (map FMode l ++ map FTransition l'));
           [ rewrite first_named_app, (first_named_map mode_name FMode n l (fun _ => eq_refl)), (first_named_map transition_name FTransition n l' (fun _ => eq_refl));
             unfold mode_group_find; destruct (first_named mode_name n _); reflexivity
           | rewrite E; destruct (map FMode l ++ map FTransition l'); reflexivity ]
       | |- context [map FComponent ?a ++ map FConnector ?b ++ map FPort ?d] =>
           assert (E : composition_find e n = first_named found_name n (map FComponent a ++ map FConnector b ++ map FPort d));
           [ rewrite !first_named_app, (first_named_map component_name FComponent n a (fun _ => eq_refl)), (first_named_map connector_name FConnector n b (fun _ => eq_refl)),
               (first_named_map port_name FPort n d (fun _ => eq_refl));
             unfold composition_find, ports_find; rewrite (partition_valid n V); cbn [fst];
             destruct (first_named component_name n a); [reflexivity|]; destruct (first_named connector_name n b); reflexivity
           | rewrite E; destruct (map FComponent a ++ map FConnector b ++ map FPort d); reflexivity ]
       | |- context [map FPort ?l] =>
           unfold ports_find; rewrite (partition_valid n V); cbn [fst]; rewrite <- (first_named_map port_name FPort n l (fun _ => eq_refl)); destruct (map FPort l); reflexivity
       end.
Qed.
Lemma element_find_member e f : element_ok e -> In f (members e) -> element_find e (found_name f) = Ok (Some f).
Proof.
  intros [V N] I. assert (Vf : valid_name (found_name f)) by (rewrite Forall_forall in V; apply V, in_map, I).
  rewrite element_find_first by apply Vf. destruct (members e) as [|x l] eqn:E; [destruct I|]. rewrite <- E in *. now rewrite first_found.
Qed.

(** The inner loop of package_find. *)
Lemma go_first path n rest ps :
  (fix go ps := match ps with
                | [] => Ok None
                | q :: r => if String.eqb (package_name q) n then
                              if String.eqb rest "" then Ok (Some (below path n, FPackage q)) else package_find (below path n) q rest
                            else go r
                end) ps
  = match first_named package_name n ps with
    | None => Ok None
    | Some q => if String.eqb rest "" then Ok (Some (below path n, FPackage q)) else package_find (below path n) q rest
    end.
Proof. induction ps as [|q ps IH]; cbn; [reflexivity|]. destruct (String.eqb (package_name q) n); auto. Qed.
Lemma package_find_eq path i es ps ref :
  package_find path (mkPackage i es ps) ref =
  let (n, rest) := partition_slash (strip_slash ref) in
  match first_named element_name n es with
  | Some e => if String.eqb rest "" then Ok (Some (below path n, FElement e))
              else let* f := element_find e rest in Ok (option_map (fun f => (below (below path n) (found_name f), f)) f)
  | None => match first_named package_name n ps with
            | None => Ok None
            | Some q => if String.eqb rest "" then Ok (Some (below path n, FPackage q)) else package_find (below path n) q rest
            end
  end.
Proof. cbn [package_find]. destruct (partition_slash (strip_slash ref)) as [n rest]. rewrite go_first. reflexivity. Qed.

Lemma split_first n ns : valid_name n -> partition_slash (strip_slash (join "/" (n :: ns))) = (n, join "/" ns).
Proof.
  intros [V1 V2]. destruct ns as [|m ns].
  - cbn [join]. rewrite <- (append_nil_r n) at 1. rewrite strip_valid, append_nil_r by assumption. now apply partition_valid.
  - rewrite join_cons by discriminate. rewrite strip_valid by assumption. now apply partition_sep.
Qed.
Lemma NoDup_app_l {A} (a b : list A) : NoDup (a ++ b) -> NoDup a.
Proof. induction a as [|x a IH]; cbn; intros N; constructor; inversion N; subst; auto. intros I. apply H1. apply in_or_app. auto. Qed.
Lemma NoDup_app_r {A} (a b : list A) : NoDup (a ++ b) -> NoDup b.
Proof. induction a as [|x a IH]; cbn; intros N; auto. inversion N; subst; auto. Qed.
Lemma NoDup_app_apart {A} (a b : list A) x : NoDup (a ++ b) -> In x a -> In x b -> False.
Proof.
  induction a as [|y a IH]; cbn; intros N I J; [tauto|]. inversion N as [|? ? N1 N2]. subst. destruct I as [->|I]; [|eauto]. apply N1. apply in_or_app. auto.
Qed.
Lemma inside_names p ns f : package_ok p -> inside p ns f -> exists n r, ns = n :: r /\ valid_name n /\ Forall valid_name ns.
Proof.
  intros P H. induction H as [i es ps e I|i es ps e f I J|i es ps q I|i es ps q ns f I H IH]; inversion P as [? ? ? [S1 S2] S3 S4]; subst; clear P;
  rewrite Forall_app, !Forall_forall in S1; destruct S1 as [Se Sp].
  - assert (V : valid_name (element_name e)) by (apply Se, in_map, I). eexists _, _. split; [reflexivity|]. split; auto.
  - assert (V : valid_name (element_name e)) by (apply Se, in_map, I). eexists _, _. split; [reflexivity|]. split; auto. constructor; auto. constructor; auto.
    rewrite Forall_forall in S3. destruct (S3 e I) as [W _]. rewrite Forall_forall in W. apply W, in_map, J.
  - assert (V : valid_name (package_name q)) by (apply Sp, in_map, I). eexists _, _. split; [reflexivity|]. split; auto.
  - assert (V : valid_name (package_name q)) by (apply Sp, in_map, I). eexists _, _. split; [reflexivity|]. split; auto. constructor; auto.
    rewrite Forall_forall in S4. destruct (IH (S4 q I)) as (n & r & -> & _ & W). exact W.
Qed.
Lemma package_find_inside p ns f : package_ok p -> inside p ns f -> forall path, package_find path p (join "/" ns) = Ok (Some (deeper path ns, f)).
Proof.
  intros P H. induction H as [i es ps e I|i es ps e f I J|i es ps q I|i es ps q ns f I H IH]; intros path; inversion P as [? ? ? S S3 S4]; subst; pose proof S as [S1 S2];
    rewrite Forall_app, !Forall_forall in S1; destruct S1 as [Se Sp]; rewrite package_find_eq.
  - rewrite split_first by (apply Se, in_map, I). rewrite first_named_found by (eauto using NoDup_app_l). reflexivity.
  - rewrite split_first by (apply Se, in_map, I). rewrite first_named_found by (eauto using NoDup_app_l).
    rewrite Forall_forall in S3. pose proof (S3 e I) as Ge. pose proof Ge as [Gv _]. rewrite Forall_forall in Gv.
    assert (Vf : valid_name (found_name f)) by (apply Gv, in_map, J). cbn [join]. destruct (String.eqb_spec (found_name f) "") as [E|_]; [destruct Vf; congruence|].
    rewrite (element_find_member e f Ge J). reflexivity.
  - rewrite split_first by (apply Sp, in_map, I).
    assert (E : first_named element_name (package_name q) es = None) by (apply first_named_none; intros X; exact (NoDup_app_apart _ _ _ S2 X (in_map _ _ _ I))).
    rewrite E, first_named_found by (eauto using NoDup_app_r). reflexivity.
  - rewrite split_first by (apply Sp, in_map, I).
    assert (E : first_named element_name (package_name q) es = None) by (apply first_named_none; intros X; exact (NoDup_app_apart _ _ _ S2 X (in_map _ _ _ I))).
    rewrite E, first_named_found by (eauto using NoDup_app_r). rewrite Forall_forall in S4. pose proof (S4 q I) as Q.
    destruct (inside_names q ns f Q H) as (n & r & -> & V & _). destruct (String.eqb_spec (join "/" (n :: r)) "") as [X|_]; [exfalso; revert X; apply join_nonempty, V|].
    rewrite (IH Q). reflexivity.
Qed.
Lemma strip_path ns : strip_slash (path_string ns) = join "/" ns.
Proof. reflexivity. Qed.
Lemma partition_join n ns : valid_name n -> partition_slash (join "/" (n :: ns)) = (n, join "/" ns).
Proof.
  intros [_ V]. destruct ns; [now apply partition_valid|]. rewrite join_cons by discriminate. now apply partition_sep.
Qed.
Lemma tree_find_at ws ns f : tree_ok ws -> at_path ws ns f -> tree_find ws (path_string ns) = Ok (Some (path_string ns, f)).
Proof.
  intros [[V N] T] H. unfold tree_find. rewrite strip_path. rewrite Forall_forall in V, T. destruct H as [q I|q ns f I H];
    (assert (Vq : valid_name (package_name q)) by (apply V, in_map, I)); rewrite partition_join by assumption;
    rewrite first_named_found by assumption; [reflexivity|].
  destruct (inside_names q ns f (T q I) H) as (n & r & -> & Vn & _).
  destruct (String.eqb_spec (join "/" (n :: r)) "") as [X|_]; [exfalso; revert X; apply join_nonempty, Vn|].
  rewrite (package_find_inside q (n :: r) f (T q I) H). do 3 f_equal. change (deeper (below "" (package_name q)) (n :: r)) with (deeper "" (package_name q :: n :: r)).
  now rewrite deeper_string.
Qed.

(** ** What is found stands somewhere *)
Lemma element_find_sound e ref f : element_find e ref = Ok (Some f) -> In f (members e).
Proof.
  assert (M : forall A (k : A -> found) g n l f, option_map k (first_named g n l) = Some f -> In f (map k l)).
  { intros A k g n l g0 E. destruct (first_named g n l) eqn:F; [|discriminate]. apply first_named_in in F as [F _]. inversion E. now apply in_map. }
  destruct e; cbn [element_find members]; try discriminate.
  - destruct (mem_char slash ref); [discriminate|]. intros E. inversion E as [E']. eapply M, E'.
  - unfold mode_group_find. intros E. apply in_or_app. destruct (first_named mode_name ref _) eqn:F.
    + left. inversion E. apply in_map. apply first_named_in in F as []. assumption.
    + right. inversion E as [E']. eapply M, E'.
  - unfold ports_find. intros E. inversion E as [E']. eapply M, E'.
  - unfold composition_find, ports_find. intros E. apply in_or_app. destruct (first_named component_name _ _) eqn:F.
    + left. inversion E. apply in_map. apply first_named_in in F as []. assumption.
    + right. apply in_or_app. destruct (first_named connector_name _ _) eqn:G.
      * left. inversion E. apply in_map. apply first_named_in in G as []. assumption.
      * right. inversion E as [E']. eapply M, E'.
Qed.
Section PackageInd.
  Variable P : package -> Prop.
  Hypothesis H : forall i es ps, Forall P ps -> P (mkPackage i es ps).
  Fixpoint package_ind2 (p : package) : P p :=
    match p with
    | mkPackage i es ps => H i es ps ((fix all l : Forall P l := match l with [] => Forall_nil P | q :: r => Forall_cons q (package_ind2 q) (all r) end) ps)
    end.
End PackageInd.
Lemma package_find_sound p : forall path ref path' f, package_find path p ref = Ok (Some (path', f)) -> exists ns, inside p ns f /\ path' = deeper path ns.
Proof.
  induction p as [i es ps IH] using package_ind2. intros path ref path' f. rewrite package_find_eq. destruct (partition_slash (strip_slash ref)) as [n rest].
  destruct (first_named element_name n es) as [e|] eqn:Fe.
  - apply first_named_in in Fe as [I <-]. destruct (String.eqb rest "").
    + intros E. inversion E. subst. eexists. split; [apply in_element, I|reflexivity].
    + destruct (element_find e rest) as [[g|]|] eqn:G; cbn [bind option_map]; intros E; inversion E; subst. apply element_find_sound in G.
      eexists. split; [apply in_member; eauto|reflexivity].
  - destruct (first_named package_name n ps) as [q|] eqn:Fq; [|discriminate]. apply first_named_in in Fq as [I <-]. destruct (String.eqb rest "").
    + intros E. inversion E. subst. eexists. split; [apply in_package, I|reflexivity].
    + intros E. rewrite Forall_forall in IH. apply (IH q I) in E as (ns & J & ->). eexists. split; [eapply in_deeper; eauto|reflexivity].
Qed.
Lemma tree_find_sound ws ref path f : tree_find ws ref = Ok (Some (path, f)) -> exists ns, at_path ws ns f /\ path = path_string ns.
Proof.
  unfold tree_find. destruct (partition_slash (strip_slash ref)) as [n rest]. destruct (first_named package_name n ws) as [q|] eqn:Fq; [|discriminate].
  apply first_named_in in Fq as [I <-]. destruct (String.eqb rest "").
  - intros E. inversion E. subst. eexists. split; [apply at_top, I|reflexivity].
  - intros E. apply package_find_sound in E as (ns & J & ->). eexists. split; [eapply at_inside; eauto|].
    change (deeper (below "" (package_name q)) ns) with (deeper "" (package_name q :: ns)). now rewrite deeper_string.
Qed.

(** ** What is found under a path of valid names *)
(** The find methods of components look only at the first name that is left. *)
Definition ignores_rest (f : found) : Prop := match f with FPort _ | FComponent _ | FConnector _ => True | _ => False end.
Lemma element_find_names e n ns f : element_ok e -> Forall valid_name (n :: ns) -> element_find e (join "/" (n :: ns)) = Ok (Some f) ->
  In f (members e) /\ found_name f = n /\ (ns = [] \/ ignores_rest f).
Proof.
  intros [Ve _] V E. pose proof (element_find_sound _ _ _ E) as I. split; [assumption|]. rewrite Forall_forall in Ve.
  pose proof (Ve _ (in_map found_name _ _ I)) as Vf. inversion V as [|? ? Vn Vns]. subst.
  assert (M : forall A (k : A -> found) g x l, (forall a, found_name (k a) = g a) -> option_map k (first_named g x l) = Some f -> found_name f = x).
  { intros A k g x l Hk H. destruct (first_named g x l) eqn:F; [|discriminate]. apply first_named_in in F as [_ F]. inversion H. now rewrite Hk. }
  assert (Q : found_name f = join "/" (n :: ns) -> ns = [] /\ found_name f = n).
  { intros H. destruct ns as [|m ns]; [auto|]. exfalso. destruct Vf as [_ Vf]. rewrite H, join_cons in Vf by discriminate.
    clear -Vf. induction n as [|c n IH]; cbn in Vf; [discriminate|]. apply orb_false_iff in Vf as [_ Vf]. auto. }
  destruct e; cbn [element_find] in E; try discriminate.
  - destruct (mem_char slash _); [discriminate|]. inversion E as [H]. apply M in H; [|reflexivity]. apply Q in H. tauto.
  - unfold mode_group_find in E. destruct (first_named mode_name _ _) eqn:F.
    + inversion E. subst. apply first_named_in in F as [_ F]. apply Q in F. tauto.
    + inversion E as [H]. apply M in H; [|reflexivity]. apply Q in H. tauto.
  - unfold ports_find in E. rewrite partition_join in E by assumption. inversion E as [H]. cbn [fst] in H. split; [eapply M; eauto; reflexivity|]. right.
    destruct (first_named port_name n _); inversion H. exact Logic.I.
  - unfold composition_find, ports_find in E. rewrite partition_join in E by assumption. cbn [fst] in E.
    destruct (first_named component_name n _) eqn:F; [apply first_named_in in F as [_ F]; inversion E; subst; cbn; auto|].
    destruct (first_named connector_name n _) eqn:F'; [apply first_named_in in F' as [_ F']; inversion E; subst; cbn; auto|].
    inversion E as [H]. split; [eapply M; eauto; reflexivity|]. right. destruct (first_named port_name n _); inversion H. exact Logic.I.
Qed.
Lemma package_find_names p : package_ok p -> forall path ns path' f, ns <> [] -> Forall valid_name ns ->
  package_find path p (join "/" ns) = Ok (Some (path', f)) ->
  exists ms extra, ns = ms ++ extra /\ inside p ms f /\ path' = deeper path ms /\ (extra = [] \/ ignores_rest f).
Proof.
  induction p as [i es ps IH] using package_ind2. intros P path ns path' f NE V. inversion P as [? ? ? S S3 S4]; subst. rewrite Forall_forall in S3, S4, IH.
  destruct ns as [|n ns]; [congruence|]. inversion V as [|? ? Vn Vns]. subst.
  rewrite package_find_eq, split_first by assumption.
  assert (R : String.eqb (join "/" ns) "" = true <-> ns = []).
  { destruct ns as [|m ns]; [cbn; tauto|]. inversion Vns. subst. split; [|discriminate]. intros X. apply String.eqb_eq in X. exfalso. revert X. apply join_nonempty. now destruct H1. }
  destruct (String.eqb (join "/" ns) "").
  - destruct R as [R _]. rewrite (R eq_refl). destruct (first_named element_name n es) as [e|] eqn:Fe.
    + apply first_named_in in Fe as [I <-]. intros E. inversion E. subst. exists [element_name e], []. repeat split; auto. now apply in_element.
    + destruct (first_named package_name n ps) as [q|] eqn:Fq; [|discriminate]. apply first_named_in in Fq as [I <-]. intros E. inversion E. subst.
      exists [package_name q], []. repeat split; auto. now apply in_package.
  - destruct ns as [|m ns]; [destruct R as [_ R]; discriminate (R eq_refl)|]. clear R. destruct (first_named element_name n es) as [e|] eqn:Fe.
    + apply first_named_in in Fe as [I <-]. destruct (element_find e (join "/" (m :: ns))) as [[g|]|] eqn:G; cbn [bind option_map]; intros E; inversion E; subst.
      apply element_find_names in G as (J & <- & G); auto. exists [element_name e; found_name f], ns. repeat split; auto. now apply in_member.
    + destruct (first_named package_name n ps) as [q|] eqn:Fq; [|discriminate]. apply first_named_in in Fq as [I <-]. intros E.
      apply (IH q I (S4 q I)) in E as (ms & extra & -> & J & -> & X); [|discriminate|assumption]. exists (package_name q :: ms), extra. repeat split; auto.
      eapply in_deeper; eauto.
Qed.
Lemma tree_find_names ws ns path f : tree_ok ws -> ns <> [] -> Forall valid_name ns -> tree_find ws (path_string ns) = Ok (Some (path, f)) ->
  exists ms extra, ns = ms ++ extra /\ at_path ws ms f /\ path = path_string ms /\ (extra = [] \/ ignores_rest f).
Proof.
  intros [_ T] NE V. rewrite Forall_forall in T. unfold tree_find. rewrite strip_path. destruct ns as [|n ns]; [congruence|]. inversion V as [|? ? Vn Vns]. subst.
  rewrite partition_join by assumption. destruct (first_named package_name n ws) as [q|] eqn:Fq; [|discriminate]. apply first_named_in in Fq as [I <-].
  destruct ns as [|m ns].
  - intros E. inversion E. subst. exists [package_name q], []. repeat split; auto. now apply at_top.
  - destruct (String.eqb_spec (join "/" (m :: ns)) "") as [X|_]; [exfalso; inversion Vns; subst; revert X; apply join_nonempty; now destruct H1|].
    intros E. apply (package_find_names q (T q I)) in E as (ms & extra & -> & J & -> & X); [|discriminate|assumption]. exists (package_name q :: ms), extra.
    repeat split; auto; [eapply at_inside; eauto|]. change (deeper (below "" (package_name q)) ms) with (deeper "" (package_name q :: ms)). now rewrite deeper_string.
Qed.

(** ** Checking names by computation *)
Fixpoint scope_okb (l : list string) : bool :=
  match l with [] => true | n :: r => negb (String.eqb n "") && negb (mem_char slash n) && negb (existsb (String.eqb n) r) && scope_okb r end.
Lemma scope_okb_ok l : scope_okb l = true -> scope_ok l.
Proof.
  induction l as [|n l IH]; cbn; intros H; [split; constructor|]. repeat rewrite andb_true_iff in H. destruct H as [[[H1 H2] H3] H4]. apply IH in H4 as [V N]. split; constructor; auto.
  - split; [intros ->; discriminate|]. now destruct (mem_char slash n).
  - intros I. rewrite negb_true_iff in H3. assert (X : existsb (String.eqb n) l = true) by (apply existsb_exists; exists n; rewrite String.eqb_refl; auto). congruence.
Qed.
Fixpoint package_okb (p : package) : bool :=
  match p with
  | mkPackage i es ps => scope_okb (map element_name es ++ map package_name ps) && forallb (fun e => scope_okb (map found_name (members e))) es && forallb package_okb ps
  end.
Lemma package_okb_ok p : package_okb p = true -> package_ok p.
Proof.
  induction p as [i es ps IH] using package_ind2. cbn [package_okb]. repeat rewrite andb_true_iff. rewrite !forallb_forall. intros [[H1 H2] H3]. constructor.
  - now apply scope_okb_ok.
  - apply Forall_forall. intros e I. apply scope_okb_ok. now apply H2.
  - rewrite Forall_forall in *. auto.
Qed.
Lemma tree_okb_ok ws : scope_okb (map package_name ws) && forallb package_okb ws = true -> tree_ok ws.
Proof.
  rewrite andb_true_iff, forallb_forall. intros [H1 H2]. split; [now apply scope_okb_ok|]. apply Forall_forall. intros p I. now apply package_okb_ok, H2.
Qed.
