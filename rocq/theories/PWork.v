(** Proofs about paths, namespaces and settings (C13, C38). *)
From Verif Require Import Base PBase MHeap SHeap MWork SWork.

(** ** Roles *)

Lemma prole_eqb_spec a b : prole_eqb a b = true <-> a = b.
Proof. destruct a, b; cbn; split; congruence. Qed.

Lemma role_eqb_spec a b : role_eqb a b = true <-> a = b.
Proof.
  destruct a, b; cbn; try (split; congruence).
  - rewrite prole_eqb_spec. split; congruence.
  - rewrite String.eqb_eq. split; congruence.
Qed.

Lemma role_eqb_refl a : role_eqb a a = true.
Proof. now apply role_eqb_spec. Qed.

Lemma rassoc_set_same k v l : rassoc k (rassoc_set k v l) = Some v.
Proof.
  induction l as [|[k' v'] l IH]; cbn; [now rewrite role_eqb_refl|].
  destruct (role_eqb k k') eqn:E; cbn; now rewrite E.
Qed.

Lemma rassoc_set_other k j v l : k <> j -> rassoc k (rassoc_set j v l) = rassoc k l.
Proof.
  intros N. induction l as [|[k' v'] l IH]; cbn.
  - destruct (role_eqb k j) eqn:E; auto. apply role_eqb_spec in E. contradiction.
  - destruct (role_eqb j k') eqn:E; cbn.
    + apply role_eqb_spec in E as <-. destruct (role_eqb k j) eqn:E2; auto.
      apply role_eqb_spec in E2. contradiction.
    + now rewrite IH.
Qed.

Lemma role_of_name_denotes k r : role_of_name k = Ok r <-> denotes k r.
Proof.
  split.
  - destruct k as [|c s]; cbn [role_of_name]; [discriminate|].
    destruct (Ascii.eqb_spec c "!"%char) as [->|N].
    + intros [= <-]. apply (den_user s).
    + destruct (assoc (String c s) role_names) as [p|] eqn:A; [|discriminate].
      intros [= <-]. apply assoc_in in A. unfold role_names in A. cbn [In] in A.
      repeat match goal with H : _ \/ _ |- _ => destruct H as [H|H] end;
        try contradiction; injection A as A1 A2 A3; subst p; rewrite <- A1, <- A2;
        match goal with |- denotes _ (REnum ?r) => first [exact (den_upper r) | exact (den_camel r)] end.
  - intros []; [destruct r0; reflexivity|destruct r0; reflexivity|reflexivity].
Qed.

Lemma denotes_fun k r r' : denotes k r -> denotes k r' -> r = r'.
Proof. intros A B. apply role_of_name_denotes in A, B. congruence. Qed.

Lemma role_of_name_err k e : role_of_name k = Err e -> e = KeyError.
Proof.
  destruct k as [|c s]; cbn [role_of_name]; [congruence|].
  destruct (Ascii.eqb c "!"%char); [discriminate|].
  destruct (assoc (String c s) role_names); congruence.
Qed.

Lemma fill_map_ok base pm m m' :
  fill_map base m pm = Ok m' -> forall kr, In kr pm -> exists r, denotes (fst kr) r.
Proof.
  revert m. induction pm as [|[k rel] pm IH]; cbn [fill_map]; intros m E kr I; [destruct I|].
  destruct (role_of_name k) as [r|] eqn:R; cbn [bind] in E; [|discriminate].
  destruct I as [<-|I]; eauto. exists r. now apply role_of_name_denotes.
Qed.

Lemma fill_map_total base pm m :
  (forall kr, In kr pm -> exists r, denotes (fst kr) r) -> exists m', fill_map base m pm = Ok m'.
Proof.
  revert m. induction pm as [|[k rel] pm IH]; cbn [fill_map]; intros m A; [eauto|].
  destruct (A (k, rel)) as (r & D); [now left|]. apply role_of_name_denotes in D. cbn [fst] in D.
  rewrite D. cbn [bind]. apply IH. intros; apply A; now right.
Qed.

Lemma fill_map_err base pm m e : fill_map base m pm = Err e -> e = KeyError.
Proof.
  revert m. induction pm as [|[k rel] pm IH]; cbn [fill_map]; intros m E; [discriminate|].
  destruct (role_of_name k) as [r|] eqn:R; cbn [bind] in E; eauto.
  injection E as ->. eauto using role_of_name_err.
Qed.

Lemma fill_map_keep base pm m m' ro :
  fill_map base m pm = Ok m' -> (forall k, In k (map fst pm) -> ~ denotes k ro) ->
  rassoc ro m' = rassoc ro m.
Proof.
  revert m. induction pm as [|[k rel] pm IH]; cbn [fill_map]; intros m E N; [congruence|].
  destruct (role_of_name k) as [r|] eqn:R; cbn [bind] in E; [|discriminate].
  rewrite (IH _ E) by (intros; apply N; now right).
  apply rassoc_set_other. intros ->. apply (N k); [now left|]. now apply role_of_name_denotes.
Qed.

Lemma fill_map_last base pre k rel post m m' ro :
  fill_map base m (pre ++ (k, rel) :: post) = Ok m' -> denotes k ro ->
  (forall k', In k' (map fst post) -> ~ denotes k' ro) ->
  rassoc ro m' = Some (pjoin base rel).
Proof.
  revert m. induction pre as [|[k0 rel0] pre IH]; cbn [app fill_map]; intros m E D N.
  - apply role_of_name_denotes in D. rewrite D in E. cbn [bind] in E.
    rewrite (fill_map_keep _ _ _ _ _ E N). apply rassoc_set_same.
  - destruct (role_of_name k0) as [r|] eqn:R; cbn [bind] in E; [|discriminate]. eauto.
Qed.

(** ** Paths *)

Lemma ends_slash_app a b : b <> "" -> ends_slash (a ++ b)%string = ends_slash b.
Proof.
  intros N. induction a as [|c a IH]; auto.
  cbn [append]. destruct (a ++ b)%string eqn:E.
  - destruct a; cbn in E; [contradiction|discriminate].
  - exact IH.
Qed.

Lemma ends_slash_plain n : mem_char slash n = false -> ends_slash n = false.
Proof.
  induction n as [|c n IH]; auto. cbn [mem_char]. intros M. apply orb_false_iff in M as [M1 M2].
  destruct n as [|d n]; [exact M1|]. now apply IH.
Qed.

Lemma join_app a b : a <> [] -> b <> [] ->
  join "/" (a ++ b) = (join "/" a ++ "/" ++ join "/" b)%string.
Proof.
  intros NA NB. induction a as [|x a IH]; [contradiction|].
  destruct a as [|y a].
  - destruct b as [|z b]; [contradiction|]. reflexivity.
  - change ((x :: y :: a) ++ b) with (x :: y :: (a ++ b)).
    rewrite (join_cons "/" x y (a ++ b)), (join_cons "/" x y a).
    change (y :: (a ++ b)) with ((y :: a) ++ b). rewrite IH by discriminate.
    now rewrite !str_app_assoc.
Qed.

Lemma join_last_end l : l <> [] -> (forall n, In n l -> valid_name n) ->
  join "/" l <> "" /\ ends_slash (join "/" l) = false.
Proof.
  intros NE V. destruct (exists_last NE) as (l' & a & ->).
  assert (Va : valid_name a) by (apply V, in_or_app; right; now left). destruct Va as [Va1 Va2].
  destruct l' as [|x l'].
  - split; [exact Va1|]. cbn. now apply ends_slash_plain.
  - rewrite join_snoc by discriminate. split.
    + assert (X : valid_name x) by (apply V; now left). destruct X as [X _].
      destruct l'; cbn; destruct x; try contradiction; discriminate.
    + rewrite <- str_app_assoc, ends_slash_app by exact Va1. now apply ends_slash_plain.
Qed.

(** [pjoin] with an absolute base of plain names. *)
Lemma pjoin_abs bs rel :
  (forall n, In n bs -> valid_name n) -> starts_slash rel = false ->
  pjoin (abs bs) rel = abs (bs ++ split_at slash rel).
Proof.
  intros V S. unfold pjoin. rewrite S. unfold abs.
  destruct bs as [|b bs].
  - transitivity ("/" ++ rel)%string; [reflexivity|]. cbn [app].
    f_equal. symmetry. apply (join_split slash).
  - destruct (join_last_end (b :: bs)) as [N E]; [discriminate|exact V|].
    rewrite ends_slash_app by exact N. rewrite E.
    replace (String.eqb ("/" ++ join "/" (b :: bs)) "" || false)%bool with false by reflexivity.
    cbn [orb]. rewrite join_app; [|discriminate|apply split_at_nonempty].
    change "/"%string with (String slash "") at 7. rewrite join_split. rewrite str_app_assoc. reflexivity.
Qed.

Lemma split_abs cs : cs <> [] -> (forall c, In c cs -> mem_char slash c = false) ->
  split_at slash (abs cs) = "" :: cs.
Proof.
  intros NE V. unfold abs. change ("/" ++ join "/" cs)%string with ("" ++ String slash (join "/" cs))%string.
  rewrite split_at_sep by reflexivity. f_equal. apply split_join; auto.
Qed.

Lemma split_parts_no c s x : In x (split_at c s) -> mem_char c x = false.
Proof.
  revert x; induction s as [|a s IH]; cbn [split_at]; intros x I.
  - destruct I as [<-|[]]. reflexivity.
  - destruct (Ascii.eqb a c) eqn:E.
    + destruct I as [<-|I]; [reflexivity|auto].
    + destruct (split_at c s) as [|y r] eqn:Sp.
      * destruct I as [<-|[]]. cbn. rewrite orb_false_r. exact E.
      * destruct I as [<-|I]; [|apply IH; now right].
        cbn. rewrite E. apply IH. now left.
Qed.

Lemma lead_abs c cs : c <> "" -> mem_char slash c = false -> lead_slashes (abs (c :: cs)) = "/".
Proof.
  intros N M. unfold abs. destruct c as [|a c]; [contradiction|].
  cbn [mem_char] in M. apply orb_false_iff in M as [M _].
  assert (X : exists t, join "/" (String a c :: cs) = String a t).
  { destruct cs; [exists c; reflexivity|]. rewrite join_cons. cbn [append]. eauto. }
  destruct X as [t ->]. cbn [append lead_slashes].
  destruct t; cbn [Ascii.eqb]; rewrite ?M; reflexivity.
Qed.

(** Components dropped or followed by [norm_comps] agree with [follow]. *)
Lemma norm_follow p comps q : follow p comps q -> (forall n, In n p -> n <> "..") ->
  norm_comps true (rev p) comps = q /\ (forall n, In n q -> n <> "..").
Proof.
  induction 1; intros V; cbn [norm_comps].
  - rewrite rev_involutive. auto.
  - apply IHfollow, V.
  - apply IHfollow, V.
  - rewrite rev_app_distr. cbn [rev app].
    assert (E : String.eqb n ".." = false).
    { apply String.eqb_neq, V, in_or_app. right. now left. }
    rewrite E. apply IHfollow. intros; apply V, in_or_app; auto.
  - apply IHfollow, V.
  - destruct H as ([H1 H2] & H3 & H4). apply String.eqb_neq in H1, H3. rewrite H1, H3. cbn [orb].
    assert (E : String.eqb n ".." = false) by now apply String.eqb_neq.
    rewrite E. cbn [negb orb]. rewrite rev_app_distr in IHfollow. cbn [rev app] in IHfollow.
    apply IHfollow. intros x I. apply in_app_iff in I as [I|[<-|[]]]; auto.
Qed.

Lemma follow_total p comps : (forall c, In c comps -> mem_char slash c = false) ->
  exists q, follow p comps q.
Proof.
  revert p; induction comps as [|c r IH]; intros p V; [eauto using fo_done|].
  assert (V' : forall c, In c r -> mem_char slash c = false) by (intros; apply V; now right).
  destruct (String.eqb_spec c "") as [->|N1]; [destruct (IH p V'); eauto using fo_empty|].
  destruct (String.eqb_spec c ".") as [->|N2]; [destruct (IH p V'); eauto using fo_dot|].
  destruct (String.eqb_spec c "..") as [->|N3].
  - destruct p as [|x p] using rev_ind.
    + destruct (IH [] V'); eauto using fo_up_root.
    + destruct (IH p V'); eauto using fo_up.
  - destruct (IH (p ++ [c]) V') as [q F]. exists q. apply fo_down; auto.
    repeat split; auto. apply V. now left.
Qed.

Lemma follow_fun p comps q q' : follow p comps q -> follow p comps q' -> (forall n, In n p -> n <> "..") -> q = q'.
Proof. intros A B V. destruct (norm_follow _ _ _ A V), (norm_follow _ _ _ B V). congruence. Qed.

Lemma follow_plain_list p cs : (forall c, In c cs -> plain c) -> follow p cs (p ++ cs).
Proof.
  revert p; induction cs as [|c cs IH]; intros p V; [rewrite app_nil_r; apply fo_done|].
  apply fo_down; [apply V; now left|]. replace (p ++ c :: cs) with ((p ++ [c]) ++ cs) by now rewrite <- app_assoc.
  apply IH. intros; apply V; now right.
Qed.

Lemma norm_app root acc a b :
  (forall c, In c a -> plain c) -> norm_comps root acc (a ++ b) = norm_comps root (rev a ++ acc) b.
Proof.
  revert acc; induction a as [|c a IH]; intros acc V; [reflexivity|].
  cbn [app norm_comps]. destruct (V c) as ([H1 H2] & H3 & H4); [now left|].
  apply String.eqb_neq in H1, H3, H4. rewrite H1, H3, H4. cbn [orb negb].
  rewrite IH by (intros; apply V; now right). cbn [rev]. now rewrite <- app_assoc.
Qed.

Lemma starts_slash_not_head s x r : starts_slash s = false -> split_at slash s = x :: r -> x = "" -> r = [] /\ s = "".
Proof.
  destruct s as [|a s]; cbn [split_at starts_slash]; intros S E X.
  - injection E as <- <-. auto.
  - rewrite S in E. destruct (split_at slash s); injection E as <- <-; discriminate.
Qed.

Lemma normpath_abs bs rel q :
  (forall n, In n bs -> plain n) -> starts_slash rel = false ->
  follow bs (split_at slash rel) q ->
  normpath (abs (bs ++ split_at slash rel)) = abs q.
Proof.
  intros V S F.
  assert (VB : forall n, In n bs -> n <> "..") by (intros n I; apply V in I; apply I).
  destruct (norm_follow _ _ _ F VB) as [E _].
  assert (NE : bs ++ split_at slash rel <> []).
  { intros X. apply app_eq_nil in X as [_ X]. now apply split_at_nonempty in X. }
  assert (VS : forall c, In c (bs ++ split_at slash rel) -> mem_char slash c = false).
  { intros c I. apply in_app_iff in I as [I|I]; [apply V in I; apply I|eapply split_parts_no, I]. }
  assert (L : lead_slashes (abs (bs ++ split_at slash rel)) = "/").
  { destruct bs as [|b bs].
    - cbn [app]. destruct (split_at slash rel) as [|x r] eqn:Sp; [now apply split_at_nonempty in Sp|].
      destruct (string_dec x "") as [->|N].
      + destruct (starts_slash_not_head _ _ _ S Sp eq_refl) as [-> ->]. reflexivity.
      + apply lead_abs; [exact N|]. apply VS. now left.
    - apply (lead_abs b (bs ++ split_at slash rel)); [|apply VS; now left].
      destruct (V b) as ([X _] & _); [now left|exact X]. }
  unfold normpath. rewrite L, split_abs by auto.
  replace (String.eqb (abs (bs ++ split_at slash rel)) "") with false by reflexivity.
  replace (starts_slash (abs (bs ++ split_at slash rel))) with true by reflexivity.
  cbn [norm_comps String.eqb orb].
  rewrite norm_app by exact V. rewrite app_nil_r, E. reflexivity.
Qed.

Lemma pjoin_again b rel : starts_slash b = true -> pjoin b (pjoin b rel) = pjoin b rel.
Proof.
  intros S. unfold pjoin at 1.
  assert (X : starts_slash (pjoin b rel) = true).
  { unfold pjoin. destruct (starts_slash rel) eqn:R; [exact R|].
    destruct (String.eqb b "" || ends_slash b)%bool; (rewrite starts_slash_app; [exact S|]);
      intros ->; discriminate. }
  now rewrite X.
Qed.

(** ** Namespaces *)

Definition base_of (name : string) (base : option string) : string :=
  match base with Some b => b | None => ("/" ++ name)%string end.

Lemma create_ns_ok nss name pm base nss' :
  create_namespace nss name pm base = Ok nss' ->
  exists m, fill_map (base_of name base) [] pm = Ok m /\
            nss' = assoc_set name (mkNs (base_of name base) m) nss.
Proof.
  unfold create_namespace, mk_namespace. fold (base_of name base). cbv zeta.
  destruct (fill_map (base_of name base) [] pm) as [m|]; cbn [bind]; [|discriminate].
  intros [= <-]. eauto.
Qed.

Lemma role_ref_general nss name pm base nss' pre k rel post ro :
  create_namespace nss name pm base = Ok nss' ->
  pm = pre ++ (k, rel) :: post -> denotes k ro ->
  (forall k', In k' (map fst post) -> ~ denotes k' ro) ->
  role_ref nss' name ro = Ok (normpath (pjoin (base_of name base) (pjoin (base_of name base) rel))).
Proof.
  intros C -> D N. destruct (create_ns_ok _ _ _ _ _ C) as (m & F & ->).
  unfold role_ref. rewrite assoc_set_same. cbn [ns_map ns_base].
  now rewrite (fill_map_last _ _ _ _ _ _ _ _ F D N).
Qed.

Lemma role_ref_abs nss name pm base nss' pre k rel post ro bs q :
  create_namespace nss name pm base = Ok nss' ->
  pm = pre ++ (k, rel) :: post -> denotes k ro ->
  (forall k', In k' (map fst post) -> ~ denotes k' ro) ->
  base_of name base = abs bs -> (forall n, In n bs -> plain n) ->
  starts_slash rel = false -> follow bs (split_at slash rel) q ->
  role_ref nss' name ro = Ok (abs q).
Proof.
  intros C P D N B V S F. rewrite (role_ref_general _ _ _ _ _ _ _ _ _ _ C P D N), B.
  rewrite pjoin_again by reflexivity.
  rewrite pjoin_abs by (auto; intros n I; apply V in I; apply I).
  now rewrite (normpath_abs _ _ _ V S F).
Qed.

Lemma role_ref_rooted nss name pm base nss' pre k post ro rel q :
  create_namespace nss name pm base = Ok nss' ->
  pm = pre ++ (k, ("/" ++ rel)%string) :: post -> denotes k ro ->
  (forall k', In k' (map fst post) -> ~ denotes k' ro) ->
  starts_slash rel = false -> follow [] (split_at slash rel) q ->
  role_ref nss' name ro = Ok (abs q).
Proof.
  intros C P D N S F. rewrite (role_ref_general _ _ _ _ _ _ _ _ _ _ C P D N).
  change (pjoin (base_of name base) ("/" ++ rel)) with ("/" ++ rel)%string.
  change (pjoin (base_of name base) ("/" ++ rel)) with ("/" ++ rel)%string.
  replace ("/" ++ rel)%string with (abs ([] ++ split_at slash rel)).
  - f_equal. apply normpath_abs; auto. intros n [].
  - unfold abs. cbn [app]. f_equal. apply (join_split slash).
Qed.

Lemma role_ref_missing nss name pm base nss' ro :
  create_namespace nss name pm base = Ok nss' ->
  (forall k, In k (map fst pm) -> ~ denotes k ro) -> role_ref nss' name ro = Err ValueError.
Proof.
  intros C N. destruct (create_ns_ok _ _ _ _ _ C) as (m & F & ->).
  unfold role_ref. rewrite assoc_set_same. cbn [ns_map].
  now rewrite (fill_map_keep _ _ _ _ _ F N).
Qed.

Lemma role_ref_other nss name pm base nss' other ro :
  create_namespace nss name pm base = Ok nss' -> other <> name ->
  role_ref nss' other ro = role_ref nss other ro.
Proof.
  intros C N. destruct (create_ns_ok _ _ _ _ _ C) as (m & F & ->).
  unfold role_ref. now rewrite assoc_set_other.
Qed.

Lemma normpath_nonempty s : normpath s <> "".
Proof.
  unfold normpath. destruct (String.eqb s ""); [discriminate|].
  match goal with |- context [String.eqb ?p ""] => destruct (String.eqb p "") eqn:E end; [discriminate|].
  now apply String.eqb_neq.
Qed.

(** ** Settings *)

Lemma known_setting n : In n setting_names -> known_attr n = true.
Proof.
  intros I. unfold known_attr. apply orb_true_iff. left. apply existsb_exists. exists n.
  split; auto. apply String.eqb_refl.
Qed.
