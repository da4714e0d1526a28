(** Property theorems about generated names: C08, C09, C35. *)
From Verif Require Import Base PBase MNames PNames.

(** C08: the returned name is the name of no element of the list after the call. *)
Theorem C08_returned_name_is_unused :
  forall names base names' r, make_unique names base = (names', r) -> ~ In r names'.
Proof. exact make_unique_fresh. Qed.

(** C08: at most one element is renamed; it was called exactly [base] and becomes base_0. *)
Theorem C08_only_exact_match_is_renamed :
  forall names base names' r,
    make_unique names base = (names', r) ->
    (~ In base names /\ names' = names) \/
    (exists a b, names = a ++ base :: b /\ names' = a ++ (base ++ "_0")%string :: b /\ ~ In base b).
Proof. exact make_unique_effect. Qed.

Example C08_case :
  make_unique ["Ev_x"; "Ev"; "Ev_7"; "Ev_12a"; "Other"] "Ev"
  = (["Ev_x"; "Ev_0"; "Ev_7"; "Ev_12a"; "Other"], "Ev_13") /\
  make_unique ["Other"; "Evx_1"] "Ev" = (["Other"; "Evx_1"], "Ev").
Proof. split; vm_compute; reflexivity. Qed.

(** C09, the general step: starting from different names, adding under the returned name keeps
    them different exactly when the list does not already hold both base and base_0. *)
Theorem C09_addition_keeps_names_distinct_iff :
  forall names base, NoDup names ->
    (NoDup (add_unique names base) <-> ~ (In base names /\ In (base ++ "_0")%string names)).
Proof. exact add_unique_nodup. Qed.

(** C09 (the starting list must not hold both base and base_0): any number of additions of the
    same base name gives pairwise different names.  Missing: starting lists holding both, for
    which the claim is false (C09_refuted). *)
Theorem C09_repeated_additions_distinct_partial :
  forall n names base,
    NoDup names -> ~ (In base names /\ In (base ++ "_0")%string names) ->
    let result := Nat.iter n (fun l => add_unique l base) names in
    NoDup result /\ List.length result = List.length names + n.
Proof.
  intros n names base N X.
  assert (S : safe (Nat.iter n (fun l => add_unique l base) names) base /\
              List.length (Nat.iter n (fun l => add_unique l base) names) = List.length names + n).
  { induction n as [|n [IH L]]; [split; [split; auto|cbn; lia]|].
    change (Nat.iter (S n) (fun l => add_unique l base) names)
      with (add_unique (Nat.iter n (fun l => add_unique l base) names) base).
    split; [now apply add_unique_safe|]. rewrite add_unique_length, L. lia. }
  destruct S as [[S _] L]. auto.
Qed.

Example C09_case :
  Nat.iter 3 (fun l => add_unique l "Ev") ["Ev"; "X"] = ["Ev_0"; "X"; "Ev_1"; "Ev_2"; "Ev_3"].
Proof. vm_compute. reflexivity. Qed.

(** C09 as stated is false: a list of different names and one addition give equal names. *)
Theorem C09_refuted :
  exists names base, NoDup names /\ ~ NoDup (add_unique names base).
Proof.
  exists ["a"; "a_0"], "a". split.
  - repeat constructor; cbn; intuition discriminate.
  - intros N. vm_compute in N. inversion N as [|? ? H _]; subst. apply H. cbn. auto.
Qed.

(** The same happens through additions alone, when base names are mixed. *)
Theorem C09_mixed_bases_refuted :
  exists bases, ~ NoDup (fold_left add_unique bases []).
Proof.
  exists ["a"; "a_0"; "a"]. intros N. vm_compute in N.
  inversion N as [|? ? H _]; subst. apply H. cbn. auto.
Qed.

(** C35, the general step: appending an access point keeps the names of the runnable's access
    points of that kind different exactly when the name and name_0 are not both taken. *)
Theorem C35_append_keeps_names_distinct_iff_partial :
  forall names n, NoDup names ->
    (NoDup (append_access names n) <-> ~ (In n names /\ In (n ++ "_0")%string names)).
Proof. exact append_access_nodup. Qed.

(** C35 for access points with pairwise different names, whatever their number: all names stay
    as given.  Missing: repeated names, for which the claim is false (C35_refuted). *)
Theorem C35_distinct_names_kept_partial :
  forall ns, NoDup ns -> fold_left append_access ns [] = ns.
Proof.
  intros ns N. change ns with ([] ++ ns) in N at 1. change ns with ([] ++ ns) at 2.
  generalize (@nil string) as acc, N. clear N.
  induction ns as [|x ns IH]; intros acc N; cbn [fold_left]; [now rewrite app_nil_r|].
  assert (A : append_access acc x = acc ++ [x]).
  { unfold append_access. destruct (make_unique acc x) as [l r] eqn:E.
    destruct (make_unique_effect _ _ _ _ E) as [[_ ->]|(a & b & -> & _ & _)]; [reflexivity|].
    exfalso. rewrite <- app_assoc in N. cbn in N. apply NoDup_remove in N as [_ N].
    apply N. rewrite !in_app_iff. cbn. tauto. }
  rewrite A. rewrite IH; [now rewrite <- app_assoc|]. now rewrite <- app_assoc.
Qed.

Example C35_case : fold_left append_access ["p_x"; "p_y"] [] = ["p_x"; "p_y"] /\
  fold_left append_access ["p_x"; "p_x"] [] = ["p_x_0"; "p_x"].
Proof. split; vm_compute; reflexivity. Qed.

(** C35 as stated is false: three access points of the same name leave two equal names. *)
Theorem C35_refuted : exists ns, ~ NoDup (fold_left append_access ns []).
Proof.
  exists ["p"; "p"; "p"]. intros N. vm_compute in N.
  inversion N as [|? ? H _]; subst. apply H. cbn. auto.
Qed.

Print Assumptions C08_returned_name_is_unused.
Print Assumptions C08_only_exact_match_is_renamed.
Print Assumptions C09_addition_keeps_names_distinct_iff.
Print Assumptions C09_repeated_additions_distinct_partial.
Print Assumptions C09_refuted.
Print Assumptions C09_mixed_bases_refuted.
Print Assumptions C35_append_keeps_names_distinct_iff_partial.
Print Assumptions C35_distinct_names_kept_partial.
Print Assumptions C35_refuted.
