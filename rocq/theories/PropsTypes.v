(** C10 - C12: type creation order, generated header, implementation model. *)
From Verif Require Import Base PBase MTypes STypes PTypes.

(** ** A concrete workspace *)

Definition no_props := mkP (mkP0 None None) None.
Definition base_p (r : string) := Some [mkP (mkP0 (Some r) None) None].
Definition impl_p (r : string) := Some [mkP (mkP0 None (Some r)) None].
Definition member (n c : string) (p : option (list xprops)) := mkSub n (Some c) p None false false false.

(** u8 and hidden are base types; Speed is a scalar, Alias a reference to it, Arr an array of
    Alias, Rec a structure using u8 directly, Alias and Arr; Ext belongs to another emitter. *)
Definition lib1 : lib :=
  [("/T/u8", XBase "u8" (Some "unsigned char")); ("/T/hidden", XBase "hidden" None);
   ("/T/Speed", XImpl "Speed" (Some "VALUE") (base_p "/T/u8") [] None None);
   ("/T/Ext", XImpl "Ext" (Some "VALUE") (base_p "/T/hidden") [] None (Some "Other"));
   ("/T/Alias", XImpl "Alias" (Some "TYPE_REFERENCE") (impl_p "/T/Speed") [] None None);
   ("/T/Arr", XImpl "Arr" (Some "ARRAY") None
       [mkSub "e" (Some "TYPE_REFERENCE") (impl_p "/T/Alias") (Some 4%Z) false false false] None (Some "Rte"));
   ("/T/Rec", XImpl "Rec" (Some "STRUCTURE") None
       [member "a" "VALUE" (base_p "/T/u8"); member "b" "TYPE_REFERENCE" (impl_p "/T/Alias");
        member "c" "TYPE_REFERENCE" (impl_p "/T/Arr"); member "d" "TYPE_REFERENCE" (impl_p "T/Ext")] None None)].

Definition model1 : imodel := requests lib1 [(9, "T/Arr"); (9, "/T/Rec"); (9, "/T/nope"); (9, "/T/Arr")].

(** ** C10 *)

(** C10.  The creation order of a type's dependency tree lists exactly the types it requires,
    and wherever a type stands, everything its declaration names stands before it. *)
Theorem C10_creation_order :
  forall t root, tree t = Ok root ->
    let order := map ndata (creation_order root) in
    (forall d, In d order <-> requires t d) /\
    (forall before x after, order = before ++ x :: after -> forall d, needs x d -> In d before).
Proof. exact creation_order_spec. Qed.

(** The tree exists unless a pointer type is required. *)
Theorem C10_tree_exists_iff :
  forall t, (exists root, tree t = Ok root) <->
    (forall d, requires t d -> match d with TPtr _ _ _ _ _ => False | _ => True end).
Proof. exact tree_total. Qed.

Example C10_case :
  option_map (fun t => match tree t with
                       | Ok root => map (fun n => dname (ndata n)) (creation_order root)
                       | Err _ => [] end) (assoc "/T/Rec" (im_types model1)) =
  Some ["u8"; "u8"; "Speed"; "Speed"; "Alias"; "hidden"; "Alias"; "Arr"; "Ext"; "Rec"].
Proof. vm_compute. reflexivity. Qed.

(** ** C11 *)

(** C11.  For every model that requests can build: the emitted types are pairwise different,
    are exactly the types required by the requested roots that are not somebody else's, and
    every type comes after the types its declaration names. *)
Theorem C11_emission_order :
  forall l s out, built l s -> gen_order s = Ok out ->
    NoDup (map dref out) /\
    (forall t, In t out <->
       ~ somebody_elses t /\
       exists r root, In r (im_sources s) /\ registered s r root /\ requires root t) /\
    (forall before x after, out = before ++ x :: after ->
       forall d, needs x d -> ~ somebody_elses d -> In d before).
Proof. intros l s out B. apply (gen_order_spec l). now apply built_inv. Qed.

(** The source types are those requested by the caller (never those created as parts), when
    the reference names an element and no type was registered for it yet. *)
Theorem C11_sources_are_the_requests :
  forall l rs r, (forall q, In q rs -> 0 < fst q) ->
    (In r (im_sources (requests l rs)) <->
     exists earlier q later, rs = earlier ++ q :: later /\ r = absolute (snd q) /\
       assoc r (im_types (requests l earlier)) = None /\ exists x, assoc r l = Some x).
Proof. exact sources_exact. Qed.

(** The same for the declarations themselves: every type name a declaration mentions was
    declared above it, or is the native spelling of a base type, or is the name of a type that
    somebody else declares. *)
Theorem C11_declared_before_use :
  forall l s ds, built l s -> gen_defs s = Ok ds ->
    forall before d after, ds = before ++ d :: after -> forall u, In u (uses d) ->
      (exists c, In c before /\ In u (declares c)) \/
      (exists r n, registered s r (TBase r n (Some u))) \/
      (exists r t, registered s r t /\ somebody_elses t /\ dname t = u).
Proof. intros l s ds B. apply (gen_defs_spec l). now apply built_inv. Qed.

(** Generation does not fail when all requests succeeded and no pointer type is required. *)
Theorem C11_generation_succeeds :
  forall l rs, all_succeed l rs ->
    (forall r t d, registered (requests l rs) r t -> requires t d ->
       match d with TPtr _ _ _ _ _ => False | _ => True end) ->
    exists out, gen_order (requests l rs) = Ok out.
Proof.
  intros l rs A P. apply gen_order_total. intros r I.
  destruct (sources_registered l rs A r I) as (t & R). exists t. split; auto. intros d. eapply P; eauto.
Qed.

(** A requested type is emitted (unless it is somebody else's), provided it had not been created
    before as a part of another type.  Missing: types created before, for which the claim is
    false (C11_requested_type_missing_refuted). *)
Theorem C11_requested_type_is_emitted_partial :
  forall l a q b t out,
    snd (create (fst q) l (requests l a) (snd q) true) = Ok t ->
    assoc (absolute (snd q)) (im_types (requests l a)) = None ->
    gen_order (requests l (a ++ q :: b)) = Ok out ->
    ~ somebody_elses t -> In t out.
Proof.
  intros l a q b t out E U G NS.
  assert (Ta : TInv l (requests l a)) by (apply built_inv; eexists; eauto).
  destruct (create (fst q) l (requests l a) (snd q) true) as [s' o] eqn:C. cbn in E. subst o.
  assert (S' : requests l (a ++ [q]) = s') by (rewrite requests_snoc, C; reflexivity).
  assert (Eq : a ++ q :: b = (a ++ [q]) ++ b) by (now rewrite <- app_assoc).
  assert (Src : In (absolute (snd q)) (im_sources s')).
  { edestruct create_source as [(t' & R & _)|[_ I]]; [exact C|discriminate|discriminate|exact Ta| |exact I].
    unfold registered in R. congruence. }
  assert (Rg : registered s' (absolute (snd q)) t).
  { destruct (create_inv _ _ _ _ _ _ _ Ta C) as (_ & _ & Rg & _). now apply Rg. }
  rewrite Eq in G. rewrite <- S' in Src, Rg.
  assert (B : built l (requests l ((a ++ [q]) ++ b))) by (eexists; reflexivity).
  apply (proj1 (proj2 (C11_emission_order l _ out B G))). split; auto.
  exists (absolute (snd q)), t. split; [now apply requests_sources_mono|].
  split; [now apply requests_app_keeps|constructor].
Qed.

Example C11_case :
  built lib1 model1 /\ im_sources model1 = ["/T/Arr"; "/T/Rec"] /\
  (exists out, gen_order model1 = Ok out /\ map dname out = ["u8"; "Speed"; "Alias"; "Arr"; "Rec"]) /\
  gen_defs model1 = Ok
    [CTypedef "u8" "unsigned char"; CTypedef "Speed" "u8"; CTypedef "Alias" "Speed";
     CTypedefArray "Arr" "Alias" 4;
     CStruct "Rte_struct_Rec" [("a", "unsigned char"); ("b", "Alias"); ("c", "Arr"); ("d", "Ext")];
     CTypedefStruct "Rec" "Rte_struct_Rec"].
Proof.
  split; [eexists; reflexivity|]. split; [vm_compute; reflexivity|].
  split; [|vm_compute; reflexivity].
  destruct (gen_order model1) as [out|] eqn:E; [|vm_compute in E; discriminate].
  exists out. split; auto. vm_compute in E. injection E as <-. vm_compute. reflexivity.
Qed.

Example C11_case_succeeds : all_succeed lib1 [(9, "T/Arr"); (9, "/T/Rec")].
Proof.
  intros a q b E. destruct a as [|q1 [|q2 [|? ?]]]; try discriminate; injection E as <-; subst;
    vm_compute; eexists; reflexivity.
Qed.

(** C11 as stated ("misses nothing else") is false.  A base type that is requested after a
    structure which uses it directly is never emitted; requested first, it is. *)
Theorem C11_requested_type_missing_refuted :
  exists l rs r t out,
    all_succeed l rs /\ In r (map snd rs) /\ registered (requests l rs) r t /\ ~ somebody_elses t /\
    gen_order (requests l rs) = Ok out /\ ~ In t out.
Proof.
  exists [("/B", XBase "B" (Some "int"));
          ("/R", XImpl "R" (Some "STRUCTURE") None [member "m" "VALUE" (base_p "/B")] None None)].
  exists [(5, "/R"); (5, "/B")], "/B", (TBase "/B" "B" (Some "int")). eexists.
  split; [|split; [|split; [|split; [|split]]]].
  - intros a q b E. destruct a as [|q1 [|q2 [|? ?]]]; try discriminate; injection E as <-; subst;
      vm_compute; eexists; reflexivity.
  - cbn. auto.
  - vm_compute. reflexivity.
  - cbn. intuition discriminate.
  - vm_compute. reflexivity.
  - cbn. intuition discriminate.
Qed.

(** A request that fails half-way leaves the generator unusable, although its caller handled
    the error: the reference stays among the requested ones. *)
Theorem C11_failed_request_breaks_generator_refuted :
  exists l rs, gen_order (requests l rs) = Err KeyError /\
    exists r t, registered (requests l rs) r t /\ ~ somebody_elses t.
Proof.
  exists [("/B", XBase "B" (Some "int"));
          ("/S", XImpl "S" (Some "VALUE") (base_p "/nope") [] None None)].
  exists [(5, "/B"); (5, "/S")]. split; [vm_compute; reflexivity|].
  exists "/B", (TBase "/B" "B" (Some "int")). split; [vm_compute; reflexivity|].
  cbn. intuition discriminate.
Qed.

(** The type emitter of a reference type is ignored. *)
Theorem C11_reference_emitter_ignored_refuted :
  exists l rs n out, all_succeed l rs /\ gen_order (requests l rs) = Ok out /\ In n (map dname out) /\
    (exists cat p subs sym, assoc "/A" l = Some (XImpl n cat p subs sym (Some "SOMEONE_ELSE"))).
Proof.
  exists [("/B", XBase "B" (Some "int"));
          ("/S", XImpl "S" (Some "VALUE") (base_p "/B") [] None None);
          ("/A", XImpl "A" (Some "TYPE_REFERENCE") (impl_p "/S") [] None (Some "SOMEONE_ELSE"))].
  exists [(5, "/A")], "A". eexists. split; [|split; [|split]].
  - intros a q b E. destruct a as [|q1 [|? ?]]; try discriminate; injection E as <-; subst;
      vm_compute; eexists; reflexivity.
  - vm_compute. reflexivity.
  - cbn. auto.
  - do 4 eexists. vm_compute. reflexivity.
Qed.

(** ** C12 *)

(** C12, never replaced: later requests, failing or not, leave registered types as they are;
    so does a single call in any state reached. *)
Theorem C12_registered_types_are_kept :
  forall l rs rs', keeps_types (requests l rs) (requests l (rs ++ rs')).
Proof. exact requests_app_keeps. Qed.

Theorem C12_call_keeps_registered_types :
  forall l s fuel ref src s' o, built l s -> create fuel l s ref src = (s', o) -> keeps_types s s'.
Proof. intros l s f ref src s' o B E. apply (create_inv l f s ref src s' o (built_inv l s B) E). Qed.

(** C12, same object: a call that returned a type registered it under its reference, and any
    further call for the reference returns that type and changes nothing. *)
Theorem C12_second_call_returns_same :
  forall l s fuel ref src s' t, built l s -> create fuel l s ref src = (s', Ok t) ->
    registered s' (absolute ref) t /\
    forall fuel' src', create (S fuel') l s' ref src' = (s', Ok t).
Proof.
  intros l s f ref src s' t B E.
  destruct (create_inv l f s ref src s' _ (built_inv l s B) E) as (_ & _ & R & _).
  specialize (R t eq_refl). split; auto. intros g src'. destruct f as [|f]; [discriminate|].
  cbn [create] in *. destruct (lib_find l ref) as [[k x]|] eqn:F; [|discriminate].
  destruct (lib_find_spec _ _ _ _ F) as [-> _]. unfold create_elem. unfold registered in R. now rewrite R.
Qed.

(** C12, complete: every type a registered type is built from, at any depth, is registered
    under its own reference. *)
Theorem C12_parts_are_registered :
  forall l s r t d, built l s -> registered s r t -> contains t d ->
    dref t = r /\ registered s (dref d) d.
Proof.
  intros l s r t d B R C. pose proof (built_inv l s B) as T. split; [now apply (T r t)|].
  assert (R' : registered s (dref t) t) by (destruct (T r t R) as (-> & _); exact R).
  clear R r. induction C as [t|t d u Bf C IH]; [auto|]. apply IH.
  destruct (T _ _ R') as (_ & H & _). now apply H.
Qed.

(** References that only lead downwards: the recursion ends (with any bound above the rank). *)
Theorem C12_acyclic_terminates :
  forall l (rank : string -> nat), (forall k m, edge l k m -> rank m < rank k) ->
  forall fuel s ref src, rank (absolute ref) < fuel -> snd (create fuel l s ref src) <> Err OutOfFuel.
Proof. exact create_terminates. Qed.

(** A type that refers to itself, directly or through others, is never created: the call does
    not return a type, whatever the recursion bound, and nothing on the cycle is registered. *)
Theorem C12_recursive_types_never_created :
  forall l s k m, built l s -> xreach l k m -> (exists n, edge l m n /\ xreach l n m) ->
    assoc k (im_types s) = None.
Proof.
  intros l s k m [rs ->] R0 (n & E & R).
  pose (C := fun j => xreach l j m).
  assert (HC : forall j, C j -> exists i, edge l j i /\ C i).
  { intros j Cj. inversion Cj as [j'|j' i j'' Ei Ri]; subst; [exists n; split; auto|exists i; split; auto]. }
  assert (U : forall j, C j -> unreg (requests l rs) j).
  { induction rs as [|q rs IH] using rev_ind; [intros j _; reflexivity|].
    rewrite requests_snoc. destruct (create _ _ _ _ _) as [s' o] eqn:Cr. cbn.
    exact (proj1 (create_cycle l C HC _ _ _ _ _ _ IH Cr)). }
  exact (U k R0).
Qed.

Example C12_case :
  built lib1 model1 /\ (exists t, registered model1 "/T/Rec" t /\ contains t (TBase "/T/hidden" "hidden" None)) /\
  (forall k m, edge lib1 k m ->
     (fun k => if String.eqb k "/T/Rec" then 4 else if String.eqb k "/T/Arr" then 3
               else if String.eqb k "/T/Alias" then 2 else if String.eqb k "/T/u8" then 0
               else if String.eqb k "/T/hidden" then 0 else 1) m <
     (fun k => if String.eqb k "/T/Rec" then 4 else if String.eqb k "/T/Arr" then 3
               else if String.eqb k "/T/Alias" then 2 else if String.eqb k "/T/u8" then 0
               else if String.eqb k "/T/hidden" then 0 else 1) k).
Proof.
  split; [eexists; reflexivity|]. split.
  - destruct (assoc "/T/Rec" (im_types model1)) as [t|] eqn:E; [|vm_compute in E; discriminate].
    exists t. split; [exact E|]. vm_compute in E. injection E as <-.
    eapply con_step.
    + apply bf_needs. eapply needs_record. right; right; right; left. reflexivity.
    + eapply con_step; [apply bf_needs, needs_scalar|apply con_self].
  - intros k m (x & q & A & I & ->). unfold lib1 in A. cbn [assoc] in A.
    repeat match type of A with
    | (if String.eqb k ?s then _ else _) = _ =>
        destruct (String.eqb_spec k s) as [->|_];
        [injection A as <-; cbn in I; intuition subst; vm_compute; lia|]
    end. discriminate.
Qed.

(** A recursive structure. *)
Example C12_case_recursive :
  let l := [("/N", XImpl "N" (Some "STRUCTURE") None [member "next" "TYPE_REFERENCE" (impl_p "/N")] None None)] in
  xreach l "/N" "/N" /\ exists n, edge l "/N" n /\ xreach l n "/N".
Proof.
  split; [constructor|]. exists "/N". split; [|constructor].
  eexists. exists "/N". split; [reflexivity|]. cbn. auto.
Qed.

Print Assumptions C10_creation_order.
Print Assumptions C10_tree_exists_iff.
Print Assumptions C11_emission_order.
Print Assumptions C11_sources_are_the_requests.
Print Assumptions C11_declared_before_use.
Print Assumptions C11_generation_succeeds.
Print Assumptions C11_requested_type_is_emitted_partial.
Print Assumptions C11_requested_type_missing_refuted.
Print Assumptions C11_failed_request_breaks_generator_refuted.
Print Assumptions C11_reference_emitter_ignored_refuted.
Print Assumptions C12_registered_types_are_kept.
Print Assumptions C12_call_keeps_registered_types.
Print Assumptions C12_second_call_returns_same.
Print Assumptions C12_parts_are_registered.
Print Assumptions C12_acyclic_terminates.
Print Assumptions C12_recursive_types_never_created.
