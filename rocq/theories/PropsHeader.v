(** C44, C45: the generated header declares the types the workspace describes, and is a well-formed
    header. *)
From Coq Require Import Permutation.
From Verif Require Import Base PBase MTypes STypes PTypes PropsTypes MHeader SHeader PHeader.

(** ** C44 *)

(** C44.  In every model that requests can build, each registered type has the name, symbol, emitter,
    native declaration, sizes, members and references of the element it is registered for. *)
Theorem C44_types_mirror_elements :
  forall l s r t, built l s -> registered s r t -> exists x, assoc r l = Some x /\ mirrors r x t.
Proof. intros l s r t B R. exact (proj2 (built_mirror l s B) r t R). Qed.

(** C44.  If the names do not collide in C, then after the generated declarations the name of every
    type that a requested type requires means the C type that its element describes; in particular
    the requested types themselves do.  (No element is at /None: packages are never elements.) *)
Theorem C44_types_as_described :
  forall l s ds, built l s -> c_names_apart s -> assoc "/None" l = None -> gen_defs s = Ok ds ->
  forall r root t, In r (im_sources s) -> registered s r root -> requires root t ->
    exists c, denotes l (dref t) c /\ c_meaning ds (dname t) = c.
Proof.
  intros l s ds B Ap NN G r root t I R Rq. pose proof (built_mirror l s B) as M.
  destruct (gen_order s) as [ts|] eqn:Go; [|unfold gen_defs in G; rewrite Go in G; discriminate].
  assert (Rt : registered s (dref t) t).
  { destruct (proj1 M _ _ R) as (Dr & _). eapply requires_registered; eauto; [apply M|]. now rewrite Dr. }
  apply (lookup_type l s M Ap ts); [now apply gen_defs_meaning|exact Rt|].
  intros NS. apply (gen_order_spec l s ts (proj1 M) Go). split; [exact NS|]. eauto.
Qed.

(** C44.  An element describes at most one type. *)
Theorem C44_described_unique :
  forall l r c c', denotes l r c -> denotes l r c' -> c' = c.
Proof. intros l r c c' D. apply (denotes_unique l r c D). Qed.

(** C44.  No name or tag is declared twice. *)
Theorem C44_declared_once :
  forall l s ds, built l s -> c_names_apart s -> gen_defs s = Ok ds -> NoDup (flat_map declares ds).
Proof.
  intros l s ds B Ap G.
  destruct (gen_order s) as [ts|] eqn:Go; [|unfold gen_defs in G; rewrite Go in G; discriminate].
  eapply (declared_once l); eauto. now apply built_mirror.
Qed.

(** C44.  There are declarations exactly if every requested type was registered and everything it
    requires can be declared: no pointers, and elements spelled out in place are of base types. *)
Theorem C44_header_exists_iff :
  forall l s, built l s ->
    (exists ds, gen_defs s = Ok ds) <->
    (forall r, In r (im_sources s) -> exists root, registered s r root /\
       forall t, requires root t -> match t with TPtr _ _ _ _ _ => False | _ => True end /\
                                    (~ somebody_elses t -> parts_are_base t)).
Proof.
  intros l s B. pose proof (built_inv l s B) as T. split.
  - intros [ds G] r I.
    destruct (gen_order s) as [ts|] eqn:Go; [|unfold gen_defs in G; rewrite Go in G; discriminate].
    assert (Tr : exists ns, trees s = Ok ns).
    { unfold gen_order in Go. destruct (trees s); [eauto|discriminate]. }
    destruct Tr as [ns Tr]. unfold trees in Tr. apply mapM_spec in Tr.
    assert (Root : exists root n, registered s r root /\ tree root = Ok n).
    { assert (I' : In r (sort_str (im_sources s))).
      { revert I. apply Permutation_in, Permutation_sym, sort_str_perm. }
      clear -Tr I'. induction Tr as [|r' m rs ms E _ IH]; [destruct I'|].
      destruct I' as [->|I']; [|auto]. destruct (assoc r (im_types s)) as [root|] eqn:A; [|discriminate]. eauto. }
    destruct Root as (root & n & R & Tn). exists root. split; [exact R|]. intros t Rq. split.
    + apply (proj1 (tree_total root)); eauto.
    + intros NS. apply (proj1 (gen_defs_total s ts Go)); [eauto|].
      apply (gen_order_spec l s ts T Go). split; [exact NS|]. exists r, root. auto.
  - intros H. destruct (gen_order_total s) as [ts Go].
    { intros r I. destruct (H r I) as (root & R & P). exists root. split; [exact R|]. intros d Rq. apply (P d Rq). }
    apply (gen_defs_total s ts Go). intros t It. apply (gen_order_spec l s ts T Go) in It as (NS & r & root & Ir & R & Rq).
    destruct (H r Ir) as (root' & R' & P). unfold registered in R, R'. rewrite R in R'. injection R' as <-.
    destruct (P t Rq). auto.
Qed.

Ltac each H := apply assoc_in in H; vm_compute in H; repeat (destruct H as [H|H]; [injection H as <- <-|]); try contradiction.

Example C44_apart : c_names_apart model1.
Proof.
  split; [|split; [|split]].
  - intros r1 t1 r2 t2 H1 H2 NS E.
    each H1; each H2; cbn in E; try reflexivity; discriminate.
  - intros r n native r2 t2 H1 H2 NS E. apply assoc_in in H1. vm_compute in H1.
    repeat (destruct H1 as [H1|H1]; [try discriminate H1; inversion H1; subst; clear H1|]); try contradiction.
    each H2; cbn in *; discriminate.
  - intros r t tag H E. each H; cbn in E; discriminate.
  - intros r n native tag H E. apply assoc_in in H. vm_compute in H.
    repeat (destruct H as [H|H]; [try discriminate H; inversion H; subst; clear H|]); try contradiction. discriminate.
Qed.

Example C44_case :
  built lib1 model1 /\ assoc "/None" lib1 = None /\ In "/T/Rec" (im_sources model1) /\
  exists ds, gen_defs model1 = Ok ds /\
    c_meaning ds "Rec" = CRecord "Rte_struct_Rec"
      [("a", CName "unsigned char"); ("b", CName "unsigned char"); ("c", CArray 4 (CName "unsigned char")); ("d", CName "Ext")].
Proof.
  split; [eexists; reflexivity|]. split; [reflexivity|]. split; [vm_compute; auto|].
  eexists. split; vm_compute; reflexivity.
Qed.
Example C44_case_described :
  denotes lib1 "/T/Rec" (CRecord "Rte_struct_Rec"
      [("a", CName "unsigned char"); ("b", CName "unsigned char"); ("c", CArray 4 (CName "unsigned char")); ("d", CName "Ext")]).
Proof.
  assert (U8 : denotes lib1 (absolute "/T/u8") (CName "unsigned char")) by (eapply d_base; [reflexivity|discriminate]).
  assert (NF : ~ foreign None) by (intros (e & X & _); discriminate).
  assert (Sp : denotes lib1 (absolute "/T/Speed") (CName "unsigned char")).
  { eapply d_value; [reflexivity|exact NF|reflexivity|exact U8]. }
  assert (Al : denotes lib1 (absolute "/T/Alias") (CName "unsigned char")).
  { eapply d_reference; [reflexivity|reflexivity|exact Sp]. }
  assert (Ar : denotes lib1 (absolute "/T/Arr") (CArray 4 (CName "unsigned char"))).
  { eapply d_array; [reflexivity| |reflexivity|].
    - intros (e & X & D). injection X as <-. apply D. reflexivity.
    - eapply d_part_reference; [reflexivity|reflexivity|reflexivity|exact Al]. }
  assert (Ex : denotes lib1 (absolute "T/Ext") (CName "Ext")).
  { eapply d_foreign; [reflexivity|exists "Other"; split; [reflexivity|discriminate]|now left]. }
  eapply (d_structure lib1 "/T/Rec" "Rec"); [reflexivity|exact NF|].
  constructor; [eapply d_part_value; [reflexivity|reflexivity|reflexivity|exact U8]|].
  constructor; [eapply d_part_reference; [reflexivity|reflexivity|reflexivity|exact Al]|].
  constructor; [eapply d_part_reference; [reflexivity|reflexivity|reflexivity|exact Ar]|].
  constructor; [eapply d_part_reference; [reflexivity|reflexivity|reflexivity|exact Ex]|]. constructor.
Qed.

(** Names that are only different as paths are not told apart: two types of one name in two packages
    give two declarations of it, and the first one's meaning is lost. *)
Definition lib2 : lib :=
  [("/A/u8", XBase "u8" (Some "unsigned char")); ("/A/u16", XBase "u16" (Some "unsigned short"));
   ("/A/T", XImpl "T" (Some "VALUE") (base_p "/A/u8") [] None None);
   ("/B/T", XImpl "T" (Some "VALUE") (base_p "/A/u16") [] None None)].
Theorem C44_same_name_refuted :
  exists l rs ds r c, all_succeed l rs /\ gen_defs (requests l rs) = Ok ds /\ In r (im_sources (requests l rs)) /\
    denotes l r c /\ option_map dname (assoc r (im_types (requests l rs))) = Some "T" /\ c_meaning ds "T" <> c /\
    ~ NoDup (flat_map declares ds).
Proof.
  exists lib2, [(5, "/A/T"); (5, "/B/T")], [CTypedef "u8" "unsigned char"; CTypedef "T" "u8"; CTypedef "u16" "unsigned short"; CTypedef "T" "u16"],
    "/A/T", (CName "unsigned char").
  split; [|split; [|split; [|split; [|split; [|split]]]]].
  - intros a q b E. destruct a as [|q1 [|q2 [|? ?]]]; try discriminate; injection E as <-; subst;
      vm_compute; eexists; reflexivity.
  - vm_compute. reflexivity.
  - vm_compute. auto.
  - eapply d_value; [reflexivity|intros (e & X & _); discriminate|reflexivity|].
    eapply d_base; [reflexivity|discriminate].
  - vm_compute. reflexivity.
  - vm_compute. discriminate.
  - cbn. intros ND. inversion ND as [|? ? _ ND2]. inversion ND2 as [|? ? N _]. apply N. cbn. auto.
Qed.

(** The symbol that an element gives for use in C never becomes a declared name. *)
Theorem C44_symbol_ignored_refuted :
  exists l rs ds n y, all_succeed l rs /\ gen_defs (requests l rs) = Ok ds /\
    assoc "/A/T" l = Some (XImpl n (Some "VALUE") (base_p "/A/u8") [] (Some y) None) /\
    In "/A/T" (im_sources (requests l rs)) /\ ~ In y (flat_map declares ds) /\ In n (flat_map declares ds).
Proof.
  exists [("/A/u8", XBase "u8" (Some "unsigned char")); ("/A/T", XImpl "T" (Some "VALUE") (base_p "/A/u8") [] (Some "T_symbol") None)],
    [(5, "/A/T")], [CTypedef "u8" "unsigned char"; CTypedef "T" "u8"], "T", "T_symbol".
  split; [|split; [|split; [|split; [|split]]]].
  - intros a q b E. destruct a as [|q1 [|? ?]]; try discriminate; injection E as <-; subst; vm_compute; eexists; reflexivity.
  - vm_compute. reflexivity.
  - reflexivity.
  - vm_compute. auto.
  - cbn. intuition discriminate.
  - cbn. auto.
Qed.

(** Arrays of arrays and arrays with an array size policy, handling or semantics can never be
    requested: whatever was requested before, the request fails. *)
Theorem C44_array_kinds_refuted :
  forall l rs fuel ref n props subs symbol emitter t,
    assoc (absolute ref) l = Some (XImpl n (Some "ARRAY") props subs symbol emitter) ->
    List.length subs <> 1 \/ (exists x, subs = [x] /\ (xs_policy x || xs_handling x || xs_semantics x = true)) ->
    snd (create fuel l (requests l rs) ref true) <> Ok t.
Proof.
  intros l rs fuel ref n props subs symbol emitter t A H E.
  assert (B : built l (requests l rs)) by (eexists; reflexivity).
  pose proof (built_mirror _ _ B) as M.
  destruct (create fuel l (requests l rs) ref true) as [s' o] eqn:C. cbn in E. subst o.
  destruct (create_inv _ _ _ _ _ _ _ (proj1 M) C) as (_ & _ & Rg & _). specialize (Rg t eq_refl).
  destruct (proj2 (create_mirror _ _ _ _ _ _ _ M C) _ _ Rg) as (x & A' & Mi).
  rewrite A in A'. injection A' as <-. cbn in Mi.
  destruct t; cbn in Mi; try contradiction; destruct Mi as (Cat & Mi); try discriminate Cat.
  destruct Mi as (_ & _ & _ & _ & y & -> & _ & _ & F1 & F2 & F3).
  destruct H as [H|(y' & Ey & H)]; [now apply H|]. injection Ey as <-. rewrite F1, F2, F3 in H. discriminate.
Qed.
Example C44_array_kinds_case :
  assoc (absolute "T/M") [("/T/M", XImpl "M" (Some "ARRAY") None
    [mkSub "e" (Some "VALUE") (base_p "/T/u8") (Some 4%Z) false false false;
     mkSub "e2" (Some "VALUE") (base_p "/T/u8") (Some 2%Z) false false false] None None); ("/T/u8", XBase "u8" None)] <> None /\
  snd (create 9 [("/T/M", XImpl "M" (Some "ARRAY") None
    [mkSub "e" (Some "VALUE") (base_p "/T/u8") (Some 4%Z) false false false;
     mkSub "e2" (Some "VALUE") (base_p "/T/u8") (Some 2%Z) false false false] None None); ("/T/u8", XBase "u8" None)] im0 "T/M" true)
  = Err AttributeError.
Proof. split; [discriminate|vm_compute; reflexivity]. Qed.

(** ** C45 *)

(** C45.  Including the header, with whatever macros are defined: its conditions are balanced; the
    first inclusion gives every type declaration once and in order, includes Rte.h before them, and
    opens as many braces as it closes; another inclusion gives nothing. *)
Theorem C45_header_inclusion :
  forall s lines macros, header s = Ok lines ->
    exists macros' code ds, gen_defs s = Ok ds /\ preprocess macros [] lines = Some (macros', code) /\
      In "RTE_TYPE_H_" macros' /\ (forall m, In m macros' <-> In m macros \/ m = "RTE_TYPE_H_") /\
      (In "RTE_TYPE_H_" macros -> code = []) /\
      (~ In "RTE_TYPE_H_" macros ->
         declarations code = ds /\
         count_occ string_dec (texts code) "{" = count_occ string_dec (texts code) "}" /\
         (exists before after, code = before ++ CodeInclude "Rte.h" :: after /\ declarations before = [] /\
            (forall f, ~ In (CodeInclude f) (before ++ after)))) /\
      preprocess macros' [] lines = Some (macros', []).
Proof.
  intros s lines macros H. unfold header in H. destruct (gen_defs s) as [ds|] eqn:G; [|discriminate].
  cbn [bind] in H. assert (El : lines = header_start ++ map HDecl ds ++ header_end) by congruence. subst lines. clear H.
  assert (NI : forall f, ~ In (CodeInclude f) (map CodeDecl ds)).
  { intros f I. apply in_map_iff in I as (d & X & _). discriminate. }
  destruct (existsb (String.eqb include_guard) macros) eqn:E.
  - exists macros, [], ds. rewrite preprocess_header, E. apply existsb_in in E. splits; auto.
    + intros m. split; [auto|]. intros [I| ->]; auto.
    + intros N. elim (N E).
  - assert (N : ~ In include_guard macros).
    { intros I. apply existsb_in in I. congruence. }
    exists (include_guard :: macros). eexists. exists ds. rewrite preprocess_header, E. split; [reflexivity|].
    split; [reflexivity|]. split; [now left|]. split; [intros m; split; [intros [<-|I]|intros [I| ->]]; cbn; auto|].
    split; [intros I; elim (N I)|]. split.
    + intros _. destruct (existsb (String.eqb "__cplusplus") macros).
      * change (CodeInclude "Rte.h" :: map CodeDecl ds) with ([CodeInclude "Rte.h"] ++ map CodeDecl ds).
        rewrite <- (app_nil_r (map CodeDecl ds)). split; [|split].
        -- cbn. now rewrite declarations_map, app_nil_r.
        -- cbn. rewrite texts_map. reflexivity.
        -- exists [], (map CodeDecl ds ++ []). split; [reflexivity|]. split; [reflexivity|]. rewrite app_nil_r. exact NI.
      * split; [|split].
        -- cbn. rewrite declarations_map. apply app_nil_r.
        -- cbn. rewrite texts_map. reflexivity.
        -- exists [CodeText extern_c; CodeText "{"], (map CodeDecl ds ++ [CodeText "}"]).
           split; [reflexivity|]. split; [reflexivity|]. intros f I.
           apply in_app_or in I as [[X|[X|[]]]|I]; try discriminate.
           apply in_app_or in I as [I|[X|[]]]; [exact (NI f I)|discriminate].
    + rewrite preprocess_header. cbn [existsb]. now rewrite String.eqb_refl.
Qed.

Example C45_case :
  exists lines, header model1 = Ok lines /\ List.length lines = 24 /\
    exists m code, preprocess [] [] lines = Some (m, code) /\ List.length (declarations code) = 6 /\
      texts code = ["extern ""C"""; "{"; "}"].
Proof. eexists. split; [vm_compute; reflexivity|]. split; [reflexivity|]. do 2 eexists. split; [vm_compute; reflexivity|]. auto. Qed.

(** C45, linkage.  The declarations should be in extern "C" for C++ and plain for C.  It is the other
    way round, for every header: a C compiler gets the linkage specification, a C++ compiler (which
    defines __cplusplus) does not. *)
Theorem C45_linkage_refuted :
  forall s lines macros macros' code, header s = Ok lines -> ~ In "RTE_TYPE_H_" macros ->
    preprocess macros [] lines = Some (macros', code) ->
    (In "extern ""C""" (texts code) <-> ~ In "__cplusplus" macros).
Proof.
  intros s lines macros macros' code H N. unfold header in H. destruct (gen_defs s) as [ds|] eqn:G; [|discriminate].
  cbn [bind] in H. assert (El : lines = header_start ++ map HDecl ds ++ header_end) by congruence. subst lines. clear H.
  rewrite preprocess_header. destruct (existsb (String.eqb include_guard) macros) eqn:E.
  { apply existsb_in in E. elim (N E). }
  destruct (existsb (String.eqb "__cplusplus") macros) eqn:P; intros X.
  - assert (Ec : code = CodeInclude "Rte.h" :: map CodeDecl ds ++ []) by (rewrite app_nil_r; congruence).
    apply existsb_in in P. split; [|intros Np; elim (Np P)].
    subst code. change (texts (CodeInclude "Rte.h" :: map CodeDecl ds ++ [])) with (texts (map CodeDecl ds ++ [])).
    rewrite texts_map. intros [].
  - injection X as _ <-. split; [|intros _; now left]. intros _ I. apply existsb_in in I. congruence.
Qed.

Print Assumptions C44_types_mirror_elements.
Print Assumptions C44_types_as_described.
Print Assumptions C44_described_unique.
Print Assumptions C44_declared_once.
Print Assumptions C44_header_exists_iff.
Print Assumptions C44_same_name_refuted.
Print Assumptions C44_symbol_ignored_refuted.
Print Assumptions C44_array_kinds_refuted.
Print Assumptions C45_header_inclusion.
Print Assumptions C45_linkage_refuted.
