(** Proofs about namespaces. *)
From Verif Require Import Base PBase MNames MNum MXml SXml PXml PXml2 MNs SNs.
Local Open Scope string_scope.
Ltac splits := repeat match goal with |- _ /\ _ => split end.

Lemma split_local n : name_ok n -> has_colon n = false -> split_name n = Some ("", n).
Proof. intros [N _] H. unfold split_name. rewrite H. destruct n as [|c n]; [destruct N|]. now rewrite N. Qed.
Lemma in_none l : in_namespace "" l = l.
Proof. reflexivity. Qed.

(** ** Elements without prefixes *)
Fixpoint within (u : string) (x : xml) : xml :=
  match x with Elem tag a t kids tails => Elem (in_namespace u tag) a t (map (within u) kids) tails end.
Definition default_of (env : bindings) : string := match assoc "" env with Some u => u | None => "" end.

Lemma sort_local a : (forall n v, In (n, v) a -> local_name n) -> sort_attrs a = Some ([], map (fun p => ("", fst p, snd p)) a).
Proof.
  induction a as [|[n v] a IH]; intros H; [reflexivity|]. cbn [sort_attrs map fst snd]. destruct (H n v (or_introl eq_refl)) as (M & C & X).
  rewrite split_local by assumption. rewrite IH by (intros; eapply H; right; eauto). apply String.eqb_neq in X. rewrite X. reflexivity.
Qed.
Lemma existsb_fst n (a : attrs) : existsb (fun p => String.eqb n (fst p)) a = false <-> ~ In n (map fst a).
Proof.
  induction a as [|[m v] a IH]; cbn; [intuition|]. destruct (String.eqb_spec n m) as [->|N]; cbn; [intuition|]. rewrite IH. intuition congruence.
Qed.
Lemma expand_local env a : NoDup (map fst a) -> expand_attrs env (map (fun p => ("", fst p, snd p)) a) = Some a.
Proof.
  induction a as [|[n v] a IH]; intros H; [reflexivity|]. cbn [expand_attrs map fst snd String.eqb]. cbn [map fst] in H. inversion H as [|? ? N D]; subst. rewrite IH by exact D.
  now rewrite (proj2 (existsb_fst n a) N).
Qed.
Lemma all_some_map {A B} (f : A -> option B) g l : (forall x, In x l -> f x = Some (g x)) -> all_some (map f l) = Some (map g l).
Proof. induction l as [|x l IH]; intros H; [reflexivity|]. cbn. rewrite H by now left. rewrite IH; [reflexivity|]. intros y I. apply H. now right. Qed.
Definition xml_ind' (P : xml -> Prop) (H : forall tag a t kids tails, (forall k, In k kids -> P k) -> P (Elem tag a t kids tails)) : forall x, P x :=
  fix go x := match x with
              | Elem tag a t kids tails =>
                  H tag a t kids tails ((fix all (l : list xml) : forall k, In k l -> P k :=
                    match l with
                    | [] => fun k F => match F with end
                    | y :: r => fun k I => match I with or_introl E => eq_ind y P (go y) k E | or_intror J => all r k J end
                    end) kids)
              end.
Lemma resolve_local x : local_tree x -> forall env, resolve env x = Some (within (default_of env) x).
Proof.
  induction x as [tag a t kids tails IH] using xml_ind'. intros L env. inversion L as [? ? ? ? ? N A D K]; subst. cbn [resolve within].
  rewrite sort_local by exact A. cbn [app]. unfold expand_tag. rewrite split_local by apply N. cbn [String.eqb]. rewrite expand_local by exact D.
  rewrite (all_some_map (resolve env) (within (default_of env))); [reflexivity|]. intros k I. apply IH; auto.
Qed.
Lemma strip_app p s : strip_prefix p (p ++ s) = Some s.
Proof. induction p as [|c p IH]; [reflexivity|]. cbn. now rewrite Ascii.eqb_refl. Qed.
Lemma clean_tag_local n : name_ok n -> clean_tag n = n.
Proof.
  intros [H _]. unfold clean_tag. destruct n as [|c n]; [reflexivity|]. cbn [append strip_prefix]. destruct (Ascii.eqb_spec "{" c) as [<-|]; [discriminate H|reflexivity].
Qed.
Lemma clean_within u x : u = "" \/ u = arxml_uri -> local_tree x -> clean_namespace (within u x) = x.
Proof.
  intros U. induction x as [tag a t kids tails IH] using xml_ind'. intros L. inversion L as [? ? ? ? ? N A D K]; subst. cbn [within clean_namespace]. f_equal.
  - destruct U as [->| ->]; [apply clean_tag_local, N|]. unfold in_namespace. change (clean_tag (("{" ++ arxml_uri ++ "}") ++ tag) = tag). unfold clean_tag. now rewrite strip_app.
  - rewrite map_map. rewrite <- (map_id kids) at 2. apply map_ext_in. intros k I. apply IH; auto.
Qed.
(** Elements the writer makes have no prefixes. *)
Lemma attrs_ok_local a : attrs_ok a -> (forall n v, In (n, v) a -> local_name n) /\ NoDup (map fst a).
Proof. intros [N H]. split; [|exact N]. intros n v I. now destruct (H n v I). Qed.
Lemma safe_local w : safe w -> forall step d, local_tree (element step d w).
Proof.
  induction w as [t a s|t a s ms|t a ks IH] using wt_ind'; intros H step d; inversion H as [? ? ? T A X|? ? ? ? T A X F|? ? ? T A F]; subst; cbn [element]; apply attrs_ok_local in A as [A D]; constructor; auto.
  - intros k [].
  - intros k I. apply in_map_iff in I as (m & <- & I). rewrite Forall_forall in F. destruct (F m I) as (N & B & _). apply attrs_ok_local in B as [B E]. constructor; auto. intros k [].
  - intros k I. apply in_map_iff in I as (w & <- & I). rewrite Forall_forall in *. auto.
Qed.
Lemma within_none x : within "" x = x.
Proof.
  induction x as [tag a t kids tails IH] using xml_ind'. cbn [within]. f_equal. rewrite <- (map_id kids) at 2. now apply map_ext_in.
Qed.
(** Read on their own they stay as they are. *)
Lemma safe_resolved w : safe w -> forall step d, resolve [] (element step d w) = Some (element step d w).
Proof. intros S step d. rewrite (resolve_local _ (safe_local w S step d)). now rewrite within_none. Qed.
Lemma safe_named step w t : safe w -> parse t = Ok (element step 0 w) -> parse_names t = Ok (element step 0 w).
Proof. intros S P. unfold parse_names. now rewrite P, safe_resolved. Qed.
