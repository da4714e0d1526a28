(** Proofs about the reader's bookkeeping and warnings. *)
From Verif Require Import Base PBase MNum MXml MReport SReport.
Open Scope list_scope.
Open Scope string_scope.

(** ** The map of children *)
Lemma NoDup_app_single {A} (l : list A) x : NoDup l -> ~ In x l -> NoDup (l ++ [x])%list.
Proof. intros N I. apply NoDup_Add with (a := x) (l := l); [apply Add_app_end||(rewrite <- (app_nil_r l) at 1; apply Add_app)|now split]. Qed.
Lemma assoc_app {A} k (m n : list (string * A)) : assoc k (m ++ n)%list = match assoc k m with Some a => Some a | None => assoc k n end.
Proof. induction m as [|[t a] m IH]; cbn; [reflexivity|]. destruct (String.eqb k t); auto. Qed.
Fixpoint first_of (tag : string) (kids : list located) : option located :=
  match kids with [] => None | c :: r => if String.eqb tag (l_tag c) then Some c else first_of tag r end.
Definition elem_of (tag : string) (m : child_map) : option located := option_map w_elem (assoc tag m).
Lemma fill_elem tag kids m : elem_of tag (fill kids m) = match elem_of tag m with Some c => Some c | None => first_of tag kids end.
Proof.
  revert m. induction kids as [|c kids IH]; intros m; cbn [fill first_of]; [now destruct (elem_of tag m)|].
  rewrite IH. unfold elem_of. destruct (assoc (l_tag c) m) as [w|] eqn:E.
  - destruct (String.eqb_spec tag (l_tag c)) as [->|N]; [now rewrite E|reflexivity].
  - rewrite assoc_app. cbn [assoc]. destruct (assoc tag m) as [a|] eqn:F; cbn [option_map]; [reflexivity|]. now destruct (String.eqb tag (l_tag c)).
Qed.
Lemma touch_elem tag t m : elem_of tag (touch t m) = elem_of tag m.
Proof.
  unfold elem_of. induction m as [|[u w] m IH]; cbn; [reflexivity|]. destruct (String.eqb t u); cbn; destruct (String.eqb tag u); auto.
Qed.
Lemma get_elem t m : fst (map_get t m) = elem_of t m.
Proof. unfold map_get, elem_of. now destruct (assoc t m). Qed.
Lemma access_elem tag t m : elem_of tag (snd (map_get t m)) = elem_of tag m /\ elem_of tag (map_skip t m) = elem_of tag m.
Proof. unfold map_get, map_skip. destruct (assoc t m); cbn; split; auto using touch_elem. Qed.
Definition answers (steps : list access) (f : string -> option located) : list (option located) :=
  List.concat (map (fun a => match a with Get t => [f t] | Skip _ => [] end) steps).
Lemma accesses_answers steps m : fst (accesses steps m) = answers steps (fun t => elem_of t m).
Proof.
  revert m. induction steps as [|[t|t] steps IH]; intros m; cbn [accesses]; [reflexivity| |].
  - destruct (map_get t m) as [x m1] eqn:G. specialize (IH m1). destruct (accesses steps m1) as [xs m2]. cbn [fst] in *. unfold answers in *. cbn [map List.concat List.app].
    pose proof (get_elem t m) as E. rewrite G in E. cbn in E. rewrite E, IH. f_equal. f_equal. apply map_ext. intros [u|u]; [|reflexivity].
    pose proof (proj1 (access_elem u t m)) as A. rewrite G in A. cbn in A. now rewrite A.
  - rewrite IH. unfold answers. cbn [map List.concat List.app]. f_equal. apply map_ext. intros [u|u]; [|reflexivity]. now rewrite (proj2 (access_elem u t m)).
Qed.

(** Which entries are left *)
Definition untouched (m : child_map) : list located := map (fun e => w_elem (snd e)) (filter (fun e => negb (w_accessed (snd e))) m).
Definition proper (m : child_map) : Prop := NoDup (map fst m) /\ forall t w, In (t, w) m -> t = l_tag (w_elem w).
Lemma assoc_none_in {A} k (m : list (string * A)) : assoc k m = None <-> ~ In k (map fst m).
Proof.
  induction m as [|[t a] m IH]; cbn; [tauto|]. destruct (String.eqb_spec k t) as [->|N]; split; intros H; try discriminate.
  - exfalso. apply H. now left.
  - intros [E|E]; [now apply N|]. now apply IH in H.
  - apply IH. auto.
Qed.
Lemma fill_proper kids m : proper m -> proper (fill kids m).
Proof.
  revert m. induction kids as [|c kids IH]; intros m [N T]; cbn [fill]; [now split|]. apply IH. destruct (assoc (l_tag c) m) eqn:E; [now split|]. split.
  - rewrite map_app. cbn. apply NoDup_app_single; [exact N|now apply assoc_none_in].
  - intros t w I. apply in_app_iff in I as [I|[[= <- <-]|[]]]; auto.
Qed.
Lemma touch_keys t m : map fst (touch t m) = map fst m.
Proof. induction m as [|[u w] m IH]; cbn; [reflexivity|]. destruct (String.eqb t u); cbn; congruence. Qed.
Lemma touch_proper t m : proper m -> proper (touch t m).
Proof.
  intros [N T]. split; [now rewrite touch_keys|]. clear N. revert T. induction m as [|[u w] m IH]; cbn; intros T v x I; [contradiction|].
  destruct (String.eqb t u).
  - destruct I as [[= <- <-]|I]; [cbn; apply (T u w); now left|apply T; now right].
  - destruct I as [[= <- <-]|I]; [apply (T u w); now left|]. apply IH; [|exact I]. intros; apply T; now right.
Qed.
(** State of an entry *)
Definition state_of (tag : string) (m : child_map) : option bool := option_map w_accessed (assoc tag m).
Lemma touch_state tag t m : state_of tag (touch t m) = if String.eqb t tag then option_map (fun _ => true) (state_of tag m) else state_of tag m.
Proof.
  unfold state_of. induction m as [|[u w] m IH]; cbn; [now destruct (String.eqb t tag)|].
  destruct (String.eqb_spec t u) as [->|N]; cbn; destruct (String.eqb_spec tag u) as [->|M]; cbn.
  - now rewrite String.eqb_refl.
  - destruct (String.eqb_spec u tag); [congruence|reflexivity].
  - destruct (String.eqb_spec t u); [congruence|reflexivity].
  - exact IH.
Qed.
Lemma skip_touch t m : map_skip t m = touch t m.
Proof.
  unfold map_skip. destruct (assoc t m) eqn:E; [reflexivity|]. apply assoc_none_in in E. induction m as [|[u w] m IH]; cbn in *; [reflexivity|].
  destruct (String.eqb_spec t u) as [->|N]; [exfalso; apply E; now left|]. f_equal. apply IH. tauto.
Qed.
Lemma get_touch t m : snd (map_get t m) = touch t m.
Proof. rewrite <- skip_touch. unfold map_get, map_skip. now destruct (assoc t m). Qed.
Definition tag_of (a : access) : string := match a with Get t => t | Skip t => t end.
Lemma accesses_touch steps m : snd (accesses steps m) = fold_left (fun m a => touch (tag_of a) m) steps m.
Proof.
  revert m. induction steps as [|[t|t] steps IH]; intros m; cbn [accesses fold_left tag_of]; [reflexivity| |].
  - rewrite <- get_touch. destruct (map_get t m) as [x m1]. cbn [snd]. rewrite <- IH. now destruct (accesses steps m1).
  - now rewrite IH, skip_touch.
Qed.
Lemma asked_tags steps tag : asked_for steps tag <-> In tag (map tag_of steps).
Proof.
  unfold asked_for. rewrite in_map_iff. split.
  - intros [H|H]; [exists (Get tag)|exists (Skip tag)]; auto.
  - intros ([t|t] & <- & I); auto.
Qed.
Lemma touches_proper steps m : proper m -> proper (fold_left (fun m a => touch (tag_of a) m) steps m).
Proof. revert m. induction steps as [|a steps IH]; cbn; intros m P; [exact P|]. apply IH. now apply touch_proper. Qed.
Lemma touches_elem tag steps m : elem_of tag (fold_left (fun m a => touch (tag_of a) m) steps m) = elem_of tag m.
Proof. revert m. induction steps as [|a steps IH]; cbn; intros m; [reflexivity|]. rewrite IH. apply touch_elem. Qed.
Lemma touches_state tag steps m : state_of tag (fold_left (fun m a => touch (tag_of a) m) steps m) =
  if existsb (String.eqb tag) (map tag_of steps) then option_map (fun _ => true) (state_of tag m) else state_of tag m.
Proof.
  revert m. induction steps as [|a steps IH]; cbn [fold_left map existsb]; intros m; [reflexivity|]. rewrite IH, touch_state, (String.eqb_sym (tag_of a)).
  destruct (String.eqb tag (tag_of a)); cbn [orb]; [|reflexivity]. destruct (existsb _ _); [|reflexivity]. destruct (state_of tag m); reflexivity.
Qed.
Lemma fill_state tag kids m : state_of tag (fill kids m) = match state_of tag m with Some b => Some b | None => option_map (fun _ => false) (first_of tag kids) end.
Proof.
  revert m. induction kids as [|c kids IH]; intros m; cbn [fill first_of]; [now destruct (state_of tag m)|].
  rewrite IH. unfold state_of. destruct (assoc (l_tag c) m) as [w|] eqn:E.
  - destruct (String.eqb_spec tag (l_tag c)) as [->|N]; [now rewrite E|reflexivity].
  - rewrite assoc_app. cbn [assoc]. destruct (assoc tag m) as [a|] eqn:F; cbn [option_map]; [reflexivity|]. now destruct (String.eqb tag (l_tag c)).
Qed.
Lemma first_of_spec tag kids c : first_of tag kids = Some c <-> l_tag c = tag /\ exists before after, kids = (before ++ c :: after)%list /\ ~ In (l_tag c) (map l_tag before).
Proof.
  induction kids as [|d kids IH]; cbn [first_of].
  - split; [discriminate|]. intros (_ & b & a & E & _). now destruct b.
  - destruct (String.eqb_spec tag (l_tag d)) as [->|N].
    + split.
      * intros [= <-]. split; [reflexivity|]. exists [], kids. split; [reflexivity|intros []].
      * intros (T & b & a & E & F). destruct b as [|x b]; [now injection E as <- <-|]. injection E as E1 E2. subst x. exfalso. apply F. left. now rewrite T.
    + rewrite IH. split.
      * intros (T & b & a & -> & F). split; [exact T|]. exists (d :: b), a. split; [reflexivity|]. intros [H|H]; [|contradiction]. apply N. congruence.
      * intros (T & b & a & E & F). split; [exact T|]. destruct b as [|x b]; [injection E as <- <-; congruence|]. injection E as <- ->. exists b, a. split; [reflexivity|]. intros H. apply F. now right.
Qed.
Lemma assoc_in_iff {A} k (a : A) m : NoDup (map fst m) -> (assoc k m = Some a <-> In (k, a) m).
Proof.
  induction m as [|[t b] m IH]; cbn; intros N; [split; [discriminate|intros []]|]. inversion N as [|? ? N1 N2]; subst.
  destruct (String.eqb_spec k t) as [->|M].
  - split; [intros [= ->]; now left|]. intros [[= ->]|I]; [reflexivity|]. exfalso. apply N1. apply in_map_iff. now exists (t, a).
  - rewrite IH by assumption. split; [now right|]. intros [[= <- _]|I]; [congruence|exact I].
Qed.
Lemma untouched_iff m c : proper m -> (In c (untouched m) <-> elem_of (l_tag c) m = Some c /\ state_of (l_tag c) m = Some false).
Proof.
  intros [N T]. unfold untouched, elem_of, state_of. rewrite in_map_iff. split.
  - intros ([t w] & <- & I). apply filter_In in I as [I F]. cbn in *. pose proof (T t w I) as E. subst t. apply (assoc_in_iff _ _ _ N) in I. rewrite I. cbn. destruct (w_accessed w); [discriminate|auto].
  - intros [A B]. destruct (assoc (l_tag c) m) as [w|] eqn:E; [|discriminate]. cbn in A, B. injection A as A. injection B as B. exists (l_tag c, w). split; [exact A|]. apply filter_In. split; [now apply (assoc_in_iff _ _ _ N)|]. cbn. now rewrite B.
Qed.
Lemma untouched_nodup m : proper m -> NoDup (map l_tag (untouched m)).
Proof.
  intros [N T]. unfold untouched. rewrite map_map. assert (E : map (fun x => l_tag (w_elem (snd x))) (filter (fun e => negb (w_accessed (snd e))) m) = map fst (filter (fun e => negb (w_accessed (snd e))) m)).
  { apply map_ext_in. intros [t w] I. apply filter_In in I as [I _]. symmetry. exact (T t w I). }
  rewrite E. clear E T. induction m as [|[t w] m IH]; cbn; [constructor|]. inversion N; subst. destruct (negb (w_accessed w)); cbn; auto. constructor; auto.
  intros I. apply H1. apply in_map_iff in I as (x & <- & I). apply filter_In in I as [I _]. now apply in_map.
Qed.
Definition left_over (v : visit) : list located :=
  match v with Through kids steps => untouched (snd (accesses steps (new_child_map kids))) | Unknown c => [c] end.
Lemma left_over_iff v c : In c (left_over v) <-> passed_over v c.
Proof.
  destruct v as [kids steps|d]; cbn [left_over passed_over]; [|cbn; intuition congruence].
  assert (P : proper (fill kids [])) by (apply fill_proper; split; [constructor|intros ? ? []]).
  rewrite accesses_touch. unfold new_child_map. rewrite untouched_iff by (now apply touches_proper). rewrite touches_elem, touches_state, fill_elem, fill_state. cbn [elem_of state_of assoc option_map].
  split.
  - intros [A B]. pose proof A as F. rewrite A in B. cbn in B. apply first_of_spec in A as (_ & b & a & E & N). exists b, a. split; [exact E|]. split; [exact N|]. rewrite asked_tags. intros I.
    destruct (existsb (String.eqb (l_tag c)) (map tag_of steps)) eqn:X; [discriminate|].
    assert (Y : existsb (String.eqb (l_tag c)) (map tag_of steps) = true) by (apply existsb_exists; exists (l_tag c); split; [exact I|apply String.eqb_refl]). congruence.
  - intros (b & a & E & N & Q). assert (A : first_of (l_tag c) kids = Some c) by (apply first_of_spec; split; [reflexivity|]; now exists b, a). rewrite A. split; [reflexivity|]. cbn.
    destruct (existsb (String.eqb (l_tag c)) (map tag_of steps)) eqn:X; [|reflexivity]. exfalso. apply Q. apply asked_tags. apply existsb_exists in X as (t & I & Y). apply String.eqb_eq in Y. now subst.
Qed.
Lemma left_over_nodup v : NoDup (map l_tag (left_over v)).
Proof.
  destruct v as [kids steps|d]; cbn [left_over]; [|repeat constructor; intros []]. apply untouched_nodup. rewrite accesses_touch. apply touches_proper. apply fill_proper. split; [constructor|intros ? ? []].
Qed.

(** ** Reports *)
Lemma report_all_app l k r : report_all (l ++ k)%list r = let '(r1, o1) := report_all l r in let '(r2, o2) := report_all k r1 in (r2, (o1 ++ o2)%list).
Proof.
  revert r. induction l as [|c l IH]; intros r; cbn [report_all List.app]; [now destruct (report_all k r)|].
  destruct (report_element c r) as [r1 o1]. rewrite IH. destruct (report_all l r1) as [r2 o2]. destruct (report_all k r2) as [r3 o3]. now rewrite app_assoc.
Qed.
Lemma run_visits_all l r : run_visits l r = report_all (List.concat (map left_over l)) r.
Proof.
  revert r. induction l as [|v l IH]; intros r; cbn [run_visits map List.concat]; [reflexivity|]. rewrite report_all_app.
  assert (E : run_visit v r = report_all (left_over v) r).
  { destruct v as [kids steps|c]; [reflexivity|]. cbn. destruct (report_element c r) as [r1 o1]. now rewrite app_nil_r. }
  rewrite E. destruct (report_all (left_over v) r) as [r1 o1]. now rewrite IH.
Qed.
(** The first element of each name that is not in [seen] *)
Fixpoint firsts (seen : list string) (l : list located) : list located :=
  match l with [] => [] | c :: r => if existsb (String.eqb (l_tag c)) seen then firsts seen r else c :: firsts (l_tag c :: seen) r end.
Definition place_of (r : reader) : option string := match r_path r with Some p => Some (if r_full r then p else shown (r_base r)) | None => None end.
Lemma report_all_firsts l r : let '(r', out) := report_all l r in
  out = (if r_warn r then map (warning (place_of r)) (firsts (r_observed r) l) else []) /\ r_path r' = r_path r /\ r_base r' = r_base r /\ r_warn r' = r_warn r /\ r_full r' = r_full r.
Proof.
  revert r. induction l as [|c l IH]; intros r; cbn [report_all firsts]; [now destruct (r_warn r)|].
  unfold report_element. destruct (existsb (String.eqb (l_tag c)) (r_observed r)).
  - specialize (IH r). destruct (report_all l r) as [r2 o2]. exact IH.
  - specialize (IH (with_observed r (l_tag c :: r_observed r))). destruct (report_all l _) as [r2 o2]. destruct IH as (-> & A & B & C & D). cbn in *.
    split; [|now repeat split]. unfold place_of, warning. cbn. destruct (r_warn r); [|reflexivity]. destruct (r_path r); reflexivity.
Qed.
Lemma existsb_in t l : existsb (String.eqb t) l = true <-> In t l.
Proof. rewrite existsb_exists. split; [intros (x & I & E); apply String.eqb_eq in E; now subst|intros I; exists t; split; [exact I|apply String.eqb_refl]]. Qed.
Lemma firsts_spec seen l : NoDup (map l_tag (firsts seen l)) /\
  (forall c, In c (firsts seen l) -> ~ In (l_tag c) seen /\ exists a b, l = (a ++ c :: b)%list /\ ~ In (l_tag c) (map l_tag a)) /\
  (forall c, In c l -> ~ In (l_tag c) seen -> In (l_tag c) (map l_tag (firsts seen l))).
Proof.
  revert seen. induction l as [|d l IH]; intros seen; cbn [firsts]; [split; [constructor|split; intros ? []]|].
  - destruct (existsb (String.eqb (l_tag d)) seen) eqn:X.
    + apply existsb_in in X. destruct (IH seen) as (N & A & B). split; [exact N|]. split.
      * intros c I. destruct (A c I) as (S & a & b & -> & F). split; [exact S|]. exists (d :: a), b. split; [reflexivity|]. intros [H|H]; [|contradiction]. rewrite H in X. contradiction.
      * intros c [<-|I] S; [contradiction|auto].
    + assert (Y : ~ In (l_tag d) seen) by (rewrite <- existsb_in; congruence). destruct (IH (l_tag d :: seen)) as (N & A & B). split; [|split].
      * cbn. constructor; [|exact N]. intros I. apply in_map_iff in I as (c & E & I). destruct (A c I) as [S _]. apply S. left. congruence.
      * intros c [<-|I]; [split; [exact Y|]; exists [], l; split; [reflexivity|intros []]|]. destruct (A c I) as (S & a & b & -> & F). split; [intros H; apply S; now right|].
        exists (d :: a), b. split; [reflexivity|]. intros [H|H]; [|contradiction]. apply S. now left.
      * intros c I S. destruct (String.eqb_spec (l_tag c) (l_tag d)) as [E|M]; [left; congruence|]. destruct I as [<-|I]; [congruence|]. right. apply B; [exact I|]. intros [H|H]; [congruence|contradiction].
Qed.
Lemma in_concat_split {A B} (f : A -> list B) l a c b : List.concat (map f l) = (a ++ c :: b)%list ->
  exists before v after x y, l = (before ++ v :: after)%list /\ f v = (x ++ c :: y)%list /\ a = (List.concat (map f before) ++ x)%list.
Proof.
  revert a. induction l as [|v l IH]; cbn; intros a E; [now destruct a|].
  destruct (Nat.lt_ge_cases (List.length a) (List.length (f v))) as [L|L].
  - exists [], v, l. assert (F : f v = (firstn (List.length (f v)) (a ++ c :: b))%list) by (rewrite <- E, firstn_app, Nat.sub_diag, firstn_all; cbn; now rewrite app_nil_r).
    rewrite firstn_app in F. rewrite firstn_all2 in F by lia. destruct (List.length (f v) - List.length a)%nat as [|n] eqn:M; [lia|]. cbn in F. exists a, (firstn n b). repeat split. exact F.
  - assert (F : a = (f v ++ skipn (List.length (f v)) a)%list).
    { assert (G : firstn (List.length (f v)) (a ++ c :: b) = f v) by (rewrite <- E, firstn_app, Nat.sub_diag, firstn_all; cbn; now rewrite app_nil_r).
      rewrite firstn_app in G. replace (List.length (f v) - List.length a)%nat with 0%nat in G by lia. cbn in G. rewrite app_nil_r in G. rewrite <- G at 1. now rewrite firstn_skipn. }
    rewrite F in E. rewrite <- app_assoc in E. apply app_inv_head in E. destruct (IH _ E) as (be & u & af & x & y & -> & G & H). exists (v :: be), u, af, x, y. repeat split; [exact G|]. cbn. rewrite <- app_assoc, <- H. exact F.
Qed.
Lemma firsts_right l : warned_right l (firsts [] (List.concat (map left_over l))).
Proof.
  destruct (firsts_spec [] (List.concat (map left_over l))) as (N & A & B). split; [exact N|]. split.
  - intros c I. destruct (A c I) as (_ & a & b & E & F). destruct (in_concat_split left_over l a c b E) as (be & v & af & x & y & -> & G & ->). exists be, v, af. split; [reflexivity|]. split.
    + apply left_over_iff. rewrite G. apply in_app_iff. right. now left.
    + intros u d U P T. apply F. rewrite map_app. apply in_app_iff. left. rewrite <- T. apply in_map. apply in_concat. exists (left_over u). split; [now apply in_map|now apply left_over_iff].
  - intros v c V P. apply B; [|intros []]. apply in_concat. exists (left_over v). split; [now apply in_map|now apply left_over_iff].
Qed.

(** ** Names of files *)
Lemma base_name_last s : last_part s (base_name s).
Proof.
  unfold last_part. induction s as [|c s [N H]]; cbn [base_name]; [split; [intros []|now left]|].
  destruct (existsb (Ascii.eqb "/"%char) (list_ascii_of_string s)) eqn:E.
  - split; [exact N|]. right. destruct H as [H|[d H]].
    + exfalso. apply N. rewrite <- H. apply existsb_exists in E as (x & I & X). apply Ascii.eqb_eq in X. now subst.
    + exists (String c d). cbn. now rewrite H at 1.
  - assert (M : ~ In "/"%char (list_ascii_of_string s)).
    { intros I. assert (X : existsb (Ascii.eqb "/"%char) (list_ascii_of_string s) = true) by (apply existsb_exists; exists "/"%char; split; [exact I|reflexivity]). congruence. }
    destruct (Ascii.eqb_spec c "/"%char) as [->|C]; [split; [exact M|right; exists ""; reflexivity]|]. split; [cbn; intros [X|X]; [congruence|contradiction]|now left].
Qed.
