(** What users may expect of warnings about elements that are not processed. *)
From Verif Require Import Base MNum MXml MReport.
Open Scope list_scope.
Open Scope string_scope.

(** ** Which elements are passed over *)
Definition asked_for (steps : list access) (tag : string) : Prop := In (Get tag) steps \/ In (Skip tag) steps.
(** The first child of a name nobody asked for *)
Definition passed_over (v : visit) (c : located) : Prop :=
  match v with
  | Through kids steps => exists before after, kids = (before ++ c :: after)%list /\ ~ In (l_tag c) (map l_tag before) /\ ~ asked_for steps (l_tag c)
  | Unknown d => c = d
  end.
(** ** What a warning says *)
(** [place] is the file name to show, if any. *)
Definition warning (place : option string) (c : located) : string :=
  match place with
  | Some file => file ++ "(" ++ zstr (l_line c) ++ "): Unprocessed element <" ++ l_tag c ++ ">"
  | None => "Unprocessed element <" ++ l_tag c ++ ">"
  end.
(** ** The right warnings: every name that was passed over once, for the first element of that name *)
Definition warned_right (l : list visit) (cs : list located) : Prop :=
  NoDup (map l_tag cs) /\
  (forall c, In c cs -> exists before v after, l = (before ++ v :: after)%list /\ passed_over v c /\ forall u d, In u before -> passed_over u d -> l_tag d <> l_tag c) /\
  (forall v c, In v l -> passed_over v c -> In (l_tag c) (map l_tag cs)).
(** ** The last part of a path *)
Definition last_part (path name : string) : Prop :=
  ~ In "/"%char (list_ascii_of_string name) /\ (path = name \/ exists dir, path = dir ++ "/" ++ name).
