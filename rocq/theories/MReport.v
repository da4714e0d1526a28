(** The reader's bookkeeping of child elements and its warnings about elements it does not process.
    Source: /repo/src/autosar/xml/reader.py.  Simplification: a read is given by what its methods do with the
    children they come across (the methods themselves are in MElem*.v); printing is the list of lines printed.
    No proofs in this file. *)
From Verif Require Import Base MNum MXml.
Open Scope list_scope.
Open Scope string_scope.

(** An element as lxml has it: with the line it starts on (Element.sourceline, used in reader.py:415) *)
Record located := mkLocated { l_elem : xml; l_line : Z }.
Definition l_tag (c : located) : string := x_tag (l_elem c).
(** WrappedElement, reader.py:51-66 *)
Record wrapped := mkWrapped { w_elem : located; w_accessed : bool }.
(** ChildElementMap.elements, reader.py:75: a dict, in the order of insertion *)
Definition child_map := list (string * wrapped).
(** The loop of ChildElementMap.__init__, reader.py:76-79 *)
Fixpoint fill (kids : list located) (m : child_map) : child_map :=
  match kids with
  | [] => m
  | c :: r => fill r (match assoc (l_tag c) m with None => (m ++ [(l_tag c, mkWrapped c false)])%list | Some _ => m end)
  end.
(** ChildElementMap.__init__, reader.py:74-79 *)
Definition new_child_map (kids : list located) : child_map := fill kids [].
(** Setting is_accessed of the entry of a tag, reader.py:65, 99 *)
Fixpoint touch (tag : string) (m : child_map) : child_map :=
  match m with
  | [] => []
  | (t, w) :: r => if String.eqb tag t then (t, mkWrapped (w_elem w) true) :: r else (t, w) :: touch tag r
  end.
(** ChildElementMap.get, reader.py:81-88 *)
Definition map_get (tag : string) (m : child_map) : option located * child_map :=
  match assoc tag m with Some w => (Some (w_elem w), touch tag m) | None => (None, m) end.
(** ChildElementMap.skip, reader.py:90-99 *)
Definition map_skip (tag : string) (m : child_map) : child_map :=
  match assoc tag m with Some _ => touch tag m | None => m end.
(** What the reading methods do with a ChildElementMap *)
Inductive access := Get (tag : string) | Skip (tag : string).
(** Any sequence of get and skip, with what the calls of get return *)
Fixpoint accesses (l : list access) (m : child_map) : list (option located) * child_map :=
  match l with
  | [] => ([], m)
  | Get t :: r => let '(x, m1) := map_get t m in let '(xs, m2) := accesses r m1 in (x :: xs, m2)
  | Skip t :: r => accesses r (map_skip t m)
  end.

(** The attributes of Reader that matter here, reader.py:116-125.  Simplification: observed_unsupported_elements
    is None before the first read (reader.py:125) and a set afterwards; here it is a list from the start, as every
    read replaces it before it reports anything. *)
Record reader := mkReader { r_path : option string; r_base : option string; r_warn : bool; r_full : bool; r_observed : list string }.
Definition new_reader (warn full : bool) : reader := mkReader None None warn full [].
Definition with_observed (r : reader) (l : list string) : reader := mkReader (r_path r) (r_base r) (r_warn r) (r_full r) l.
(** str of an attribute in an f-string: None prints as None *)
Definition shown (o : option string) : string := match o with Some s => s | None => "None" end.
(** _report_unprocessed_element, reader.py:406-416: the reader afterwards and the lines printed on stderr *)
Definition report_element (c : located) (r : reader) : reader * list string :=
  if existsb (String.eqb (l_tag c)) (r_observed r) then (r, [])
  else
    let r1 := with_observed r (l_tag c :: r_observed r) in
    (r1, if r_warn r then
           match r_path r with
           | Some path => let file := if r_full r then path else shown (r_base r) in
                          [file ++ "(" ++ zstr (l_line c) ++ "): Unprocessed element <" ++ l_tag c ++ ">"]
           | None => ["Unprocessed element <" ++ l_tag c ++ ">"]
           end
         else []).
Fixpoint report_all (l : list located) (r : reader) : reader * list string :=
  match l with
  | [] => (r, [])
  | c :: l' => let '(r1, out1) := report_element c r in let '(r2, out2) := report_all l' r1 in (r2, out1 ++ out2)%list
  end.
(** _report_unprocessed_elements, reader.py:398-404 *)
Definition report_elements (m : child_map) (r : reader) : reader * list string :=
  report_all (map (fun e => w_elem (snd e)) (filter (fun e => negb (w_accessed (snd e))) m)) r.
(** What a read does: methods with a ChildElementMap access it and report in the end (for example reader.py:621-630);
    methods that go through the children one by one report those they do not know (reader.py:673, 740, 930, 991, 1016).
    Nested methods finish before the method that called them reports. *)
Inductive visit := Through (kids : list located) (steps : list access) | Unknown (c : located).
Definition run_visit (v : visit) (r : reader) : reader * list string :=
  match v with
  | Through kids steps => report_elements (snd (accesses steps (new_child_map kids))) r
  | Unknown c => report_element c r
  end.
Fixpoint run_visits (l : list visit) (r : reader) : reader * list string :=
  match l with
  | [] => (r, [])
  | v :: l' => let '(r1, out1) := run_visit v r in let '(r2, out2) := run_visits l' r1 in (r2, out1 ++ out2)%list
  end.
(** os.path.basename on POSIX: what follows the last slash *)
Fixpoint base_name (s : string) : string :=
  match s with
  | "" => ""
  | String c r => if existsb (Ascii.eqb "/"%char) (list_ascii_of_string r) then base_name r else if Ascii.eqb c "/"%char then r else s
  end.
(** The methods of the API and what they do to these attributes: read_file, reader.py:350-364 (nothing, if the parser
    fails: line 355 raises); read_str, 366-379 (line 369 is done before the parser runs); read_str_elem, 381-394. *)
Inductive call := ReadFile (path : string) (parses : bool) (l : list visit) | ReadStr (parses : bool) (l : list visit) | ReadStrElem (parses : bool) (l : list visit).
Definition run_call (k : call) (r : reader) : reader * list string :=
  match k with
  | ReadFile path parses l => if parses then run_visits l (mkReader (Some path) (Some (base_name path)) (r_warn r) (r_full r) []) else (r, [])
  | ReadStr parses l => if parses then run_visits l (mkReader (Some "") (Some "") (r_warn r) (r_full r) []) else (with_observed r [], [])
  | ReadStrElem parses l => if parses then run_visits l (with_observed r []) else (with_observed r [], [])
  end.
(** Any use of one reader: the lines printed by each call *)
Fixpoint session (l : list call) (r : reader) : reader * list (list string) :=
  match l with
  | [] => (r, [])
  | k :: l' => let '(r1, out) := run_call k r in let '(r2, outs) := session l' r1 in (r2, out :: outs)
  end.
