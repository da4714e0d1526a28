(** Model of the workspace: namespaces, package maps, templates, documents, settings.
    Sources: /repo/src/autosar/xml/workspace.py, /repo/src/autosar/xml/template.py,
    BehaviorSettings in /repo/src/autosar/xml/element.py:2944-3007,
    and Python's posixpath.join / posixpath.normpath as used by workspace.py.
    The package tree is the one of MHeap.v.  No proofs in this file. *)
From Verif Require Import Base MHeap.

(** ** Paths *)

(** [s.endswith('/')] *)
Fixpoint ends_slash (s : string) : bool :=
  match s with
  | EmptyString => false
  | String c "" => Ascii.eqb c slash
  | String _ r => ends_slash r
  end.

(** [posixpath.join(a, b)] (workspace.py:72, 118; os.path.join 241, 273). *)
Definition pjoin (a b : string) : string :=
  if starts_slash b then b
  else if String.eqb a "" || ends_slash a then (a ++ b)%string
  else (a ++ "/" ++ b)%string.

(** The loop of posixpath.normpath over the components; the result list is kept reversed.
    [root]: the path begins with a slash. *)
Fixpoint norm_comps (root : bool) (acc : list string) (comps : list string) : list string :=
  match comps with
  | [] => rev acc
  | c :: r =>
      if String.eqb c "" || String.eqb c "." then norm_comps root acc r
      else if negb (String.eqb c "..")
              || (negb root && match acc with [] => true | _ => false end)
              || match acc with x :: _ => String.eqb x ".." | [] => false end
      then norm_comps root (c :: acc) r
      else match acc with
           | _ :: acc' => norm_comps root acc' r
           | [] => norm_comps root acc r
           end
  end.

(** Number of leading slashes kept by posixpath.normpath: none, one, or exactly two. *)
Definition lead_slashes (s : string) : string :=
  match s with
  | String a (String b (String c _)) =>
      if Ascii.eqb a slash then
        if Ascii.eqb b slash then (if Ascii.eqb c slash then "/" else "//") else "/"
      else ""
  | String a (String b "") =>
      if Ascii.eqb a slash then (if Ascii.eqb b slash then "//" else "/") else ""
  | String a "" => if Ascii.eqb a slash then "/" else ""
  | EmptyString => ""
  end.

(** [posixpath.normpath(path)] (workspace.py:118). *)
Definition normpath (s : string) : string :=
  if String.eqb s "" then "."
  else
    let p := (lead_slashes s ++ join "/" (norm_comps (starts_slash s) [] (split_at slash s)))%string in
    if String.eqb p "" then "." else p.

(** ** Namespaces *)

(** PackageRole, enumeration.py:505-519. *)
Inductive package_role :=
| APPLICATION_DATA_TYPE | BASE_TYPE | COMPONENT_TYPE | COMPU_METHOD | DATA_CONSTRAINT
| IMPLEMENTATION_DATA_TYPE | MODE_DECLARATION | PORT_INTERFACE | UNIT | CONSTANT.

(** A role is an enumeration member or, for keys written with '!', a plain string
    (workspace.py:65). *)
Inductive role := REnum (r : package_role) | RStr (s : string).

(** Key equality of the dict. *)
Definition prole_eqb (a b : package_role) : bool :=
  match a, b with
  | APPLICATION_DATA_TYPE, APPLICATION_DATA_TYPE | BASE_TYPE, BASE_TYPE
  | COMPONENT_TYPE, COMPONENT_TYPE | COMPU_METHOD, COMPU_METHOD
  | DATA_CONSTRAINT, DATA_CONSTRAINT | IMPLEMENTATION_DATA_TYPE, IMPLEMENTATION_DATA_TYPE
  | MODE_DECLARATION, MODE_DECLARATION | PORT_INTERFACE, PORT_INTERFACE
  | UNIT, UNIT | CONSTANT, CONSTANT => true
  | _, _ => false
  end.
Definition role_eqb (a b : role) : bool :=
  match a, b with
  | REnum x, REnum y => prole_eqb x y
  | RStr x, RStr y => String.eqb x y
  | _, _ => false
  end.

(** Dict lookup and assignment with role keys. *)
Fixpoint rassoc (k : role) (l : list (role * string)) : option string :=
  match l with
  | [] => None
  | (k', v) :: r => if role_eqb k k' then Some v else rassoc k r
  end.
Fixpoint rassoc_set (k : role) (v : string) (l : list (role * string)) : list (role * string) :=
  match l with
  | [] => [(k, v)]
  | (k', v') :: r => if role_eqb k k' then (k', v) :: r else (k', v') :: rassoc_set k v r
  end.

(** str_to_enum_map["PackageRole"], enumeration.py:1543-1567. *)
Definition role_names : list (string * package_role) :=
  [("APPLICATION_DATA_TYPE", APPLICATION_DATA_TYPE); ("ApplicationDataType", APPLICATION_DATA_TYPE);
   ("BASE_TYPE", BASE_TYPE); ("BaseType", BASE_TYPE);
   ("COMPONENT_TYPE", COMPONENT_TYPE); ("ComponentType", COMPONENT_TYPE);
   ("COMPU_METHOD", COMPU_METHOD); ("CompuMethod", COMPU_METHOD);
   ("DATA_CONSTRAINT", DATA_CONSTRAINT); ("DataConstraint", DATA_CONSTRAINT);
   ("IMPLEMENTATION_DATA_TYPE", IMPLEMENTATION_DATA_TYPE); ("ImplementationDataType", IMPLEMENTATION_DATA_TYPE);
   ("MODE_DECLARATION", MODE_DECLARATION); ("ModeDeclaration", MODE_DECLARATION);
   ("PORT_INTERFACE", PORT_INTERFACE); ("PortInterface", PORT_INTERFACE);
   ("Unit", UNIT); ("UNIT", UNIT); ("CONSTANT", CONSTANT); ("Constant", CONSTANT)].

(** The key under which a configured role name is stored (workspace.py:68-71;
    str_to_package_role, enumeration.py:1571-1575, raises KeyError for unknown names). *)
Definition role_of_name (s : string) : result role :=
  match s with
  | String c r =>
      if Ascii.eqb c "!"%char then Ok (RStr r)
      else match assoc s role_names with Some p => Ok (REnum p) | None => Err KeyError end
  | EmptyString => Err KeyError
  end.

(** Namespace, workspace.py:57-73. *)
Record namespace := mkNs { ns_base : string; ns_map : list (role * string) }.

(** The loop of Namespace.__init__ (workspace.py:67-73). *)
Fixpoint fill_map (base : string) (m : list (role * string)) (pm : list (string * string))
    : result (list (role * string)) :=
  match pm with
  | [] => Ok m
  | (k, rel) :: r =>
      let* ro := role_of_name k in
      fill_map base (rassoc_set ro (pjoin base rel) m) r
  end.

(** Namespace.__init__, workspace.py:62-73. *)
Definition mk_namespace (name : string) (pm : list (string * string)) (base : option string)
    : result namespace :=
  let b := match base with Some b => b | None => ("/" ++ name)%string end in
  let* m := fill_map b [] pm in
  Ok (mkNs b m).

(** Workspace.create_namespace, workspace.py:91-95, on the dict of namespaces. *)
Definition create_namespace (nss : list (string * namespace)) (name : string)
    (pm : list (string * string)) (base : option string) : result (list (string * namespace)) :=
  let* ns := mk_namespace name pm base in
  Ok (assoc_set name ns nss).

(** Workspace.get_package_ref_by_role, workspace.py:97-118. *)
Definition role_ref (nss : list (string * namespace)) (name : string) (ro : role) : result string :=
  match assoc name nss with
  | None => Err KeyError
  | Some ns =>
      match rassoc ro (ns_map ns) with
      | None => Err ValueError
      | Some rel => Ok (normpath (pjoin (ns_base ns) rel))
      end
  end.

(** ** Templates *)

(** ElementTemplate, template.py:34-83.  [t_create] is the user's create method: it gets the
    state, the package and the map of dependencies, and returns an object, None, or raises.
    Keyword arguments are part of [t_create]. *)
Inductive tmpl := Tmpl
  (t_name t_ns : string) (t_role : role) (t_depends : option (list tmpl)) (t_append : bool)
  (t_create : heap -> nat -> list (string * nat) -> heap * result (option nat)).

Definition tm_name (t : tmpl) : string := match t with Tmpl n _ _ _ _ _ => n end.
Definition tm_ns (t : tmpl) : string := match t with Tmpl _ n _ _ _ _ => n end.
Definition tm_role (t : tmpl) : role := match t with Tmpl _ _ r _ _ _ => r end.
Definition tm_depends (t : tmpl) : list tmpl :=
  match t with Tmpl _ _ _ (Some ds) _ _ => ds | _ => [] end.
Definition tm_append (t : tmpl) : bool := match t with Tmpl _ _ _ _ a _ => a end.
Definition tm_create (t : tmpl) := match t with Tmpl _ _ _ _ _ c => c end.

(** ElementTemplate.ref, template.py:78-83. *)
Definition tm_ref (nss : list (string * namespace)) (t : tmpl) : result string :=
  let* p := role_ref nss (tm_ns t) (tm_role t) in
  Ok (p ++ "/" ++ tm_name t)%string.

(** One call of a create method: which template, the state in which it ran, and whether the
    element was created and stored.  Recorded for the properties only. *)
Record creation := mkCr { cr_t : tmpl; cr_before : heap; cr_ok : bool }.

(** State of the applications: objects and the recorded calls. *)
Definition tstate : Type := heap * list creation.

(** [isinstance(elem, ARElement)] (workspace.py:357, 370): packages are not ARElements
    (element.py:283-301, 2834). *)
Definition is_arelement (h : heap) (e : nat) : bool := is_kind KElem h e || is_kind KComp h e.

(** _apply_element_template after the dependencies (workspace.py:349-363). *)
Definition apply_own (nss : list (string * namespace)) (c : nat) (t : tmpl)
    (dm : list (string * nat)) (s : tstate) : tstate * result nat :=
  let (h, log) := s in
  match role_ref nss (tm_ns t) (tm_role t) with
  | Err e => (s, Err e)
  | Ok pref =>
      match coll_make h c pref with
      | (h1, Err e) => ((h1, log), Err e)
      | (h1, Ok p) =>
          match item_find (S (String.length (tm_name t))) h1 p (tm_name t) with
          | Err e => ((h1, log), Err e)
          | Ok (Some e) => ((h1, log), Ok e)
          | Ok None =>
              match tm_create t h1 p dm with
              | (h2, Err e) => ((h2, log ++ [mkCr t h1 false]), Err e)
              | (h2, Ok None) => ((h2, log ++ [mkCr t h1 false]), Err TypeError)
              | (h2, Ok (Some e)) =>
                  if is_arelement h2 e then
                    if tm_append t then
                      match pkg_append h2 p e with
                      | (h3, Ok _) => ((h3, log ++ [mkCr t h1 true]), Ok e)
                      | (h3, Err x) => ((h3, log ++ [mkCr t h1 false]), Err x)
                      end
                    else ((h2, log ++ [mkCr t h1 true]), Ok e)
                  else ((h2, log ++ [mkCr t h1 false]), Err TypeError)
              end
          end
      end
  end.

(** Entry of the dependency map for an applied dependency (workspace.py:370-374). *)
Definition dep_entry (h : heap) (e : nat) : result (string * nat) :=
  if is_arelement h e then
    let* r := calc_ref h e in
    Ok (match r with Some x => x | None => "None" end, e)
  else Err TypeError.

(** Workspace.apply on element templates, workspace.py:161-170, 332-375.  GenericTemplate.apply
    is user code and not modelled. *)
Fixpoint apply (nss : list (string * namespace)) (c : nat) (t : tmpl) (s : tstate)
    : tstate * result nat :=
  match t with
  | Tmpl n nsn ro deps app cr =>
      let go := fix go (ds : list tmpl) (s : tstate) (dm : list (string * nat))
                  : tstate * result (list (string * nat)) :=
        match ds with
        | [] => (s, Ok dm)
        | d :: r =>
            match apply nss c d s with
            | (s1, Err e) => (s1, Err e)
            | (s1, Ok e) =>
                match dep_entry (fst s1) e with
                | Err x => (s1, Err x)
                | Ok (k, _) => go r s1 (assoc_set k e dm)
                end
            end
        end in
      match (match deps with Some ds => go ds s [] | None => (s, Ok []) end) with
      | (s1, Err e) => (s1, Err e)
      | (s1, Ok dm) => apply_own nss c (Tmpl n nsn ro deps app cr) dm s1
      end
  end.

(** A sequence of applications; a failing one is caught by the caller. *)
Definition apply_all (nss : list (string * namespace)) (c : nat) (ts : list tmpl) (s : tstate) : tstate :=
  fold_left (fun s t => fst (apply nss c t s)) ts s.

(** ** Documents *)

(** DocumentConfig, workspace.py:19-33: its Document object, path and package references. *)
Record docconf := mkDoc { dc_doc : nat; dc_path : string; dc_refs : list string }.

(** A written file: its path, the document object, and the state at the time of writing (from
    which the writer takes the content). *)
Record file := mkFile { f_path : string; f_doc : nat; f_heap : heap }.

(** The loop of _write_document_from_config, workspace.py:234-239. *)
Fixpoint put_packages (h : heap) (ws doc : nat) (refs : list string) : heap * result unit :=
  match refs with
  | [] => (h, Ok tt)
  | r :: rs =>
      match coll_find h ws r with
      | Err e => (h, Err e)
      | Ok None => put_packages h ws doc rs          (* append(None) does nothing *)
      | Ok (Some p) =>
          if is_kind KPkg h p then
            match coll_append h doc p with
            | (h', Ok _) => put_packages h' ws doc rs
            | (h', Err e) => (h', Err e)
            end
          else (h, Err ValueError)
      end
  end.

(** os.path.join with the document root, workspace.py:240-241, 272-275. *)
Definition out_path (root : option string) (p : string) : string :=
  match root with Some d => pjoin d p | None => p end.

(** _write_document_from_config, workspace.py:226-242.  The writer does not change the
    document. *)
Definition write_doc (root : option string) (h : heap) (ws : nat) (dc : docconf) : heap * result file :=
  match put_packages h ws (dc_doc dc) (dc_refs dc) with
  | (h', Ok _) => (h', Ok (mkFile (out_path root (dc_path dc)) (dc_doc dc) h'))
  | (h', Err e) => (h', Err e)
  end.

(** PackageToDocumentMapping, workspace.py:36-54; [m_type] is [isinstance(element,
    element_types)] as a test on objects. *)
Record mapping := mkMap { m_ref : string; m_type : nat -> bool; m_suffixes : list string }.

(** Name of an object. *)
Definition oname (h : heap) (i : nat) : string :=
  match get h i with Some o => o_name o | None => "" end.

(** [sorted(l, key=lambda x: x.name)]: stable. *)
Fixpoint insert_named (h : heap) (x : nat) (l : list nat) : list nat :=
  match l with
  | [] => [x]
  | y :: r => if String.leb (oname h x) (oname h y) then x :: l else y :: insert_named h x r
  end.
Fixpoint sort_named (h : heap) (l : list nat) : list nat :=
  match l with [] => [] | x :: r => insert_named h x (sort_named h r) end.

(** The elements chosen for one matched element (workspace.py:260-267). *)
Definition chosen (h : heap) (m : mapping) (elements : list nat) (e : nat) : list nat :=
  let emap := fold_left (fun d x => assoc_set (oname h x) x d) elements [] in
  e :: flat_map (fun s => if String.eqb s "" then []
                          else match assoc (oname h e ++ s)%string emap with Some x => [x] | None => [] end)
                (m_suffixes m).

(** Appending the elements (workspace.py:270-271). *)
Fixpoint append_all (h : heap) (p : nat) (l : list nat) : heap * result unit :=
  match l with
  | [] => (h, Ok tt)
  | e :: r =>
      match pkg_append h p e with
      | (h', Ok _) => append_all h' p r
      | (h', Err x) => (h', Err x)
      end
  end.

(** One document of a mapping (workspace.py:258-276): a new Document, the package path of the
    source package in it, the chosen elements sorted by name. *)
Definition write_mapped (root : option string) (h : heap) (m : mapping) (pkg : nat)
    (elements : list nat) (e : nat) : heap * result file :=
  let l := sort_named h (chosen h m elements e) in
  let (h1, d) := alloc h KColl "" in
  match calc_ref h1 pkg with
  | Err x => (h1, Err x)
  | Ok r =>
      match coll_make h1 d (match r with Some s => s | None => "None" end) with
      | (h2, Err x) => (h2, Err x)
      | (h2, Ok q) =>
          match append_all h2 q l with
          | (h3, Err x) => (h3, Err x)
          | (h3, Ok _) => (h3, Ok (mkFile (out_path root (oname h e ++ ".arxml")) d h3))
          end
      end
  end.

(** The loop over the matched elements (workspace.py:258-276): the files written until the first error. *)
Fixpoint write_matched (root : option string) (h : heap) (m : mapping) (pkg : nat)
    (elements todo : list nat) : heap * list file * result unit :=
  match todo with
  | [] => (h, [], Ok tt)
  | e :: r =>
      match write_mapped root h m pkg elements e with
      | (h1, Err x) => (h1, [], Err x)
      | (h1, Ok f) => let '(h2, fs, x) := write_matched root h1 m pkg elements r in (h2, f :: fs, x)
      end
  end.

(** _gen_package_to_document_mapping, workspace.py:244-276.  Element names within a package
    are unique, so the dict of matched elements has the elements in order. *)
Definition gen_mapping (root : option string) (h : heap) (ws : nat) (m : mapping)
    : heap * list file * result unit :=
  match coll_find h ws (m_ref m) with
  | Err e => (h, [], Err e)
  | Ok None => (h, [], Ok tt)
  | Ok (Some p) =>
      match get h p with
      | Some o =>
          match o_kind o with
          | KPkg => write_matched root h m p (o_elements o) (filter (m_type m) (o_elements o))
          | _ => (h, [], Err ValueError)
          end
      | None => (h, [], Err AttributeError)
      end
  end.

(** Workspace.write_documents, workspace.py:194-202: files written until the first error. *)
Fixpoint write_docs (root : option string) (h : heap) (ws : nat) (ds : list docconf)
    : heap * list file * result unit :=
  match ds with
  | [] => (h, [], Ok tt)
  | d :: r =>
      match write_doc root h ws d with
      | (h1, Err e) => (h1, [], Err e)
      | (h1, Ok f) => let '(h2, fs, x) := write_docs root h1 ws r in (h2, f :: fs, x)
      end
  end.
Fixpoint write_maps (root : option string) (h : heap) (ws : nat) (ms : list mapping)
    : heap * list file * result unit :=
  match ms with
  | [] => (h, [], Ok tt)
  | m :: r =>
      match gen_mapping root h ws m with
      | (h1, f, Err e) => (h1, f, Err e)
      | (h1, f, Ok _) => let '(h2, fs, x) := write_maps root h1 ws r in (h2, f ++ fs, x)
      end
  end.
Definition write_documents (root : option string) (h : heap) (ws : nat) (ds : list docconf) (ms : list mapping)
    : heap * list file * result unit :=
  match write_docs root h ws ds with
  | (h1, fs, Err e) => (h1, fs, Err e)
  | (h1, fs, Ok _) => let '(h2, gs, x) := write_maps root h1 ws ms in (h2, fs ++ gs, x)
  end.

(** ** Package map (workspace.py:120-159) *)

(** [self.package_map[key] = self.make_packages(ref)] for every entry, after clear(). *)
Fixpoint fill_packages (h : heap) (c : nat) (m : list (string * nat)) (l : list (string * string))
    : heap * list (string * nat) * result unit :=
  match l with
  | [] => (h, m, Ok tt)
  | (k, r) :: rest =>
      match coll_make h c r with
      | (h1, Err e) => (h1, m, Err e)
      | (h1, Ok p) => fill_packages h1 c (assoc_set k p m) rest
      end
  end.
Definition create_package_map (h : heap) (c : nat) (l : list (string * string))
    : heap * list (string * nat) * result unit := fill_packages h c [] l.

(** get_package 151-159: RuntimeError before a map exists, KeyError for unknown keys. *)
Definition get_package (m : list (string * nat)) (k : string) : result nat :=
  match m with
  | [] => Err RuntimeError
  | _ => match assoc k m with Some p => Ok p | None => Err KeyError end
  end.

(** add_element 131-139 and find_element 141-149. *)
Definition ws_add (h : heap) (m : list (string * nat)) (k : string) (e : nat) : heap * result unit :=
  match get_package m k with Err x => (h, Err x) | Ok p => pkg_append h p e end.
Definition ws_find (h : heap) (m : list (string * nat)) (k name : string) : result (option nat) :=
  let* p := get_package m k in item_find (S (String.length name)) h p name.

(** ** Behavior settings (element.py:2944-3007) *)

(** The settings and the methods of the class: [hasattr] is true for both (2980). *)
Definition setting_names : list string :=
  ["background_event_prefix"; "data_receive_error_event_prefix"; "data_receive_event_prefix";
   "init_event_prefix"; "operation_invoked_event_prefix"; "swc_mode_manager_error_event_prefix";
   "swc_mode_switch_event_prefix"; "timing_event_prefix"; "data_read_access_prefix";
   "data_receive_point_prefix"; "data_send_point_prefix"; "data_write_access_prefix";
   "external_triggering_point_prefix"; "internal_triggering_point_prefix";
   "mode_access_point_prefix"; "mode_switch_point_prefix"; "parameter_access_prefix";
   "read_local_variable_prefix"; "server_call_point_prefix"; "wait_point_prefix";
   "write_local_variable_prefix"].
Definition method_names : list string := ["set_value"; "update"; "set_default"; "get_value"].

(** Instance attributes that were assigned a string; unassigned settings are None.  Attributes
    inherited from [object] are not modelled. *)
Definition settings := list (string * string).

Definition known_attr (n : string) : bool :=
  existsb (String.eqb n) setting_names || existsb (String.eqb n) method_names.

(** set_value, element.py:2976-2985 (string values). *)
Definition set_value (s : settings) (n v : string) : settings * result unit :=
  if known_attr n then (assoc_set n v s, Ok tt) else (s, Err KeyError).

(** update, element.py:2987-2992: an instance attribute called "set_value" hides the method. *)
Fixpoint update (s : settings) (l : list (string * string)) : settings * result unit :=
  match l with
  | [] => (s, Ok tt)
  | (n, v) :: r =>
      match assoc "set_value" s with
      | Some _ => (s, Err TypeError)
      | None =>
          match set_value s n v with
          | (s1, Ok _) => update s1 r
          | (s1, Err e) => (s1, Err e)
          end
      end
  end.

(** get_value, element.py:2999-3007, for a setting name; other names: AttributeError
    (methods are returned as objects: not modelled, TypeError stands for a non-string). *)
Definition get_value (s : settings) (n : string) : result string :=
  match assoc n s with
  | Some v => Ok v
  | None =>
      if existsb (String.eqb n) setting_names then Err ValueError
      else if existsb (String.eqb n) method_names then Err TypeError
      else Err AttributeError
  end.
