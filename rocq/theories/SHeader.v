(** Specification vocabulary for C44 and C45: C types and declarations, the C preprocessor, and the
    C type that an element of the workspace describes.  Uses only the records of MTypes.v that hold
    the workspace and the declarations. *)
From Verif Require Import Base MTypes STypes MHeader.

(** ** C *)
(** C types: something spelled out or declared elsewhere, arrays, structures *)
Inductive ctype :=
| CName (spelling : string)
| CArray (size : Z) (element : ctype)
| CRecord (tag : string) (members : list (string * ctype)).

(** What a type name means after some declarations: typedef names are transparent, any other
    name stands for itself. *)
Definition c_scope := list (string * ctype).
Definition c_lookup (sc : c_scope) (name : string) : ctype := match assoc name sc with Some c => c | None => CName name end.
Definition struct_name (tag : string) : string := ("struct " ++ tag)%string.
Definition c_declare (sc : c_scope) (d : cdecl) : c_scope :=
  match d with
  | CTypedef new target => (new, c_lookup sc target) :: sc
  | CTypedefArray new target size => (new, CArray size (c_lookup sc target)) :: sc
  | CStruct tag members => (struct_name tag, CRecord tag (map (fun m => (fst m, c_lookup sc (snd m))) members)) :: sc
  | CTypedefStruct new tag => (new, c_lookup sc (struct_name tag)) :: sc
  end.
Definition c_scope_of (ds : list cdecl) : c_scope := fold_left c_declare ds [].
(** The type that [name] has after the declarations [ds]. *)
Definition c_meaning (ds : list cdecl) (name : string) : ctype := c_lookup (c_scope_of ds) name.

(** ** The workspace *)
(** The type is declared by another tool *)
Definition foreign (emitter : option string) : Prop := exists e, emitter = Some e /\ upper e <> "RTE".
(** The C type that the element at an absolute reference describes: base types by their native
    declaration, values by their base type, type references by what they refer to, arrays and
    structures by their (single level of) sub-elements; types of another emitter by their name.
    Type references are never taken to be of another emitter (C11_reference_emitter_ignored_refuted). *)
Inductive denotes (l : lib) : string -> ctype -> Prop :=
| d_base r n s : assoc r l = Some (XBase n (Some s)) -> s <> "" -> denotes l r (CName s)
| d_platform r n s : assoc r l = Some (XBase n s) -> s = None \/ s = Some "" -> denotes l r (CName n)
| d_value r n p ps subs symbol emitter b c :
    assoc r l = Some (XImpl n (Some "VALUE") (Some (p :: ps)) subs symbol emitter) -> ~ foreign emitter ->
    p0_base (p_own p) = Some b -> denotes l (absolute b) c -> denotes l r c
| d_reference r n p ps subs symbol emitter i c :
    assoc r l = Some (XImpl n (Some "TYPE_REFERENCE") (Some (p :: ps)) subs symbol emitter) ->
    p0_impl (p_own p) = Some i -> denotes l (absolute i) c -> denotes l r c
| d_array r n props x symbol emitter z c :
    assoc r l = Some (XImpl n (Some "ARRAY") props [x] symbol emitter) -> ~ foreign emitter ->
    xs_size x = Some z -> denotes_part l x c -> denotes l r (CArray z c)
| d_structure r n props subs symbol emitter members :
    assoc r l = Some (XImpl n (Some "STRUCTURE") props subs symbol emitter) -> ~ foreign emitter ->
    denotes_parts l subs members -> denotes l r (CRecord ("Rte_struct_" ++ n) members)
| d_foreign r n category props subs symbol emitter :
    assoc r l = Some (XImpl n (Some category) props subs symbol emitter) -> foreign emitter ->
    In category ["VALUE"; "ARRAY"; "STRUCTURE"; "DATA_REFERENCE"] -> denotes l r (CName n)
(** The element of an array or member of a structure *)
with denotes_part (l : lib) : xsub -> ctype -> Prop :=
| d_part_value x p ps b c :
    xs_cat x = Some "VALUE" -> xs_props x = Some (p :: ps) -> p0_base (p_own p) = Some b ->
    denotes l (absolute b) c -> denotes_part l x c
| d_part_reference x p ps i c :
    xs_cat x = Some "TYPE_REFERENCE" -> xs_props x = Some (p :: ps) -> p0_impl (p_own p) = Some i ->
    denotes l (absolute i) c -> denotes_part l x c
with denotes_parts (l : lib) : list xsub -> list (string * ctype) -> Prop :=
| d_none : denotes_parts l [] []
| d_more x c xs cs : denotes_part l x c -> denotes_parts l xs cs -> denotes_parts l (x :: xs) ((xs_name x, c) :: cs).

(** ** Registered types mirror their elements *)
(** A reference of an element is to the type [t]; a missing reference reads as the text None. *)
Definition refers_to (ref : option string) (t : dtype) : Prop :=
  match ref with Some q => dref t = absolute q | None => dref t = "/None" end.
Definition first_is {A} (props : option (list A)) (P : A -> Prop) : Prop := exists p ps, props = Some (p :: ps) /\ P p.
(** Sub-elements have the name, size and type reference of theirs. *)
Definition mirrors_part (parent : string) (sized : bool) (x : xsub) (e : delem) : Prop :=
  match e with
  | EScalar r n z t => xs_cat x = Some "VALUE" /\ first_is (xs_props x) (fun p => refers_to (p0_base (p_own p)) t) /\
      r = (parent ++ "/" ++ xs_name x)%string /\ n = xs_name x /\ z = if sized then xs_size x else None
  | ERef r n z t => xs_cat x = Some "TYPE_REFERENCE" /\ first_is (xs_props x) (fun p => refers_to (p0_impl (p_own p)) t) /\
      r = (parent ++ "/" ++ xs_name x)%string /\ n = xs_name x /\ z = if sized then xs_size x else None
  end.
(** Structures keep no sizes of their members.  Arrays have one dimension and none of the attributes
    about dynamic size: anything else never becomes a type (C44_array_kinds_refuted).
    [t] is what the implementation model should keep of the element [x] at [r]. *)
Definition mirrors (r : string) (x : xelem) (t : dtype) : Prop :=
  match x, t with
  | XBase n native, TBase r' n' native' => r' = r /\ n' = n /\ native' = native
  | XImpl n (Some c) props subs symbol emitter, TBase _ _ _ => False
  | XImpl n (Some c) props subs symbol emitter, TScalar r' n' symbol' emitter' b =>
      c = "VALUE" /\ r' = r /\ n' = n /\ symbol' = match symbol with Some y => y | None => n end /\ emitter' = emitter /\
      first_is props (fun p => refers_to (p0_base (p_own p)) b)
  | XImpl n (Some c) props subs symbol emitter, TRef r' n' symbol' i =>
      c = "TYPE_REFERENCE" /\ r' = r /\ n' = n /\ symbol' = match symbol with Some y => y | None => n end /\
      first_is props (fun p => refers_to (p0_impl (p_own p)) i)
  | XImpl n (Some c) props subs symbol emitter, TArray r' n' symbol' emitter' e =>
      c = "ARRAY" /\ r' = r /\ n' = n /\ symbol' = match symbol with Some y => y | None => n end /\ emitter' = emitter /\
      exists x, subs = [x] /\ mirrors_part r true x e /\ xs_size x <> None /\
        xs_policy x = false /\ xs_handling x = false /\ xs_semantics x = false
  | XImpl n (Some c) props subs symbol emitter, TRecord r' n' symbol' emitter' es =>
      c = "STRUCTURE" /\ r' = r /\ n' = n /\ symbol' = match symbol with Some y => y | None => n end /\ emitter' = emitter /\
      Forall2 (mirrors_part r false) subs es
  | XImpl n (Some c) props subs symbol emitter, TPtr r' n' symbol' emitter' d =>
      c = "DATA_REFERENCE" /\ r' = r /\ n' = n /\ symbol' = match symbol with Some y => y | None => n end /\ emitter' = emitter /\
      first_is props (fun p => exists target, p_ptr p = Some target /\
        first_is (pt_props target) (fun q =>
          pt_cat target = Some "VALUE" /\ refers_to (p0_base q) d \/
          pt_cat target = Some "TYPE_REFERENCE" /\ refers_to (p0_impl q) d))
  | _, _ => False
  end.

(** The names of the types do not collide in C: a type the header declares has a name of its own, no
    native declaration is spelled like it, and nothing is spelled like a structure tag of the header.
    AUTOSAR only asks for names to be different within a package. *)
Definition c_names_apart (s : imodel) : Prop :=
  (forall r1 t1 r2 t2, registered s r1 t1 -> registered s r2 t2 -> ~ somebody_elses t1 -> dname t1 = dname t2 -> t1 = t2) /\
  (forall r n native r2 t2, registered s r (TBase r n (Some native)) -> registered s r2 t2 -> ~ somebody_elses t2 -> native <> dname t2) /\
  (forall r t tag, registered s r t -> dname t <> struct_name ("Rte_struct_" ++ tag)) /\
  (forall r n native tag, registered s r (TBase r n (Some native)) -> native <> struct_name ("Rte_struct_" ++ tag)).

(** Elements spelled out in place are of base types *)
Definition parts_are_base (t : dtype) : Prop :=
  forall r n z b, (exists r' n' y em, t = TArray r' n' y em (EScalar r n z b)) \/
                  (exists r' n' y em es, t = TRecord r' n' y em es /\ In (EScalar r n z b) es) ->
  exists r' n' native, b = TBase r' n' native.

(** ** The preprocessor *)
(** What is left of a line *)
Inductive code := CodeText (t : string) | CodeDecl (d : cdecl) | CodeInclude (f : string).
(** Lines in the scope of nested conditions: [on] tells for each condition, innermost first, whether
    its lines are taken.  None: #endif without #ifndef, or one is missing. *)
Fixpoint preprocess (macros : list string) (on : list bool) (lines : list hline) : option (list string * list code) :=
  let active := forallb (fun b => b) on in
  let keep c r := if active then option_map (fun x => (fst x, c :: snd x)) r else r in
  match lines with
  | [] => match on with [] => Some (macros, []) | _ => None end
  | HIfndef m :: rest => preprocess macros (negb (existsb (String.eqb m) macros) :: on) rest
  | HEndif :: rest => match on with [] => None | _ :: on => preprocess macros on rest end
  | HDefine m :: rest => preprocess (if active then m :: macros else macros) on rest
  | HInclude f :: rest => keep (CodeInclude f) (preprocess macros on rest)
  | HText t :: rest => keep (CodeText t) (preprocess macros on rest)
  | HDecl d :: rest => keep (CodeDecl d) (preprocess macros on rest)
  | HBlank :: rest | HComment :: rest => preprocess macros on rest
  end.
Definition declarations (l : list code) : list cdecl := flat_map (fun c => match c with CodeDecl d => [d] | _ => [] end) l.
Definition texts (l : list code) : list string := flat_map (fun c => match c with CodeText t => [t] | _ => [] end) l.
