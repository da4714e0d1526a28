(** Model of the implementation model and of the type generator.
    Sources: /repo/src/autosar/model/implementation.py (ImplementationModel),
    /repo/src/autosar/model/element.py, /repo/src/autosar/generator/type_generator.py.
    No proofs in this file. *)
From Verif Require Import Base.

(** ** The XML side (what the workspace contains) *)

(** The parts of one SwDataDefPropsConditional that are read
    (xml/element.py:1675-1791): base_type_ref, impl_data_type_ref as strings. *)
Record xprops0 := mkP0 { p0_base : option string; p0_impl : option string }.

(** SwPointerTargetProps (xml/element.py:1650-1672): target_category and
    sw_data_def_props. *)
Record xptr := mkPtr { pt_cat : option string; pt_props : option (list xprops0) }.

(** SwDataDefPropsConditional with its ptr_target_props. *)
Record xprops := mkP { p_own : xprops0; p_ptr : option xptr }.

(** ImplementationDataTypeElement (xml/element.py:1882-1930); of the three array
    enumerations only whether they are set matters. *)
Record xsub := mkSub {
  xs_name : string;
  xs_cat : option string;
  xs_props : option (list xprops);
  xs_size : option Z;
  xs_policy : bool;
  xs_handling : bool;
  xs_semantics : bool
}.

(** Workspace elements: SwBaseType, ImplementationDataType (xml/element.py:1942-2001; of
    symbol_props only the symbol), anything else. *)
Inductive xelem :=
| XBase (name : string) (native : option string)
| XImpl (name : string) (cat : option string) (props : option (list xprops))
        (subs : list xsub) (symbol : option string) (emitter : option string)
| XOther (name : string).

(** The workspace as seen by the implementation model: absolute reference -> element. *)
Definition lib := list (string * xelem).

(** A reference string with its leading slash: find() accepts both spellings
    (xml/element.py:3048-3049) and ref() always yields the absolute one. *)
Definition absolute (s : string) : string := ("/" ++ strip_slash s)%string.

(** [workspace.find(ref)] together with [str(element.ref())].  That the element found under a
    reference has that reference is theorem C04 of PropsHeap.v. *)
Definition lib_find (l : lib) (s : string) : option (string * xelem) :=
  match assoc (absolute s) l with Some x => Some (absolute s, x) | None => None end.

(** ** The implementation side *)

(** model/element.py: BaseType 26-34, ScalarType 59-75, RefType 115-128, ArrayType 98-112
    (after successful creation it has exactly one sub-element, see [make_array]),
    RecordType 163-175, PointerType 131-145.  Constructor arguments: reference, name,
    symbol_name, type_emitter, referenced types.  RefType has no type_emitter (121-127).
    [const] is never set by the library.  Sub-elements (ArrayTypeElement 78-95,
    RecordTypeElement 148-160) carry a ScalarType or a RefType of their own, whose reference
    is the element's reference. *)
Inductive dtype :=
| TBase (r n : string) (native : option string)
| TScalar (r n sym : string) (emitter : option string) (base : dtype)
| TRef (r n sym : string) (impl : dtype)
| TArray (r n sym : string) (emitter : option string) (elem : delem)
| TRecord (r n sym : string) (emitter : option string) (elems : list delem)
| TPtr (r n sym : string) (emitter : option string) (target : dtype)
with delem :=
| EScalar (r n : string) (size : option Z) (base : dtype)
| ERef (r n : string) (size : option Z) (impl : dtype).

(** [data_type.ref] *)
Definition dref (t : dtype) : string :=
  match t with
  | TBase r _ _ | TScalar r _ _ _ _ | TRef r _ _ _ | TArray r _ _ _ _ | TRecord r _ _ _ _
  | TPtr r _ _ _ _ => r
  end.

(** [data_type.name] *)
Definition dname (t : dtype) : string :=
  match t with
  | TBase _ n _ | TScalar _ n _ _ _ | TRef _ n _ _ | TArray _ n _ _ _ | TRecord _ n _ _ _
  | TPtr _ n _ _ _ => n
  end.

(** ImplementationModel.data_types and .source_type_refs (implementation.py:34-37). *)
Record imodel := mkIM { im_types : list (string * dtype); im_sources : list string }.

(** A method that changes the model and may raise. *)
Definition sres (A : Type) : Type := imodel * result A.
Definition sbind {A B} (r : sres A) (f : imodel -> A -> sres B) : sres B :=
  match r with (s, Ok a) => f s a | (s, Err e) => (s, Err e) end.

(** [self.data_types[ref] = t; return t] *)
Definition register (s : imodel) (r : string) (t : dtype) : sres dtype :=
  (mkIM (assoc_set r t (im_types s)) (im_sources s), Ok t).

(** [str(x)] of an optional reference. *)
Definition str_opt (o : option string) : string := match o with Some s => s | None => "None" end.

(** [props[0]]: TypeError on None, IndexError when empty. *)
Definition first_props {A} (p : option (list A)) : result A :=
  match p with None => Err TypeError | Some [] => Err IndexError | Some (x :: _) => Ok x end.

(** symbol_name defaults to name (model/element.py:53-56). *)
Definition sym_of (symbol : option string) (name : string) : string :=
  match symbol with Some s => s | None => name end.

(** The recursive call [self.create_from_ref(ref, False)]. *)
Definition rec_t := imodel -> string -> sres dtype.

(** [props[0].base_type_ref] / [props[0].impl_data_type_ref], followed by the recursive call
    (implementation.py:117-118, 135-136, 177-178, 193-194, 227-228, 241-242). *)
Definition via_base (rec : rec_t) (s : imodel) (p : option (list xprops)) : sres dtype :=
  match first_props p with
  | Ok x => rec s (str_opt (p0_base (p_own x)))
  | Err e => (s, Err e)
  end.
Definition via_impl (rec : rec_t) (s : imodel) (p : option (list xprops)) : sres dtype :=
  match first_props p with
  | Ok x => rec s (str_opt (p0_impl (p_own x)))
  | Err e => (s, Err e)
  end.

(** Is the category the given text? *)
Definition cat_is (c : option string) (s : string) : bool :=
  match c with Some x => String.eqb x s | None => false end.

(** The sub-element of an array (implementation.py:151-156, 172-200): the size is asserted after the
    recursive call. *)
Definition make_array_elem (rec : rec_t) (s : imodel) (parent : string) (x : xsub) : sres delem :=
  let r := (parent ++ "/" ++ xs_name x)%string in
  if cat_is (xs_cat x) "VALUE" then
    sbind (via_base rec s (xs_props x)) (fun s b =>
      match xs_size x with
      | Some _ => (s, Ok (EScalar r (xs_name x) (xs_size x) b))
      | None => (s, Err AssertionError)
      end)
  else if cat_is (xs_cat x) "TYPE_REFERENCE" then
    sbind (via_impl rec s (xs_props x)) (fun s b =>
      match xs_size x with
      | Some _ => (s, Ok (ERef r (xs_name x) (xs_size x) b))
      | None => (s, Err AssertionError)
      end)
  else (s, Err NotImplementedError).

(** [_create_array_type_from_element], implementation.py:144-170.  Converting an XML
    enumeration member with the other module's enumeration class raises ValueError (157-162);
    an array with more than one dimension raises AttributeError, because
    [xml_ref.array_size] is read from a string (166).  Both happen after the element type was
    created. *)
Definition make_array (rec : rec_t) (s : imodel) (key name : string) (subs : list xsub)
    (symbol emitter : option string) : sres dtype :=
  match rev subs with
  | [] => (s, Err IndexError)
  | x :: outer =>
      sbind (make_array_elem rec s key x) (fun s e =>
        if xs_policy x || xs_handling x || xs_semantics x then (s, Err ValueError)
        else match outer with
             | [] => register s key (TArray key name (sym_of symbol name) emitter e)
             | _ :: _ => (s, Err AttributeError)
             end)
  end.

(** One member of a structure (implementation.py:212-217, 222-246). *)
Definition make_member (rec : rec_t) (parent : string) (s : imodel) (x : xsub) : sres delem :=
  let r := (parent ++ "/" ++ xs_name x)%string in
  if cat_is (xs_cat x) "VALUE" then
    sbind (via_base rec s (xs_props x)) (fun s b => (s, Ok (EScalar r (xs_name x) None b)))
  else if cat_is (xs_cat x) "TYPE_REFERENCE" then
    sbind (via_impl rec s (xs_props x)) (fun s b => (s, Ok (ERef r (xs_name x) None b)))
  else (s, Err NotImplementedError).

(** The loop over the members (implementation.py:211-218). *)
Fixpoint make_members (rec : rec_t) (parent : string) (s : imodel) (l : list xsub) : sres (list delem) :=
  match l with
  | [] => (s, Ok [])
  | x :: r =>
      sbind (make_member rec parent s x) (fun s e =>
        sbind (make_members rec parent s r) (fun s es => (s, Ok (e :: es))))
  end.

(** [_create_ptr_type_from_element], implementation.py:248-266. *)
Definition make_ptr (rec : rec_t) (s : imodel) (key name : string) (props : option (list xprops))
    (symbol emitter : option string) : sres dtype :=
  match first_props props with
  | Err e => (s, Err e)
  | Ok p =>
      match p_ptr p with
      | None => (s, Err AttributeError)
      | Some t =>
          let finish r :=
            sbind r (fun s d => register s key (TPtr key name (sym_of symbol name) emitter d)) in
          if cat_is (pt_cat t) "VALUE" then
            match first_props (pt_props t) with
            | Err e => (s, Err e)
            | Ok q => finish (rec s (str_opt (p0_base q)))
            end
          else if cat_is (pt_cat t) "TYPE_REFERENCE" then
            match first_props (pt_props t) with
            | Err e => (s, Err e)
            | Ok q => finish (rec s (str_opt (p0_impl q)))
            end
          else (s, Err NotImplementedError)
      end
  end.

(** [create_from_element] on an element whose type is not yet registered: dispatch on class
    and category, implementation.py:57-73, with the _create_* methods 102-142, 202-220. *)
Definition make_type (rec : rec_t) (s : imodel) (key : string) (x : xelem) : sres dtype :=
  match x with
  | XBase n native => register s key (TBase key n native)
  | XImpl n cat props subs symbol emitter =>
      match cat with
      | None => (s, Err AssertionError)
      | Some _ =>
          if cat_is cat "VALUE" then
            sbind (via_base rec s props) (fun s b =>
              register s key (TScalar key n (sym_of symbol n) emitter b))
          else if cat_is cat "TYPE_REFERENCE" then
            sbind (via_impl rec s props) (fun s b =>
              register s key (TRef key n (sym_of symbol n) b))
          else if cat_is cat "ARRAY" then make_array rec s key n subs symbol emitter
          else if cat_is cat "STRUCTURE" then
            sbind (make_members rec key s subs) (fun s es =>
              register s key (TRecord key n (sym_of symbol n) emitter es))
          else if cat_is cat "DATA_REFERENCE" then make_ptr rec s key n props symbol emitter
          else (s, Err NotImplementedError)
      end
  | XOther _ => (s, Err NotImplementedError)
  end.

(** [self.source_type_refs.add(ref)] (a set). *)
Definition add_source (s : imodel) (key : string) : imodel :=
  mkIM (im_types s) (if existsb (String.eqb key) (im_sources s) then im_sources s else im_sources s ++ [key]).

(** [create_from_element], implementation.py:48-74. *)
Definition create_elem (rec : rec_t) (s : imodel) (key : string) (x : xelem) (src : bool) : sres dtype :=
  match assoc key (im_types s) with
  | Some t => (s, Ok t)
  | None => make_type rec (if src then add_source s key else s) key x
  end.

(** [create_from_ref], implementation.py:39-46.  [fuel] bounds the recursion depth; running
    out of it stands for Python's RecursionError. *)
Fixpoint create (fuel : nat) (l : lib) (s : imodel) (ref : string) (src : bool) : sres dtype :=
  match fuel with
  | 0 => (s, Err OutOfFuel)
  | S f =>
      match lib_find l ref with
      | None => (s, Err KeyError)
      | Some (key, x) => create_elem (fun s r => create f l s r false) s key x src
      end
  end.

(** A new ImplementationModel (implementation.py:34-37). *)
Definition im0 : imodel := mkIM [] [].

(** A sequence of requests; a request that raises is caught by the caller and the next one is
    made.  Every request has its own recursion bound. *)
Definition requests (l : lib) (rs : list (nat * string)) : imodel :=
  fold_left (fun s r => fst (create (fst r) l s (snd r) true)) rs im0.

(** ** Dependency trees and creation order *)

(** Node, implementation.py:12-25. *)
Inductive node := Node (d : dtype) (ch : list node).

Definition ndata (n : node) : dtype := match n with Node d _ => d end.
Definition nkids (n : node) : list node := match n with Node _ c => c end.

(** [_create_tree_node] 268-284 and [_process_array_or_record_element_tree_node] 286-292. *)
Fixpoint tree (t : dtype) : result node :=
  match t with
  | TBase _ _ _ => Ok (Node t [])
  | TScalar _ _ _ _ b => let* c := tree b in Ok (Node t [c])
  | TRef _ _ _ i => let* c := tree i in Ok (Node t [c])
  | TArray _ _ _ _ e =>
      match e with
      | EScalar _ _ _ _ => Ok (Node t [])
      | ERef _ _ _ i => let* c := tree i in Ok (Node t [c])
      end
  | TRecord _ _ _ _ es =>
      let* cs := (fix go (es : list delem) : result (list node) :=
                    match es with
                    | [] => Ok []
                    | EScalar _ _ _ _ :: r => go r
                    | ERef _ _ _ i :: r => let* c := tree i in let* cs := go r in Ok (c :: cs)
                    end) es in
      Ok (Node t cs)
  | TPtr _ _ _ _ _ => Err NotImplementedError
  end.

(** Number of nodes, the recursion measure of the loop below. *)
Fixpoint size (n : node) : nat :=
  match n with Node _ ch => S ((fix go l := match l with [] => 0 | x :: r => size x + go r end) ch) end.

(** The while loop of [get_type_creation_order] (implementation.py:92-99): nodes in the order
    they are appended to [result]. *)
Fixpoint bfs (fuel : nat) (que : list node) : list node :=
  match fuel, que with
  | 0, _ => []
  | _, [] => []
  | S f, n :: q => n :: bfs f (q ++ rev (nkids n))
  end.

(** [get_type_creation_order], implementation.py:86-100. *)
Definition creation_order (root : node) : list node := rev (bfs (size root) [root]).

(** [sorted(set of str)]: insertion sort by code points. *)
Fixpoint insert_str (x : string) (l : list string) : list string :=
  match l with
  | [] => [x]
  | y :: r => if String.leb x y then x :: l else y :: insert_str x r
  end.
Fixpoint sort_str (l : list string) : list string :=
  match l with [] => [] | x :: r => insert_str x (sort_str r) end.

(** [gen_type_dependency_trees], implementation.py:76-84. *)
Definition trees (s : imodel) : result (list node) :=
  mapM (fun r => match assoc r (im_types s) with Some t => tree t | None => Err KeyError end)
       (sort_str (im_sources s)).

(** [s.upper()] on ASCII letters. *)
Definition upper_char (c : ascii) : ascii :=
  let k := N_of_ascii c in
  if (97 <=? k)%N && (k <=? 122)%N then ascii_of_N (k - 32) else c.
Fixpoint upper (s : string) : string :=
  match s with EmptyString => "" | String c r => String (upper_char c) (upper r) end.

(** The two [continue] tests of the generator, type_generator.py:81-87 (an empty native
    declaration counts as none). *)
Definition skipped (t : dtype) : bool :=
  match t with
  | TBase _ _ native => match native with Some s => String.eqb s "" | None => true end
  | TScalar _ _ _ em _ | TArray _ _ _ em _ | TRecord _ _ _ em _ | TPtr _ _ _ em _ =>
      match em with Some e => negb (String.eqb (upper e) "RTE") | None => false end
  | TRef _ _ _ _ => false
  end.

(** The loop body of [gen_data_type_creation_order], type_generator.py:76-88: [seen] is
    instance_refs. *)
Fixpoint select (seen : list string) (l : list dtype) : list string * list dtype :=
  match l with
  | [] => (seen, [])
  | t :: r =>
      if existsb (String.eqb (dref t)) seen then select seen r
      else let (seen', out) := select (seen ++ [dref t]) r in
           (seen', if skipped t then out else t :: out)
  end.

(** [gen_data_type_creation_order], type_generator.py:69-89: one pass over the creation orders
    of all trees. *)
Definition gen_order (s : imodel) : result (list dtype) :=
  let* ns := trees s in
  Ok (snd (select [] (flat_map (fun n => map ndata (creation_order n)) ns))).

(** ** Emitted declarations *)

(** What the calls to cfile's factory produce: [typedef target new], [typedef target new[size]],
    [struct tag {...}], [typedef struct tag new]. *)
Inductive cdecl :=
| CTypedef (new target : string)
| CTypedefArray (new target : string) (size : Z)
| CStruct (tag : string) (members : list (string * string))
| CTypedefStruct (new tag : string).

(** A native declaration is used when it is non-empty (type_generator.py:124, 139). *)
Definition native_or_name (b : dtype) : result string :=
  match b with
  | TBase _ n (Some nat) => if String.eqb nat "" then Ok n else Ok nat
  | TBase _ n None => Ok n
  | _ => Err AttributeError     (* only BaseType has native_declaration *)
  end.

(** Target type of an array element or structure member, type_generator.py:120-131, 134-147. *)
Definition elem_target (e : delem) : result string :=
  match e with
  | EScalar _ _ _ b => native_or_name b
  | ERef _ _ _ i => Ok (dname i)
  end.

(** [_gen_type_defs] for one data type, type_generator.py:100-153. *)
Definition gen_def (t : dtype) : result (list cdecl) :=
  match t with
  | TBase _ n native => Ok [CTypedef n (str_opt native)]
  | TScalar _ n _ _ b => Ok [CTypedef n (dname b)]
  | TRef _ n _ i => Ok [CTypedef n (dname i)]
  | TArray _ n _ _ e =>
      let* tg := elem_target e in
      let sz := match e with EScalar _ _ (Some z) _ | ERef _ _ (Some z) _ => z | _ => 0%Z end in
      Ok [CTypedefArray n tg sz]
  | TRecord _ n _ _ es =>
      let* ms := mapM (fun e => let* tg := elem_target e in
                                Ok (match e with EScalar _ m _ _ | ERef _ m _ _ => m end, tg)) es in
      Ok [CStruct ("Rte_struct_" ++ n)%string ms; CTypedefStruct n ("Rte_struct_" ++ n)%string]
  | TPtr _ _ _ _ _ => Err NotImplementedError
  end.

(** [_gen_type_defs], type_generator.py:100-118, applied to the creation order as in
    write_type_defs_str 91-98 and _create_code_sequence 61. *)
Definition gen_defs (s : imodel) : result (list cdecl) :=
  let* ts := gen_order s in
  let* ds := mapM gen_def ts in
  Ok (List.concat ds).
