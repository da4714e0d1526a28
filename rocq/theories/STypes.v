(** Specification vocabulary for C10 - C12. *)
From Verif Require Import Base MTypes.

(** [needs t d]: the C declaration of [t] names type [d]. *)
Inductive needs : dtype -> dtype -> Prop :=
| needs_scalar r n y em b : needs (TScalar r n y em b) b
| needs_ref r n y i : needs (TRef r n y i) i
| needs_array r n y em r' n' z i : needs (TArray r n y em (ERef r' n' z i)) i
| needs_record r n y em es r' n' z i : In (ERef r' n' z i) es -> needs (TRecord r n y em es) i.

(** Transitively (including the type itself). *)
Inductive requires : dtype -> dtype -> Prop :=
| req_self t : requires t t
| req_step t d u : needs t d -> requires d u -> requires t u.

(** Every type a type is built from, also those whose native declaration is used directly and
    the targets of pointers. *)
Inductive built_from : dtype -> dtype -> Prop :=
| bf_needs t d : needs t d -> built_from t d
| bf_array r n y em r' n' z b : built_from (TArray r n y em (EScalar r' n' z b)) b
| bf_record r n y em es r' n' z b : In (EScalar r' n' z b) es -> built_from (TRecord r n y em es) b
| bf_ptr r n y em d : built_from (TPtr r n y em d) d.

(** A base type without native declaration, or a type whose emitter is somebody else. *)
Definition somebody_elses (t : dtype) : Prop :=
  match t with
  | TBase _ _ native => native = None \/ native = Some ""
  | TScalar _ _ _ em _ | TArray _ _ _ em _ | TRecord _ _ _ em _ | TPtr _ _ _ em _ =>
      exists e, em = Some e /\ upper e <> "RTE"
  | TRef _ _ _ _ => False
  end.

(** [t] is registered in the model under reference [r]. *)
Definition registered (s : imodel) (r : string) (t : dtype) : Prop := assoc r (im_types s) = Some t.

(** Every type registered before is registered afterwards, unchanged. *)
Definition keeps_types (s s' : imodel) : Prop := forall r t, registered s r t -> registered s' r t.

(** Models some sequence of requests produces from a workspace. *)
Definition built (l : lib) (s : imodel) : Prop := exists rs, s = requests l rs.

(** Every request of the sequence returned a type. *)
Definition all_succeed (l : lib) (rs : list (nat * string)) : Prop :=
  forall a q b, rs = a ++ q :: b -> exists t, snd (create (fst q) l (requests l a) (snd q) true) = Ok t.

(** The type names a C declaration mentions, and those it introduces. *)
Definition uses (d : cdecl) : list string :=
  match d with
  | CTypedef _ t | CTypedefArray _ t _ => [t]
  | CStruct _ ms => map snd ms
  | CTypedefStruct _ tag => [("struct " ++ tag)%string]
  end.
Definition declares (d : cdecl) : list string :=
  match d with
  | CTypedef n _ | CTypedefArray n _ _ | CTypedefStruct n _ => [n]
  | CStruct tag _ => [("struct " ++ tag)%string]
  end.

(** ** What a type element refers to *)

(** References the creation of an element follows. *)
Definition props_base (p : option (list xprops)) : list string :=
  match first_props p with Ok x => [str_opt (p0_base (p_own x))] | Err _ => [] end.
Definition props_impl (p : option (list xprops)) : list string :=
  match first_props p with Ok x => [str_opt (p0_impl (p_own x))] | Err _ => [] end.
Definition sub_refs (x : xsub) : list string :=
  if cat_is (xs_cat x) "VALUE" then props_base (xs_props x)
  else if cat_is (xs_cat x) "TYPE_REFERENCE" then props_impl (xs_props x) else [].
Definition ptr_refs (p : option (list xprops)) : list string :=
  match first_props p with
  | Ok x => match p_ptr x with
            | Some t => match first_props (pt_props t) with
                        | Ok q => if cat_is (pt_cat t) "VALUE" then [str_opt (p0_base q)]
                                  else if cat_is (pt_cat t) "TYPE_REFERENCE" then [str_opt (p0_impl q)] else []
                        | Err _ => []
                        end
            | None => []
            end
  | Err _ => []
  end.
Definition xrefs (x : xelem) : list string :=
  match x with
  | XImpl _ cat props subs _ _ =>
      if cat_is cat "VALUE" then props_base props
      else if cat_is cat "TYPE_REFERENCE" then props_impl props
      else if cat_is cat "ARRAY" then match rev subs with x :: _ => sub_refs x | [] => [] end
      else if cat_is cat "STRUCTURE" then flat_map sub_refs subs
      else if cat_is cat "DATA_REFERENCE" then ptr_refs props else []
  | _ => []
  end.

(** [k]'s element refers to [m]; and reachability along such references. *)
Definition edge (l : lib) (k m : string) : Prop :=
  exists x q, assoc k l = Some x /\ In q (xrefs x) /\ m = absolute q.

Inductive xreach (l : lib) : string -> string -> Prop :=
| xr_refl k : xreach l k k
| xr_step k m j : edge l k m -> xreach l m j -> xreach l k j.

(** Transitive closure of [built_from] (including the type itself). *)
Inductive contains : dtype -> dtype -> Prop :=
| con_self t : contains t t
| con_step t d u : built_from t d -> contains d u -> contains t u.
