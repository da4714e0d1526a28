(** C77: which exceptions saving can end with. *)
From Verif Require Import Base PBase MNames MNum MXml MEnum MRefTab MRef MCodec MElem0 MElem1 MElemA MElemB MElemC MElem2 MElemD MElem3 MElem4 MElemE MElem5 MElemF MArxml PArxml PropsArxml PropsSave MStr MDispatch SRaise PRaiseW PRaiseD.
Open Scope list_scope.
Open Scope string_scope.

(** ** C77 *)
(** Whatever the document holds, saving it ends with a text or with an exception of one of six kinds. *)
Theorem C77_documents d skip_root_attr : (exists text, write_str d skip_root_attr = Ok text) \/ (exists e, write_str d skip_root_attr = Err e /\ In e writing_kinds).
Proof. destruct (write_str d skip_root_attr) as [t|e] eqn:E; [eauto|]. right. exists e. split; [reflexivity|]. now apply (w_write_str d skip_root_attr). Qed.
(** The same for single elements, with or without a tag, as a string *)
Theorem C77_single_elements v o tag : (exists text, write_str_elem v o tag = Ok text) \/ (exists e, write_str_elem v o tag = Err e /\ In e writing_kinds).
Proof. destruct (write_str_elem v o tag) as [t|e] eqn:E; [eauto|]. right. exists e. split; [reflexivity|]. now apply (w_write_str_elem v o tag). Qed.
(** and as a file. *)
Theorem C77_element_files v o : (exists text, write_file_elem v o = Ok text) \/ (exists e, write_file_elem v o = Err e /\ In e writing_kinds).
Proof. destruct (write_file_elem v o) as [t|e] eqn:E; [eauto|]. right. exists e. split; [reflexivity|]. now apply (w_write_file_elem v o). Qed.
(** In particular the XML text never runs out of open elements to close, and no enumeration value is refused because of its version. *)
Theorem C77_never d skip_root_attr v o tag e : write_str d skip_root_attr = Err e \/ write_str_elem v o tag = Err e \/ write_file_elem v o = Err e ->
  ~ In e [OutOfFuel; VersionError; IndexError; RuntimeError; AttributeError; ParseError; DuplicateElement; InvalidReferenceError; UnboundLocalError].
Proof.
  intros [H|[H|H]] I; [apply (w_write_str d skip_root_attr) in H|apply (w_write_str_elem v o tag) in H|apply (w_write_file_elem v o) in H];
    cbn in H, I; intuition (subst; discriminate).
Qed.

(** ** No kind can be left out *)
Definition element_with (e : exn) : ARElement :=
  match e with
  | TypeError => limit_text
  | AssertionError => assembly IdentifiableSubTypes_R_PORT_PROTOTYPE
  | NotImplementedError => AR_Unit (mkUnit (mkIdent "U" (Some [mkLang Language_EN [PInline (IEmphasis None None None None)]]) None None None None None None) None None None None)
  | KeyError => AR_ModeSwitchInterface (mkModeSwitchInterface (name_only "I") None (Some ServiceKind_ANY_STANDARDIZED) None)
  | ValueError => AR_ConstantSpecification (mkConstantSpecification (name_only "C") (Some (NumericalValueSpecification None (Some (Wrapped (mkNum (NFloat (FFin false 15 (-1))) FMT_HEXADECIMAL))))))
  | _ => unit_with (NInt (10 ^ 28))
  end.
Theorem C77_every_kind e : In e writing_kinds -> write_file (doc_with 51 (element_with e)) = Err e.
Proof. cbn. intuition subst; vm_compute; reflexivity. Qed.

(** ** Examples *)
Example C77_examples : (exists text, write_file ex_document = Ok text) /\
  write_str_elem 51 (An_Unit (mkUnit (name_only "U") None None None None)) (Some "TAG") = Err TypeError /\
  (exists text, write_str_elem 51 (An_Unit (mkUnit (name_only "U") None None None None)) None = Ok text).
Proof. repeat split; try eexists; vm_compute; reflexivity. Qed.

Print Assumptions C77_documents.
Print Assumptions C77_single_elements.
Print Assumptions C77_element_files.
Print Assumptions C77_never.
Print Assumptions C77_every_kind.
