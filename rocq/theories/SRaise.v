(** The kinds of exceptions that loading (C76) and saving (C77) can end with. *)
From Verif Require Import Base.
Open Scope list_scope.

(** Loading a document *)
Definition reading_kinds : list exn := [ParseError; DuplicateElement; KeyError; ValueError; TypeError; AttributeError; AssertionError; NotImplementedError].
(** A call that returns, or raises one of these *)
Definition expected {A} (r : result A) : Prop := forall e, r = Err e -> In e reading_kinds.
(** The kinds of exceptions that saving a document can end with (C77) *)
Definition writing_kinds : list exn := [TypeError; AssertionError; NotImplementedError; KeyError; ValueError; DecimalInvalidOperation].
Definition foreseen {A} (r : result A) : Prop := forall e, r = Err e -> In e writing_kinds.
