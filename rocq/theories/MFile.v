(** Files: what saving does to the file system, step by step. *)
From Verif Require Import Base MXml MArxml.
Open Scope list_scope.

(** The content of each path; None: there is no such file. *)
Definition fs := string -> option string.
(** open(path, 'w') creates or truncates (writer.py:41-47); write appends (writer.py:66-75 and others) *)
Inductive io := Truncate (path : string) | Append (path text : string).
Definition exec (s : fs) (o : io) : fs := fun q =>
  match o with
  | Truncate p => if String.eqb q p then Some "" else s q
  | Append p t => if String.eqb q p then match s q with Some c => Some (c ++ t)%string | None => None end else s q
  end.
Definition run_io (s : fs) (l : list io) : fs := fold_left exec l s.
(** One text, written in pieces.  The pieces the writer hands over are gathered in a buffer; when they reach the file is not
    known, so the pieces are arbitrary. *)
Definition save_io (path : string) (pieces : list string) : list io := Truncate path :: map (Append path) pieces.

(** Writer.write_file, writer.py:409-415: the file is opened before the document is looked at.  When the document cannot be
    written, the exception leaves a file with what was written before, which the model does not determine. *)
Inductive saving (path : string) (d : document) : list io -> result unit -> Prop :=
| saving_done pieces : write_file d = Ok (String.concat "" pieces) -> saving path d (save_io path pieces) (Ok tt)
| saving_fails pieces e : write_file d = Err e -> saving path d (save_io path pieces) (Err e).
(** Several documents, one after the other, until one fails (workspace.py:194-202, 244-276) *)
Inductive savings : list (string * document) -> list io -> result unit -> Prop :=
| savings_done : savings [] [] (Ok tt)
| savings_next path d l a b r : saving path d a (Ok tt) -> savings l b r -> savings ((path, d) :: l) (a ++ b) r
| savings_fails path d l a e : saving path d a (Err e) -> savings ((path, d) :: l) a (Err e).
