(** Regular expressions and what they match, for the texts that data definition properties accept. *)
From Verif Require Import Base MNum.
Open Scope string_scope.

(** Regular expressions: a character of a set, a word, a sequence, a choice, repetition. *)
Inductive regex :=
| Chars (p : ascii -> Prop)
| Word (s : string)
| Seq (a b : regex)
| Or (a b : regex)
| Star (a : regex)
| Plus (a : regex)
| Opt (a : regex).
Inductive matches : regex -> string -> Prop :=
| m_char (p : ascii -> Prop) c : p c -> matches (Chars p) (String c "")
| m_word s : matches (Word s) s
| m_seq a b s t : matches a s -> matches b t -> matches (Seq a b) (s ++ t)
| m_or_l a b s : matches a s -> matches (Or a b) s
| m_or_r a b s : matches b s -> matches (Or a b) s
| m_star_none a : matches (Star a) ""
| m_star_more a s t : matches a s -> matches (Star a) t -> matches (Star a) (s ++ t)
| m_plus a s t : matches a s -> matches (Star a) t -> matches (Plus a) (s ++ t)
| m_opt_none a : matches (Opt a) ""
| m_opt_some a s : matches a s -> matches (Opt a) s.
Definition among (s : string) (c : ascii) : Prop := mem_char c s = true.
(** Characters between two others, as in [0-9]. *)
Definition from_to (a b c : ascii) : Prop := (N_of_ascii a <= N_of_ascii c <= N_of_ascii b)%N.
Definition digit := Chars (from_to "0" "9").

(** [1-9][0-9]*|0[xX][0-9a-fA-F]*|0[bB][0-1]+|0[0-7]*|UNSPECIFIED|UNKNOWN|BOOLEAN|PTR *)
Definition alignment_pattern : regex :=
  Or (Seq (Chars (from_to "1" "9")) (Star digit))
  (Or (Seq (Word "0") (Seq (Chars (among "xX")) (Star (Chars (fun c => from_to "0" "9" c \/ from_to "a" "f" c \/ from_to "A" "F" c)))))
  (Or (Seq (Word "0") (Seq (Chars (among "bB")) (Plus (Chars (from_to "0" "1")))))
  (Or (Seq (Word "0") (Star (Chars (from_to "0" "7"))))
  (Or (Word "UNSPECIFIED") (Or (Word "UNKNOWN") (Or (Word "BOOLEAN") (Word "PTR"))))))).
(** %[ \-+#]?[0-9]*(\.[0-9]+)?[diouxXfeEgGcs] *)
Definition display_format_pattern : regex :=
  Seq (Word "%") (Seq (Opt (Chars (among " -+#"))) (Seq (Star digit) (Seq (Opt (Seq (Word ".") (Plus digit))) (Chars (among "diouxXfeEgGcs"))))).
(** The text starts with something that matches. *)
Definition starts_like (r : regex) (s : string) : Prop := exists a b, s = a ++ b /\ matches r a.
