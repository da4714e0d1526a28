(** The parser reads from the left: what it has accepted does not depend on what follows. *)
From Verif Require Import Base PBase MNames PNames MNum MXml SXml SSpell PSpell PXml.
Open Scope string_scope.

Lemma root_more p x r s : parse_root p = Some (x, r) -> parse_root (p ++ s) = Some (x, r ++ s).
Proof.
  intros E. apply root_sound in E as (mark & decl & before & e & -> & M & D & B & S).
  rewrite !str_app_assoc. now apply root_complete.
Qed.

(** What is accepted stays accepted only when followed by white space, comments and processing
    instructions, and is the same document. *)
Theorem parse_prefix p s x y : parse p = Ok x -> parse (p ++ s) = Ok y -> around s /\ x = y.
Proof.
  unfold parse. intros P T. destruct (parse_root p) as [[x1 r]|] eqn:R; [|discriminate]. rewrite (root_more p x1 r s R) in T.
  destruct (String.eqb_spec (skip_misc (String.length r) r) "") as [K1|]; [|discriminate].
  destruct (String.eqb_spec (skip_misc (String.length (r ++ s)) (r ++ s)) "") as [K2|]; [|discriminate]. split; [|congruence].
  destruct (skip_sound (String.length r) r) as (g1 & G1 & A1). rewrite K1, str_app_nil_r in G1. subst g1.
  destruct (skip_sound (String.length (r ++ s)) (r ++ s)) as (g2 & G2 & A2). rewrite K2, str_app_nil_r in G2. subst g2.
  exact (around_cancel r s A1 A2).
Qed.
(** Of a text that ends with its document element nothing can be missing. *)
Lemma root_end t x p s : parse_root t = Some (x, "") -> t = p ++ s -> forall y, parse p = Ok y -> s = "".
Proof.
  intros T -> y P. unfold parse in P. destruct (parse_root p) as [[x1 r]|] eqn:R; [|discriminate].
  rewrite (root_more p x1 r s R) in T. injection T as _ T. destruct r; [exact T|discriminate].
Qed.
