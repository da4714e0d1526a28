(** What computation methods, data constraints and base types are for: converting values and checking limits. *)
From Verif Require Import Base MNum SNum MXml MEnum MRefTab MRef MCodec SCodec MElem0 MElem1 MElemA MElemB MElemC MElem2 MElemD MElem3 MElem4 MElemE MElem5 MElemF MArxml MFind MValue MEvent MPort MAccess MMeth SPort SAccess.
From Coq Require Import QArith.
Open Scope list_scope.
Open Scope string_scope.

(** ** Limits *)
(** [x] is above (below) a limit; a limit that is not set is no limit; a text is no limit for numbers. *)
Definition above (limit : option scalar) (t : IntervalType) (x : Q) : Prop :=
  match limit with
  | None => True
  | Some (SNum n) => match t with IntervalType_CLOSED => ext_le (meaning n) (Fin x) | IntervalType_OPEN => ext_lt (meaning n) (Fin x) end
  | Some (SText _) => False
  end.
Definition below (limit : option scalar) (t : IntervalType) (x : Q) : Prop :=
  match limit with
  | None => True
  | Some (SNum n) => match t with IntervalType_CLOSED => ext_le (Fin x) (meaning n) | IntervalType_OPEN => ext_lt (Fin x) (meaning n) end
  | Some (SText _) => False
  end.
Definition applies_to (s : CompuScale) (x : Q) : Prop :=
  above (CompuScale_lower_limit s) (CompuScale_lower_limit_type s) x /\ below (CompuScale_upper_limit s) (CompuScale_upper_limit_type s) x.

(** ** Conversions *)
(** Coefficients a, b, c, ... denote a + b x + c x^2 + ...; without denominator it is 1. *)
Definition coefficients (l : list pynum) (qs : list Q) : Prop := Forall2 (fun n q => meaning n = Fin q) l qs.
Inductive outcome := Text (t : string) | Number (q : Q).
Inductive yields (x : Q) : CompuScaleContent -> outcome -> Prop :=
| yields_text t : yields x (ScaleConst (mkCompuConst (Some (SText t)))) (Text t)
| yields_number n p q : meaning n = Fin p -> (p == q)%Q -> yields x (ScaleConst (mkCompuConst (Some (SNum n)))) (Number q)
| yields_fraction num den ps qs y : coefficients num ps -> coefficients den qs -> ~ (poly qs x == 0)%Q -> (y == poly ps x / poly qs x)%Q ->
    yields x (ScaleRational (mkCompuRational (Some num) (Some den))) (Number y)
| yields_polynomial num ps y : coefficients num ps -> (y == poly ps x)%Q -> yields x (ScaleRational (mkCompuRational (Some num) None)) (Number y).
(** A computation converts [x] to what one of the scales that apply to [x] yields. *)
Definition converts (c : Computation) (x : Q) (y : outcome) : Prop :=
  exists scales s content, Computation_compu_scales c = Some scales /\ In s scales /\ applies_to s x /\ CompuScale_content s = Some content /\ yields x content y.
Definition same_conversions (a b : option Computation) : Prop :=
  match a, b with
  | None, None => True
  | Some a, Some b => forall x y, converts a x y <-> converts b x y
  | _, _ => False
  end.

(** ** Value tables *)
(** What the entry number [k] of a value table says: the numbers from [lo] to [up] stand for [v]. *)
Inductive entry (k : nat) : table_item -> scalar -> scalar -> scalar -> Prop :=
| entry_text t : entry k (TText t) (SNum (NInt (Z.of_nat k))) (SNum (NInt (Z.of_nat k))) (SText t)
| entry_one a v : entry k (TTuple [a; v]) a a v
| entry_range a b v : entry k (TTuple [a; b; v]) a b v.
Definition stands_for (v : scalar) (y : outcome) : Prop :=
  match v with SText t => y = Text t | SNum n => exists p q, meaning n = Fin p /\ (p == q)%Q /\ y = Number q end.
(** A default value may be given as an object or as a plain value. *)
Definition default_as_given (def : option const_arg) (c : option CompuConst) : Prop :=
  match def with None => c = None | Some (ConstObject o) => c = Some o | Some (ConstValue s) => exists o, c = Some o /\ CompuConst_value o = Some s end.

(** ** Numbers between limits that are both set *)
Definition within (lo up : pynum) (lower_type upper_type : IntervalType) (v : pynum) : Prop :=
  match lower_type with IntervalType_CLOSED => ext_le (meaning lo) (meaning v) | IntervalType_OPEN => ext_lt (meaning lo) (meaning v) end /\
  match upper_type with IntervalType_CLOSED => ext_le (meaning v) (meaning up) | IntervalType_OPEN => ext_lt (meaning v) (meaning up) end.
Definition is_number (n : pynum) : Prop := meaning n <> NotANumber.

(** ** Names and descriptions: only the arguments every element has *)
Definition named (name : string) (kw : keyword_args) (i : identifiable) : Prop :=
  only ["desc"; "category"; "uuid"; "admin_data"; "long_name"] kw /\ identity name kw i.
