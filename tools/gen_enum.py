"""Generates MEnum.v and MRefTab.v from the text of enumeration.py and reference.py (read only)."""
import ast, sys
SRC = '/repo/src/autosar/xml/'
t = ast.parse(open(SRC + 'enumeration.py').read())
enums, lines, x2e, e2x, x2e_l, e2x_l = {}, {}, {}, {}, {}, {}
def q(s): return '"' + s + '"'
def entry(n, text):
    if isinstance(n, ast.Constant): return 'Plain ' + q(n.value)
    if isinstance(n, ast.Attribute): return f'Plain {n.value.id}_{n.attr}'
    if isinstance(n, ast.Call):
        a = n.args[0]
        v = sorted(ast.literal_eval(n.args[1]))
        x = q(a.value) if text else f'{a.value.id}_{a.attr}'
        return f'Versioned {x} [{"; ".join(str(i) for i in v)}]%N'
    raise Exception(ast.dump(n))
for n in t.body:
    if isinstance(n, ast.ClassDef):
        ms = [(b.targets[0].id, ast.literal_eval(b.value)) for b in n.body if isinstance(b, ast.Assign)]
        if ms and any(isinstance(x, ast.Name) and x.id == 'Enum' for x in n.bases):
            enums[n.name] = ms; lines[n.name] = (n.lineno, n.end_lineno)
    tgt = n.target.id if isinstance(n, ast.AnnAssign) else n.targets[0].id if isinstance(n, ast.Assign) else None
    if tgt == 'xml_to_enum_map':
        for k, v in zip(n.value.keys, n.value.values):
            x2e[k.value] = [(kk.value, entry(vv, False)) for kk, vv in zip(v.keys, v.values)]; x2e_l[k.value] = (k.lineno, v.end_lineno); assert len(set(a.value for a in v.keys)) == len(v.keys)
    if tgt == 'enum_to_xml_map':
        for k, v in zip(n.value.keys, n.value.values):
            e2x[k.value] = [entry(x, True) for x in v.elts]; e2x_l[k.value] = (k.lineno, v.end_lineno)
skip = {'PackageRole'}
out = ['''(** Enumerations and their XML texts.  Generated from /repo/src/autosar/xml/enumeration.py by
    tools/gen_enum.py; one inductive type per Enum class, the tables entry by entry.
    PackageRole is in MWork.v.  No proofs in this file. *)
From Verif Require Import Base.

(** Table entries: a value, or a VersionedEnumValue / VersionedTextValue with the schema versions
    it is valid in (enumeration.py:697-716). *)
Inductive entry (A : Type) := Plain (a : A) | Versioned (a : A) (versions : list N).
Arguments Plain {A}. Arguments Versioned {A}.

(** An Enum class: integer values of the members, entry of xml_to_enum_map and of
    enum_to_xml_map (None: no such key). *)
Record enum_map (A : Type) := mkEnum {
  em_name : string;
  em_value : A -> nat;
  em_from : option (list (string * entry A));
  em_to : option (list (entry string)) }.
Arguments mkEnum {A}. Arguments em_name {A}. Arguments em_value {A}. Arguments em_from {A}. Arguments em_to {A}.

(** The value of an entry under a schema version. *)
Definition entry_value {A} (e : entry A) (version : N) : result A :=
  match e with
  | Plain a => Ok a
  | Versioned a vs => if existsb (N.eqb version) vs then Ok a else Err VersionError
  end.

(** xml_to_enum, enumeration.py:1121-1137 *)
Definition xml_to_enum {A} (m : enum_map A) (text : string) (version : N) : result A :=
  match em_from m with
  | None => Err KeyError
  | Some tbl => match assoc text tbl with
                | None => Err KeyError
                | Some e => entry_value e version
                end
  end.

(** enum_to_xml, enumeration.py:1529-1542 *)
Definition enum_to_xml {A} (m : enum_map A) (a : A) (version : N) : result string :=
  match em_to m with
  | None => Err KeyError
  | Some tbl => match nth_error tbl (em_value m a) with
                | None => Err IndexError
                | Some e => entry_value e version
                end
  end.
''']
for e, ms in enums.items():
    if e in skip: continue
    names = [m for m, _ in ms]
    out.append(f'(** {e}, enumeration.py:{lines[e][0]}-{lines[e][1]} *)')
    # aliases: Python enums with equal values share the member
    seen = {}
    members = []
    for m, v in ms:
        if v in seen: continue
        seen[v] = m; members.append((m, v))
    out.append(f'Inductive {e} :=\n' + '\n'.join(f'| {e}_{m}' for m, v in members) + '.')
    out.append(f'(** Values, and the tables at enumeration.py:{x2e_l.get(e, ("-", "-"))[0]}-{x2e_l.get(e, ("-", "-"))[1]} and {e2x_l.get(e, ("-", "-"))[0]}-{e2x_l.get(e, ("-", "-"))[1]} *)')
    out.append(f'Definition {e}_value (x : {e}) : nat :=\n  match x with\n' + '\n'.join(f'  | {e}_{m} => {v}' for m, v in members) + '\n  end.')
    fr = 'None' if e not in x2e else 'Some [\n' + ';\n'.join(f'    ({q(k)}, {v})' for k, v in x2e[e]) + ']'
    to = 'None' if e not in e2x else 'Some [\n' + ';\n'.join(f'    {v}' for v in e2x[e]) + ']'
    out.append(f'Definition em_{e} : enum_map {e} := mkEnum {q(e)} {e}_value\n  ({fr})\n  ({to}).\n')
out.append('(** Any enumeration. *)\nInductive some_enum := SomeEnum (A : Type) (m : enum_map A).')
out.append('(** All Enum classes of the module (except PackageRole). *)\nDefinition all_enums : list some_enum := [\n' +
           ';\n'.join(f'  SomeEnum _ em_{e}' for e in enums if e not in skip) + '].')
open('/verif/rocq/theories/MEnum.v', 'w').write('\n'.join(out) + '\n')

# references
t = ast.parse(open(SRC + 'reference.py').read())
out = ['''(** Reference classes.  Generated from /repo/src/autosar/xml/reference.py by tools/gen_enum.py.
    No proofs in this file. *)
From Verif Require Import Base MEnum.

(** How the reader method of a reference class treats the DEST attribute (reader.py:2300-2830): compare
    with a literal text, or convert it with xml_to_enum and pass it to the constructor. *)
Inductive dest_reader := DestText (s : string) | DestEnum | NoReader.

(** A reference class: name, default of the constructor argument dest, accepted_sub_types(), and
    its reader method.  (The writer methods, writer.py:1973-2478, all write the text of dest.) *)
Record ref_class := mkRefClass {
  rc_name : string; rc_default : option IdentifiableSubTypes; rc_accepted : list IdentifiableSubTypes;
  rc_reader : dest_reader }.
''']
rd = {}
for n in ast.walk(ast.parse(open(SRC + 'reader.py').read())):
    if isinstance(n, ast.FunctionDef) and n.name.startswith('_read_') and n.name.endswith('_ref') and 2300 <= n.lineno < 2832:
        ret = n.body[-1].value
        cls = ret.func.attr
        ifs = [x for x in n.body if isinstance(x, ast.If)]
        assert cls not in rd and ast.unparse(ret.args[0]) == 'xml_elem.text'
        if ifs:
            assert len(ret.args) == 1 and ast.unparse(ifs[0].test.left) == "data['dest']"
            rd[cls] = (f'(DestText {q(ifs[0].test.comparators[0].value)})', n.lineno)
        else:
            assert len(ret.args) == 2 and ret.args[1].id == 'dest_enum'
            rd[cls] = ('DestEnum', n.lineno)
names = []
for n in t.body:
    if not isinstance(n, ast.ClassDef): continue
    default, acc = None, None
    for b in n.body:
        if isinstance(b, ast.FunctionDef) and b.name == '__init__':
            d = b.args.defaults
            assert ast.unparse(b.body[-1]) == 'super().__init__(value, dest)', n.name
            if d and isinstance(d[-1], ast.Attribute): default = d[-1].attr
        if isinstance(b, ast.FunctionDef) and b.name == 'accepted_sub_types':
            acc = [x.attr for x in b.body[-1].value.elts]
    assert [x.id for x in n.bases] == ['BaseRef'], n.name
    names.append(n.name)
    dd = 'None' if default is None else f'(Some IdentifiableSubTypes_{default})'
    out.append(f'(** {n.name}, reference.py:{n.lineno}-{n.end_lineno}, reader.py:{rd.get(n.name, (0, 0))[1]} *)\nDefinition rc_{n.name} : ref_class := mkRefClass {q(n.name)} {dd}\n  [' +
               ';\n   '.join(f'IdentifiableSubTypes_{x}' for x in acc) + f']\n  {rd.get(n.name, ("NoReader", 0))[0]}.\n')
out.append('(** All of them. *)\nDefinition all_ref_classes : list ref_class := [\n' + ';\n'.join(f'  rc_{x}' for x in names) + '].')
open('/verif/rocq/theories/MRefTab.v', 'w').write('\n'.join(out) + '\n')
