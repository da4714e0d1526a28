#!/usr/bin/env python3
"""Generates the models of the element classes, their writer and reader methods (theories/ME*.v) and
the matching specifications and round-trip lemmas (SE*.v, PE*.v) from /repo/src/autosar/xml.

Writer definitions come from writer.py only, reader definitions from reader.py only, record fields
from the constructors in element.py; a statement whose shape is not known stops the generator.
"""
import ast, re, sys

SRC = '/repo/src/autosar/xml/'
def load(f): return ast.parse(open(SRC + f).read())
E, W, R, RF, EN = load('element.py'), load('writer.py'), load('reader.py'), load('reference.py'), load('enumeration.py')
U = ast.unparse

class Unsupported(Exception): pass

refs = {c.name: c for c in RF.body if isinstance(c, ast.ClassDef)}
enums = {c.name for c in EN.body if isinstance(c, ast.ClassDef)}
classes = {c.name: c for c in E.body if isinstance(c, ast.ClassDef)}
aliases = {}
for n in E.body:
    if isinstance(n, ast.Assign) and isinstance(n.targets[0], ast.Name):
        aliases[n.targets[0].id] = U(n.value).replace("'", "")

def methods(tree, cls):
    for c in tree.body:
        if isinstance(c, ast.ClassDef) and c.name == cls:
            return {f.name: f for f in c.body if isinstance(f, ast.FunctionDef)}
wm = methods(W, 'Writer'); rm = methods(R, 'Reader')
def init(c): return next((f for f in classes[c].body if isinstance(f, ast.FunctionDef) and f.name == '__init__'), None)
def bases(c): return [U(b) for b in classes[c].bases if U(b) in classes]
def is_a(c, b): return c == b or any(is_a(x, b) for x in bases(c))
def switcher(tree, cls, name):
    d = {}
    for n in ast.walk(next(c for c in tree.body if isinstance(c, ast.ClassDef) and c.name == cls)):
        if isinstance(n, (ast.Assign, ast.AnnAssign)):
            t = n.targets[0] if isinstance(n, ast.Assign) else n.target
            if U(t) == 'self.' + name and isinstance(n.value, ast.Dict):
                for k, v in zip(n.value.keys, n.value.values): d[k.value] = v.attr
    return d

# ---------------------------------------------------------------- types of attributes
OBJ = {'MultilanguageLongName': 'list lang_text', 'MultiLanguageOverviewParagraph': 'list lang_text',
       'DocumentationBlock': 'DocumentationBlock', 'SingleLanguageUnitNames': 'SingleLanguageUnitNames',
       'AdminData': 'AdminData', 'Annotation': 'Annotation'}
SUMS = {}       # sum type name -> list of classes
TY_OVER = {    # (class, attr) -> type, where the constructor has no usable annotation
    ('DataTypeMap', 'appl_data_type_ref'): ('ref', 'ApplicationDataTypeRef'), ('DataTypeMap', 'impl_data_type_ref'): ('ref', 'ImplementationDataTypeRef'),
    ('DataTypeMappingSet', 'mode_request_type_maps'): None,
    ('ParameterProvideComSpec', 'parameter_ref'): ('ref', 'ParameterDataPrototypeRef'), ('ParameterRequireComSpec', 'parameter_ref'): ('ref', 'ParameterDataPrototypeRef'),
    ('ModeSwitchSenderComSpec', 'queue_length'): ('int',),
    ('TransmissionComSpecProps', 'data_update_period'): ('float',), ('TransmissionComSpecProps', 'minimum_send_interval'): ('float',),
    ('NonqueuedReceiverComSpec', 'alive_timeout'): ('float',), ('TimingEvent', 'offset'): ('float',), ('TimingEvent', 'period'): ('float',),
    ('SymbolProps', 'name'): ('name',), ('ExecutableEntityActivationReason', 'name'): ('name',),
    ('PortApiOption', 'supported_features'): ('list', ('obj', 'CommunicationBufferLocking')),
    ('AtomicSoftwareComponentType', '_internal_behavior'): None,
    ('AtomicSoftwareComponentType', 'internal_behavior'): ('obj', 'SwcInternalBehavior'),
    ('AtomicSoftwareComponentType', 'symbol_props'): ('obj', 'SymbolProps'),
}
IDENT = ['name', 'parent', 'long_name', 'desc', 'category', 'admin_data', 'introduction', 'annotations', 'uuid']

def ty(ann):
    s = U(ann).replace("'", '').replace('"', '')
    s = re.sub(r'^Union\[(.*)\]$', lambda m: m.group(1).replace(',', '|'), s)
    return tys(s)
def tys(s):
    s = aliases.get(s, s)
    s = re.sub(r'^Union\[(.*)\]$', lambda m: m.group(1).replace(',', '|'), s)
    m = re.fullmatch(r'list\[(.*)\]', s)
    if m: return ('list', tys(m.group(1)))
    m = re.fullmatch(r'OrderedDict\[(.*)\]', s)
    if m: return ('list', tys(m.group(1)))
    p = [x.strip() for x in s.split('|')]
    p = [x for x in p if x != 'None']
    if len(p) == 2 and 'str' in p and [x for x in p if x in refs]: p.remove('str')
    if set(p) == {'int', 'float'}: return ('num',)
    if len(p) != 1:
        for n, l in SUMS.items():
            if set(l) == set(p): return ('sum', n)
        return ('?', tuple(p))
    p = p[0]
    if p in ('str', 'int', 'float', 'bool'): return (p,)
    if p.startswith('ar_enum.'): return ('enum', p[8:])
    if p in refs: return ('ref', p)
    if p in SUMS: return ('sum', p)
    if p in classes: return ('obj', p)
    return ('?', p)

def own_fields(c):
    out = {}
    f = init(c)
    if not f: return out
    for n in ast.walk(f):
        if isinstance(n, ast.AnnAssign) and isinstance(n.target, ast.Attribute) and U(n.target.value) == 'self':
            out.setdefault(n.target.attr, ty(n.annotation))
        elif isinstance(n, ast.Assign) and isinstance(n.targets[0], ast.Attribute) and U(n.targets[0].value) == 'self':
            out.setdefault(n.targets[0].attr, ('?',))
    return out
def fields(c):
    out = {}
    for b in bases(c):
        for k, v in fields(b).items(): out.setdefault(k, v)
    if c not in ('Referrable', 'MultiLanguageReferrable', 'Identifiable'):
        for k, v in own_fields(c).items():
            if k in out and v == ('?',): continue
            out[k] = v
    for (d, k), t in TY_OVER.items():
        if d == c:
            if t is None: out.pop(k, None)
            elif t == ('name',): out = {k: t, **out}
            else: out[k] = t
    return out
def is_ident(c): return is_a(c, 'Identifiable')

# ---------------------------------------------------------------- configuration
SUMS.update({
    'ValueSpecificationElement': list(switcher(W, 'Writer', 'switcher_value_specification')),
    'ProvidePortComSpec': list(switcher(W, 'Writer', 'switcher_provided_com_spec')),
    'RequirePortComSpec': list(switcher(W, 'Writer', 'switcher_required_com_spec')),
    'PortPrototypeElement': ['ProvidePortPrototype', 'RequirePortPrototype', 'PRPortPrototype'],
    'SwConnectorElement': ['AssemblySwConnector', 'DelegationSwConnector', 'PassThroughSwConnector'],
    'ServerCallPointElement': ['AsynchronousServerCallPoint', 'SynchronousServerCallPoint'],
    'ModeGroupInstanceRef': ['PModeGroupInAtomicSwcInstanceRef', 'RModeGroupInAtomicSwcInstanceRef'],
    'RteEvent': list(switcher(W, 'Writer', 'switcher_rte_event')),
})

# ---------------------------------------------------------------- writer
FMT = {'_format_float': 'format_float', '_format_number': 'format_number', '_format_boolean': 'format_boolean'}

def strip_ns(s): return s.replace('ar_element.', '').replace('ar_enum.', '')
def selfcall(n):
    """(method name, args) of a call self.m(...)"""
    if isinstance(n, ast.Expr): n = n.value
    if isinstance(n, ast.Call) and isinstance(n.func, ast.Attribute) and U(n.func.value) == 'self' and not n.keywords:
        return n.func.attr, n.args
    return None, None
def const(n): return n.value if isinstance(n, ast.Constant) else None

def first_param(f): return f.args.args[1].arg
def param_class(f): return strip_ns(U(f.args.args[1].annotation))

def ref_writer(name):
    """tag of a reference writer: None if it is the parameter, else a literal"""
    f = wm[name]
    p = [a.arg for a in f.args.args]
    body = [s for s in f.body if not isinstance(s, (ast.Assert, ast.AnnAssign)) and not (isinstance(s, ast.Expr) and isinstance(s.value, ast.Constant))]
    tag, seen = p[2] if len(p) > 2 else None, []
    lit = {}
    for s in body:
        m, a = selfcall(s)
        if m == '_collect_base_ref_attr': seen.append(m); continue
        if m == '_add_content' and U(a[1]) == p[1] + '.value' and U(a[2]) == 'attr':
            t = const(a[0]) or lit.get(U(a[0]))
            if t: return t
            if U(a[0]) == tag: return None
        if m and m.startswith('_write_') and U(a[0]) == p[1]:
            inner = ref_writer(m)
            if inner is not None: return inner
            t = const(a[1]) or lit.get(U(a[1]))
            if t: return t
            if U(a[1]) == tag: return None
        if isinstance(s, ast.Assign) and isinstance(s.value, ast.Constant):
            lit[U(s.targets[0])] = s.value.value; continue
        raise Unsupported(f'ref writer {name}: {U(s)}')
    raise Unsupported('ref writer ' + name)

def is_ref_writer(name):
    f = wm[name]
    ann = param_class(f) if len(f.args.args) > 1 and f.args.args[1].annotation else ''
    return ann in refs or ann == 'BaseRef'

BUILTIN_W = {  # method -> (Coq function with tag, type check)
    '_write_multi_language_long_name': lambda tag, a: f'write_langs {tag} "L-4" {a}',
    '_write_multi_language_overview_paragraph': lambda tag, a: f'write_langs {tag} "L-2" {a}',
    '_write_documentation_block': lambda tag, a: f'write_doc {tag} {a}',
    '_write_single_language_unit_names': lambda tag, a: f'write_unit_names {tag} {a}',
    '_write_admin_data': lambda tag, a: f'write_admin_data {a}',
}
def q(s): return '"' + s + '"'

class WCtx:
    """a writer method being translated: access to the attributes of elem"""
    def __init__(self, f, cls, group):
        self.f, self.elem, self.cls, self.group = f, first_param(f), cls, group
        self.fields = fields(cls) if cls in classes else {}
        self.used = []       # attributes used, for groups
        self.tags = {}       # local tag variables
        self.uses_ident = False
        self.leaves = []
        p = [a.arg for a in f.args.args]
        self.tagparam = p[2] if len(p) > 2 else None
    def attr(self, name):
        if name not in self.fields: raise Unsupported(f'{self.cls}.{name} unknown')
        if self.group:
            if name not in self.used: self.used.append(name)
            return 'f_' + name
        return f'({self.cls}_{cname(name)} e)'
    def ident(self):
        self.uses_ident = True
        return 'ident' if self.group else f'({self.cls}_ident e)'
    def tag(self, n):
        if isinstance(n, ast.Constant): return q(n.value)
        if isinstance(n, ast.Name):
            if n.id in self.tags: return q(self.tags[n.id])
            if n.id == self.tagparam: return 'tag'
        raise Unsupported('tag ' + U(n))
    def field_of(self, n):
        if isinstance(n, ast.Attribute) and U(n.value) == self.elem: return n.attr
        return None
def cname(a): return a.lstrip('_')

def text_expr(ctx, n, fld, t):
    """text of an attribute whose value is the Coq variable a"""
    m, args = selfcall(n)
    if m in FMT and ctx.field_of(args[0]) == fld:
        if m == '_format_boolean':
            if t != ('bool',): raise Unsupported(f'{m} of {t}')
            return 'Ok (format_boolean a)'
        if t not in (('float',), ('num',)): 
            if t == ('int',) and m == '_format_number': return 'format_number (NInt a)'
            raise Unsupported(f'{m} of {t}')
        return FMT[m] + ' a'
    if isinstance(n, ast.Call) and U(n.func) == 'ar_enum.enum_to_xml' and ctx.field_of(n.args[0]) == fld and len(n.args) == 1:
        if t[0] != 'enum': raise Unsupported('enum_to_xml of ' + str(t))
        return f'enum_text em_{t[1]} a'
    if isinstance(n, ast.Call) and U(n.func) == 'str' and ctx.field_of(n.args[0]) == fld:
        if t == ('str',): return 'Ok a'
        if t == ('int',): return 'Ok (zstr a)'
        raise Unsupported(f'str of {t}')
    if ctx.field_of(n) == fld:
        if t == ('str',): return 'Ok a'
        raise Unsupported(f'plain {t}')
    raise Unsupported('text ' + U(n))

def obj_call(ctx, call, is_arg, t):
    """self._write_X(<value>, tag?) of a value of type t held in the Coq variable a; returns (expr, tag)"""
    m, args = selfcall(call)
    if not m or not is_arg(args[0]): raise Unsupported('call ' + U(call))
    if len(args) > 2: raise Unsupported('call ' + U(call))
    tag = ctx.tag(args[1]) if len(args) == 2 else None
    if m in BUILTIN_W: return BUILTIN_W[m](tag, 'a'), tag
    if is_ref_writer(m):
        if t[0] != 'ref': raise Unsupported(f'{m} of {t}')
        rt = ref_writer(m)
        tg = q(rt) if rt is not None else tag
        return f'write_ref {tg} a', tg
    if t[0] not in ('obj', 'sum'): raise Unsupported(f'{m} of {t}')
    check_arg_class(m, t)
    own = class_tag(m)
    return f'{coqw(m)} v{" " + tag if tag else ""} a', tag or (q(own) if own else None)

def check_arg_class(m, t):
    pc = param_class(wm[m])
    pc2 = tys(pc)
    if pc2 == t: return
    if m in ARG_OK and ARG_OK[m] == t: return
    raise Unsupported(f'{m} expects {pc}, given {t}')
ARG_OK = {'_write_required_com_spec': ('sum', 'RequirePortComSpec'), '_write_provided_com_spec': ('sum', 'ProvidePortComSpec'),
          '_write_rte_event_element': ('sum', 'RteEvent'), '_write_port_prototype': ('sum', 'PortPrototypeElement')}
def coqw(m): return m[1:]

def class_tag(m):
    """literal tag of a class writer"""
    f = wm[m]
    for s in f.body:
        if isinstance(s, ast.Assign) and U(s.targets[0]) == 'tag' and isinstance(s.value, ast.Constant): return s.value.value
    for s in ast.walk(f):
        mm, a = selfcall(s) if isinstance(s, ast.Expr) else (None, None)
        if mm == '_add_child' and isinstance(a[0], ast.Constant): return a[0].value
    return None

def w_stmts(ctx, stmts):
    """list of (Coq out expression, leaf) of a statement list"""
    out = []
    i = 0
    while i < len(stmts):
        s = stmts[i]
        out += w_stmt(ctx, s)
        i += 1
    return out

def w_stmt(ctx, s):
    if isinstance(s, ast.Assert) or isinstance(s, ast.Pass): return []
    if isinstance(s, ast.Expr) and isinstance(s.value, ast.Constant): return []
    m, args = selfcall(s)
    if m in ('_write_referrable', '_write_multilanguage_referrable', '_write_identifiable') and U(args[0]) == ctx.elem:
        if ctx.cls in ('SymbolProps', 'ImplementationProps', 'ExecutableEntityActivationReason'):
            return [(f'content "SHORT-NAME" (Ok {ctx.attr("name")})', ('name',))]
        return [(f'{m[1:]} {ctx.ident()}', ('ident', m[1:]))]
    if m and m.startswith('_write') and U(args[0]) == ctx.elem and len(args) == 1:
        g = group(m)
        for a in g['fields']: ctx.attr(a)
        if g['ident']: ctx.ident()
        gargs = (['ident'] if g['ident'] else []) + g['fields']
        ex = ' '.join([coqw(m), 'v'] + [(ctx.ident() if a == 'ident' else ctx.attr(a)) for a in gargs])
        return [(ex, ('group', m))]
    if isinstance(s, ast.If) and not s.orelse:
        t = s.test
        # elem.F is not None
        if isinstance(t, ast.Compare) and isinstance(t.ops[0], ast.IsNot) and const(t.comparators[0]) is None:
            fld = ctx.field_of(t.left)
            if fld is None: raise Unsupported('cond ' + U(t))
            ft = ctx.fields.get(fld)
            if ft is None: raise Unsupported(f'{ctx.cls}.{fld} unknown')
            if ft[0] == 'list': return w_list(ctx, fld, ft, s.body, guard=False)
            b = s.body
            if len(b) == 1:
                mm, a = selfcall(b[0])
                if mm == '_add_content' and len(a) == 2:
                    tag = ctx.tag(a[0]); tx = text_expr(ctx, a[1], fld, ft)
                    return [(f'if_set {ctx.attr(fld)} (fun a => content {tag} ({tx}))', ('leaf', tag, fld))]
                ex, tag = obj_call(ctx, b[0], lambda n: ctx.field_of(n) == fld, ft)
                return [(f'if_set {ctx.attr(fld)} (fun a => {ex})', ('leaf', tag, fld))]
            if len(b) == 3 and selfcall(b[0])[0] == '_add_child' and selfcall(b[2])[0] == '_leave_child' and len(selfcall(b[0])[1]) == 1:
                tag = ctx.tag(selfcall(b[0])[1][0])
                ex, inner = obj_call(ctx, b[1], lambda n: ctx.field_of(n) == fld, ft)
                return [(f'if_set {ctx.attr(fld)} (fun a => node {tag} [] ({ex}))', ('wrap', tag, fld, inner))]
            raise Unsupported('opt body ' + U(s))
        fld = None
        if ctx.field_of(t): fld = ctx.field_of(t)
        elif isinstance(t, ast.Compare) and isinstance(t.left, ast.Call) and U(t.left.func) == 'len' and U(t.ops[0].__class__() and t)[-4:] == ' > 0':
            fld = ctx.field_of(t.left.args[0])
        if fld:
            ft = ctx.fields.get(fld)
            if ft is None: raise Unsupported(f'{ctx.cls}.{fld} unknown')
            if ft[0] == 'list': return w_list(ctx, fld, ft, s.body, guard=True)
            if ft[0] in ('obj', 'sum', 'ref') and not has_len(ft):
                return w_stmt(ctx, ast.parse(f'if {ctx.elem}.{fld} is not None:\n' + '\n'.join('    ' + l for b in s.body for l in U(b).split('\n'))).body[0])
            raise Unsupported(f'truth of {ft}')
    raise Unsupported('stmt ' + U(s))

def has_len(t):
    if t[0] != 'obj': return False
    return any(isinstance(f, ast.FunctionDef) and f.name in ('__len__', '__bool__') for f in classes[t[1]].body)

def w_list(ctx, fld, ft, b, guard):
    if len(b) == 3 and selfcall(b[0])[0] == '_add_child' and selfcall(b[2])[0] == '_leave_child' and isinstance(b[1], ast.For):
        tag = ctx.tag(selfcall(b[0])[1][0]); fo = b[1]
        if U(fo.iter) not in (f'{ctx.elem}.{fld}', f'{ctx.elem}.{fld}.values()') or len(fo.body) != 1 or not isinstance(fo.target, ast.Name): raise Unsupported('for ' + U(fo))
        var = fo.target.id
        fb = fo.body[0]
        if isinstance(fb, ast.If) and U(fb.test) == f'isinstance({var}, ar_element.{ft[1][1]})' and len(fb.body) == 1 and isinstance(fb.orelse[0], ast.Raise):
            fo.body = fb.body
        ex, inner = obj_call(ctx, fo.body[0], lambda n: U(n) == var, ft[1])
        fe = f'node {tag} [] (for_each {ctx.attr(fld)} (fun a => {ex}))'
        if guard: return [(f'if_some {ctx.attr(fld)} ({fe})', ('list', tag, fld, inner))]
        return [(fe, ('list!', tag, fld, inner))]
    raise Unsupported('list body ' + '\n'.join(map(U, b)))

GROUPS = {}
def group(m):
    if m in GROUPS:
        if isinstance(GROUPS[m], Exception): raise GROUPS[m]
        return GROUPS[m]
    f = wm[m]
    cls = GROUP_CLASS.get(m, param_class(f))
    ctx = WCtx(f, cls, True)
    try:
        st = w_stmts(ctx, f.body)
    except Unsupported as e:
        GROUPS[m] = e; raise
    GROUPS[m] = {'name': m, 'fields': ctx.used, 'ident': ctx.uses_ident, 'stmts': st, 'f': f, 'types': ctx.fields}
    return GROUPS[m]
GROUP_CLASS = {}

CLASSW = {}
def class_writer(m):
    if m in CLASSW: return CLASSW[m]
    f = wm[m]
    cls = CLASS_OVER.get(m, param_class(f))
    ctx = WCtx(f, cls, False)
    attrs, node, pre_empty = None, None, None
    body = list(f.body)
    res = None
    i = 0
    def nodeof(b):
        """[add_child, stmts, leave_child] -> (tag, attrs?, stmts)"""
        mm, a = selfcall(b[0])
        if mm != '_add_child' or selfcall(b[-1])[0] != '_leave_child': raise Unsupported('node ' + '\n'.join(map(U, b)))
        at = '[]'
        if len(a) == 2:
            if U(a[1]) != 'attr' or attrs is None: raise Unsupported('attr')
            at = attrs
        return ctx.tag(a[0]), at, w_stmts(ctx, b[1:-1])
    while i < len(body):
        s = body[i]
        if isinstance(s, ast.Assert) or (isinstance(s, ast.Expr) and isinstance(s.value, ast.Constant)): i += 1; continue
        if isinstance(s, ast.Assign) and isinstance(s.value, ast.Constant) and isinstance(s.targets[0], ast.Name):
            ctx.tags[s.targets[0].id] = s.value.value; i += 1; continue
        if isinstance(s, ast.AnnAssign) and U(s.target) == 'attr' and U(s.value) == '[]': attrs = '[]'; i += 1; continue
        mm, a = selfcall(s)
        if mm == '_collect_identifiable_attributes' and U(a[0]) == ctx.elem and U(a[1]) == 'attr':
            attrs = f'(identifiable_attributes {ctx.ident()})'; i += 1; continue
        if mm == '_add_child':
            tag, at, st = nodeof(body[i:])
            res = dict(empty=False, tag=tag, attrs=at, stmts=st); break
        if isinstance(s, ast.If) and U(s.test) == f'{ctx.elem}.is_empty':
            mm, a = selfcall(s.body[0])
            if mm != '_add_content' or len(a) != 1: raise Unsupported('empty ' + U(s))
            et = ctx.tag(a[0])
            rest = s.orelse if s.orelse else body[i + 1:]
            if not s.orelse and not isinstance(s.body[-1], ast.Return): raise Unsupported('empty without return')
            if s.orelse and i + 1 != len(body): raise Unsupported('after empty')
            tag, at, st = nodeof(rest)
            if tag != et: raise Unsupported('tags differ')
            res = dict(empty=True, tag=tag, attrs=at, stmts=st); break
        raise Unsupported('class stmt ' + U(s))
    if res is None: raise Unsupported('no node')
    res.update(name=m, f=f, cls=cls, ctx=ctx, tagparam=ctx.tagparam is not None)
    CLASSW[m] = res
    return res
CLASS_OVER = {'_write_nv_provide_com_spec': 'NvProvideComSpec'}

# ---------------------------------------------------------------- reader
BUILTIN_R = {'_read_multi_language_long_name': '(read_langs "L-4")', '_read_multi_language_overview_paragraph': '(read_langs "L-2")',
             '_read_documentation_block': 'read_doc', '_read_single_language_unit_names': 'read_unit_names'}
BUILTIN_RT = {'_read_multi_language_long_name': ('obj', 'MultilanguageLongName'), '_read_multi_language_overview_paragraph': ('obj', 'MultiLanguageOverviewParagraph'),
              '_read_documentation_block': ('obj', 'DocumentationBlock'), '_read_single_language_unit_names': ('obj', 'SingleLanguageUnitNames')}
TEXT_R = {'_read_number': ('rd_number', ('num',)), '_read_integer': ('rd_integer', ('int',)), '_read_boolean': ('rd_boolean', ('bool',))}
def ret_class(m):
    r = rm[m].returns
    if m.endswith('_ref'):     # some annotations of reference readers are wrong
        cs = {strip_ns(U(n.value.func)) for n in ast.walk(rm[m]) if isinstance(n, ast.Return) and isinstance(n.value, ast.Call)}
        if len(cs) == 1 and list(cs)[0] in refs: return list(cs)[0]
    return strip_ns(U(r)) if r is not None else None
def is_ref_reader(m): return m in rm and ret_class(m) in refs
def coqr(m): return m[1:]
def ret_type(m):
    if m in RET_OVER: return RET_OVER[m]
    if ret_class(m) is None:
        for n in ast.walk(rm[m]):
            if isinstance(n, ast.Return) and isinstance(n.value, ast.Call): return tys(strip_ns(U(n.value.func)))
        return ('?', m)
    return tys(ret_class(m).replace("'", ''))
RET_OVER = {'_read_provided_com_spec': ('sum', 'ProvidePortComSpec'), '_read_required_com_spec': ('sum', 'RequirePortComSpec'),
            '_read_rte_event_element': ('sum', 'RteEvent')}

def r_value(n, xvar):
    """expression computing a value from the element xvar: (reader : xml -> result A, type) or ('text',)"""
    if U(n) == xvar + '.text': return ('text', ('str',))
    if isinstance(n, ast.Call) and U(n.func) == 'ar_enum.xml_to_enum' and len(n.args) == 2 and U(n.args[1]) == xvar + '.text':
        e = strip_ns(U(n.args[0])).strip("'"); return (f'(rd_enum em_{e})', ('enum', e))
    if isinstance(n, ast.Call) and U(n.func) == 'int' and U(n.args[0]) == xvar + '.text' and len(n.args) == 1: return ('rd_int', ('int',))
    if isinstance(n, ast.Call) and U(n.func) == 'float' and U(n.args[0]) == xvar + '.text': return ('rd_float', ('float',))
    if isinstance(n, ast.Call) and U(n.func) == 'str' and U(n.args[0]) == xvar + '.text': return ('rd_str', ('str',))
    if U(n) == f'ar_element.PositiveIntegerValue({xvar}.text).value': return ('rd_positive', ('int',))
    m, args = selfcall(n)
    if m and len(args) == 1:
        if U(args[0]) == xvar + '.text' and m in TEXT_R: return TEXT_R[m]
        if U(args[0]) == xvar:
            if m in BUILTIN_R: return (BUILTIN_R[m], BUILTIN_RT[m])
            if is_ref_reader(m): return (f'(read_ref rc_{ret_class(m)} v)', ('ref', ret_class(m)))
            if m in rm: return (f'({coqr(m)} v)', ret_type(m))
    raise Unsupported('value ' + U(n))

def is_skip(s):
    m, a = selfcall(s)
    if m in ('_report_unprocessed_elements',): return True
    if isinstance(s, ast.Expr) and isinstance(s.value, ast.Call) and isinstance(s.value.func, ast.Attribute) and s.value.func.attr == 'skip': return True
    if isinstance(s, ast.Expr) and isinstance(s.value, ast.Constant): return True
    if isinstance(s, (ast.Assert,)): return True
    if isinstance(s, ast.AnnAssign) and s.value is not None and const(s.value) is None and isinstance(s.value, ast.Constant): return True
    return False

class RCtx: pass

def r_stmts(stmts, cmap, data, xelem):
    """leaves of a reader body: list of dicts with key(s), expr, type, tag; plus what remains"""
    leaves = []
    i = 0
    pending = None      # (variable, tag)
    while i < len(stmts):
        s = stmts[i]; i += 1
        if is_skip(s): continue
        m, a = selfcall(s)
        if m and m.startswith('_read') and a and U(a[0]) == cmap and U(a[-1]) == data:
            if m in ('_read_referrable', '_read_multi_language_referrable', '_read_identifiable'):
                leaves.append(dict(kind='ident', name=m)); continue
            if len(a) != 2: raise Unsupported('group call ' + U(s))
            leaves.append(dict(kind='group', name=m)); continue
        # xml_child = child_elements.get('T')
        if isinstance(s, (ast.Assign, ast.AnnAssign)):
            v = s.value; t = s.targets[0] if isinstance(s, ast.Assign) else s.target
            if isinstance(v, ast.Call) and U(v.func) == cmap + '.get' and len(v.args) == 1:
                pending = (U(t), v.args[0].value); continue
        if isinstance(s, ast.If) and pending and U(s.test) == pending[0] + ' is not None' and not s.orelse:
            l = r_if(s.body, pending[0], pending[1], data)
            if l not in leaves: leaves.append(l)      # PORT-REF of PORT-API-OPTION is read twice
            continue
        if pending and isinstance(s, ast.If) and U(s.test) == pending[0]:
            raise Unsupported('truth of an element ' + U(s))
        return leaves, stmts[i - 1:]
    return leaves, []

def key_of(t, data):
    if isinstance(t, ast.Subscript) and U(t.value) == data and isinstance(t.slice, ast.Constant): return t.slice.value
    return None

def r_if(b, xv, tag, data):
    if len(b) == 1 and isinstance(b[0], ast.Assign) and key_of(b[0].targets[0], data):
        rd, t = r_value(b[0].value, xv)
        k = key_of(b[0].targets[0], data)
        if rd == 'text': return dict(kind='text', tag=tag, key=k, type=t)
        return dict(kind='child', tag=tag, key=k, rd=rd, type=t)
    # child_element = self._read_X(xml_child); data[..] = child_element
    if len(b) == 2 and isinstance(b[0], ast.Assign) and isinstance(b[1], ast.Assign) and U(b[1].value) == U(b[0].targets[0]):
        rd, t = r_value(b[0].value, xv)
        return dict(kind='child', tag=tag, key=key_of(b[1].targets[0], data), rd=rd, type=t)
    # try: find('./*')
    if len(b) == 1 and isinstance(b[0], ast.Try):
        tr = b[0]
        if len(tr.handlers) == 1 and U(tr.handlers[0].type) == 'KeyError' and U(tr.handlers[0].body[0]) == 'pass' and len(tr.body) == 2 \
           and isinstance(tr.body[0], ast.Assign) and U(tr.body[0].value) == f"{xv}.find('./*')" and isinstance(tr.body[1], ast.If):
            gv = U(tr.body[0].targets[0]); ib = tr.body[1]
            if U(ib.test) == gv + ' is not None' and len(ib.body) == 1:
                rd, t = r_value(ib.body[0].value, gv)
                return dict(kind='inner', tag=tag, key=key_of(ib.body[0].targets[0], data), rd=rd, type=t)
    if len(b) == 2 and isinstance(b[0], ast.Assign) and U(b[0].value) == f"{xv}.find('./*')" and isinstance(b[1], ast.If):
        gv = U(b[0].targets[0]); ib = b[1]
        if U(ib.test) == gv + ' is not None' and len(ib.body) == 1:
            rd, t = r_value(ib.body[0].value, gv)
            return dict(kind='inner0', tag=tag, key=key_of(ib.body[0].targets[0], data), rd=rd, type=t)
    # lists
    c = [s for s in b]
    lv = key = None
    loop = None
    for s in c:
        if isinstance(s, (ast.Assign, ast.AnnAssign)) and U(s.value) == '[]': lv = U(s.targets[0] if isinstance(s, ast.Assign) else s.target)
        elif isinstance(s, ast.Assign) and lv and U(s.value) == lv: key = key_of(s.targets[0], data)
        elif isinstance(s, ast.For): loop = s
        else: raise Unsupported('list ' + '\n'.join(map(U, b)))
    if not (lv and key and loop): raise Unsupported('list ' + '\n'.join(map(U, b)))
    it = loop.iter; var = U(loop.target)
    if not (isinstance(it, ast.Call) and U(it.func) == xv + '.findall'): raise Unsupported('loop ' + U(loop))
    pat = it.args[0].value
    body = loop.body
    if pat == './*':
        if len(body) == 1 and isinstance(body[0], ast.If) and isinstance(body[0].test, ast.Compare) and U(body[0].test.left) == var + '.tag' and isinstance(body[0].test.ops[0], ast.Eq) \
           and (not body[0].orelse):
            pat = body[0].test.comparators[0].value; body = body[0].body
        else: pat = None
    # items.append(self._read_X(var)) or element = ...; items.append(element)
    if len(body) == 2 and isinstance(body[0], ast.Assign):
        val = body[0].value; ap = body[1]
        if U(ap.value.args[0]) != U(body[0].targets[0]): raise Unsupported('loop body ' + U(loop))
    elif len(body) == 1 and isinstance(body[0], ast.Expr) and isinstance(body[0].value, ast.Call):
        ap = body[0]; val = ap.value.args[0]
    else: raise Unsupported('loop body ' + U(loop))
    if U(ap.value.func) != lv + '.append': raise Unsupported('append ' + U(ap))
    rd, t = r_value(val, var)
    if rd == 'text': raise Unsupported('list of texts')
    if pat is None: return dict(kind='any', tag=tag, key=key, rd=rd, type=('list', t))
    return dict(kind='list', tag=tag, inner=pat, key=key, rd=rd, type=('list', t))

RGROUPS = {}
def rgroup(m):
    if m in RGROUPS:
        if isinstance(RGROUPS[m], Exception): raise RGROUPS[m]
        return RGROUPS[m]
    f = rm[m]; p = [a.arg for a in f.args.args]
    try:
        lv, rest = r_stmts(f.body, p[1], p[-1], None)
        if rest: raise Unsupported('group rest ' + U(rest[0]))
        keys = []
        for l in lv:
            if l['kind'] == 'group': keys += rgroup(l['name'])['keys']
            elif l['kind'] == 'ident': raise Unsupported('ident in group')
            else: keys.append((l['key'], l['type'] if l['type'][0] == 'list' else ('option', l['type'])))
        RGROUPS[m] = dict(name=m, leaves=lv, keys=keys, f=f)
    except Unsupported as e:
        RGROUPS[m] = e; raise
    return RGROUPS[m]

CLASSR = {}
def class_reader(m):
    if m in CLASSR: return CLASSR[m]
    f = rm[m]; p = [a.arg for a in f.args.args]
    if len(p) < 2: raise Unsupported("no element")
    xe = p[1]; data = cmap = None
    body = list(f.body); i = 0
    while i < len(body):
        s = body[i]
        if is_skip(s): i += 1; continue
        if isinstance(s, (ast.Assign, ast.AnnAssign)):
            t = U(s.targets[0] if isinstance(s, ast.Assign) else s.target)
            if U(s.value) == '{}': data = t; i += 1; continue
            if U(s.value) == f'ChildElementMap({xe})': cmap = t; i += 1; continue
        break
    if data is None or cmap is None: raise Unsupported('no data/map')
    lv, rest = r_stmts(body[i:], cmap, data, xe)
    # return E.C(**data)
    if len(rest) == 2 and isinstance(rest[0], (ast.Assign, ast.AnnAssign)) and isinstance(rest[1], ast.Return):
        call = rest[0].value
    elif len(rest) == 1 and isinstance(rest[0], ast.Return): call = rest[0].value
    else: raise Unsupported('rest ' + ' // '.join(map(U, rest)))
    if not (isinstance(call, ast.Call) and len(call.keywords) == 1 and call.keywords[0].arg is None and U(call.keywords[0].value) == data and not call.args):
        raise Unsupported('return ' + U(call))
    cls = strip_ns(U(call.func))
    for l in lv:
        if l['kind'] == 'group': rgroup(l['name'])
    CLASSR[m] = dict(name=m, cls=cls, leaves=lv, f=f)
    return CLASSR[m]

# ---------------------------------------------------------------- emission
def lines(f, file): return f'{file}:{f.lineno}-{f.end_lineno}'
def cty(t):
    k = t[0]
    if k in ('str', 'name'): return 'string'
    if k == 'int': return 'Z'
    if k in ('num', 'float'): return 'pynum'
    if k == 'bool': return 'bool'
    if k == 'enum': return t[1]
    if k == 'ref': return 'ref'
    if k == 'obj': return OBJ.get(t[1], t[1])
    if k == 'sum': return t[1]
    raise Unsupported(f'type {t}')
def fty(t):
    if t[0] == 'list': return 'list ' + par(cty(t[1]))
    if t == ('name',): return 'string'
    return 'option ' + par(cty(t))
def par(s): return f'({s})' if ' ' in s else s

def ctor_how(c, k):
    """how the constructor of c, or of a base class, sets attribute k: method and type argument"""
    f = init(c)
    if f:
        for n in ast.walk(f):
            if isinstance(n, ast.Call) and isinstance(n.func, ast.Attribute) and U(n.func.value) == 'self' and n.func.attr.startswith('_assign') and n.args[0].value in (k, '_' + k):
                return n.func.attr, (U(n.args[2]) if len(n.args) > 2 else None)
    for b in bases(c):
        h = ctor_how(b, k)
        if h: return h
    return None
def ctor_params(c):
    out = []
    f = init(c)
    if f: out += [a.arg for a in f.args.args[1:]]
    if not f or f.args.kwarg:
        for b in bases(c): out += ctor_params(b)
    return out

# classes modelled by hand: exact, if a good object is read back as itself; tagparam, if the tag is a parameter
HAND = {c: dict(tagparam=t, exact=x) for c, t, x in [
    ('CompuMethod', False, False), ('DataConstraint', False, False), ('SwAddrMethod', False, True),
    ('SwDataDefProps', True, False), ('SwPointerTargetProps', False, False), ('SwDataDefPropsConditional', False, False),
    ('ImplementationDataTypeElement', False, False), ('ValueList', False, False), ('SwValues', False, False),
    ('SwAxisCont', False, False), ('SwValueCont', False, False), ('ValueSpecificationElement', False, False),
    ('VariableInAtomicSWCTypeInstanceRef', False, True), ('AssemblySwConnector', False, True),
    ('DelegationSwConnector', False, True), ('SwConnectorElement', False, True), ('ModeAccessPoint', False, True),
    ('ReceptionComSpecProps', False, True), ('PRPortPrototype', False, False), ('SwcModeSwitchEvent', False, True)]}
LATE = {'ReceptionComSpecProps', 'PRPortPrototype', 'SwcModeSwitchEvent'}        # classes modelled by hand after file 2
EXTRA_UNFOLD = {'_read_receiver_com_spec': ['receiver_com_spec_with']}
CODEC = {}      # class -> dict
RW = {}         # writer method -> class

def leaves_w(stmts):
    """flattened writer leaves"""
    out = []
    for ex, l in stmts:
        if l[0] == 'group': out += leaves_w(group(l[1])['stmts'])
        else: out.append(l)
    return out
def leaves_r(ls):
    out = []
    for l in ls:
        if l['kind'] == 'group': out += leaves_r(rgroup(l['name'])['leaves'])
        else: out.append(l)
    return out
def groups_w(stmts):
    out = []
    for ex, l in stmts:
        if l[0] == 'group':
            out += [x for x in groups_w(group(l[1])['stmts']) if x not in out]
            if l[1] not in out: out.append(l[1])
    return out
def groups_r(ls):
    out = []
    for l in ls:
        if l['kind'] == 'group':
            out += [x for x in groups_r(rgroup(l['name'])['leaves']) if x not in out]
            if l['name'] not in out: out.append(l['name'])
    return out

def deps(t):
    if t[0] == 'list': return deps(t[1])
    if t[0] == 'obj' and t[1] not in OBJ: return {t[1]}
    if t[0] == 'sum': return {t[1]}
    return set()

SKIPR = {'_read_sw_component_prototype'}
def build():
    for m in wm:
        if not m.startswith('_write') or m.endswith('_group'): continue
        try: w = class_writer(m)
        except (Unsupported, IndexError, AttributeError): continue
        RW.setdefault(w['cls'], m)
    rr = {}
    for m in rm:
        if not m.startswith('_read') or m in SKIPR: continue
        try: r = class_reader(m)
        except (Unsupported, AttributeError): continue
        rr.setdefault(r['cls'], m)
    for c in RW:
        if c in rr and c not in HAND: CODEC[c] = dict(cls=c, w=class_writer(RW[c]), r=class_reader(rr[c]), fields=fields(c), ident=is_ident(c))

def class_deps(c):
    d = set()
    for t in CODEC[c]['fields'].values(): d |= deps(t)
    for l in leaves_r(CODEC[c]['r']['leaves']):
        if 'type' in l: d |= deps(l['type'])
    d.discard(c)
    return d

class Leaf: pass
def analyse(c):
    """pairs writer and reader leaves of class c; decides the good condition and the norm of every field"""
    co = CODEC[c]
    w, r = co['w'], co['r']
    lw, lr = leaves_w(w['stmts']), leaves_r(r['leaves'])
    by_tag = {}
    for l in lr:
        if l['kind'] == 'ident': continue
        if l['tag'] in by_tag: raise Unsupported(f'{c}: tag {l["tag"]} read twice')
        by_tag[l['tag']] = l
        if l['key'] not in ctor_params(c): co.setdefault('unexpected', []); co['unexpected'] += [l['tag']] if l['tag'] not in co['unexpected'] else []
    written = {}
    info = {}
    for l in lw:
        if l[0] in ('ident', 'name'): continue
        tag, fld = l[1].strip('"') if l[1] else None, l[2]
        if fld in written: raise Unsupported(f'{c}.{fld} written twice')
        written[fld] = l
        rd = by_tag.get(tag)
        info[fld] = dict(w=l, r=rd, tag=tag)
        if rd is not None and rd['key'] != fld: raise Unsupported(f'{c}: {tag} written from {fld}, read to {rd["key"]}')
    keys = {l['key']: l for l in lr if l['kind'] != 'ident'}
    co['good'], co['norm'], co['info'], co['lost'] = {}, {}, info, []
    for fld, t in co['fields'].items():
        if t == ('name',): co['good'][fld] = 'good_text'; continue
        i = info.get(fld)
        if i is None or i['r'] is None:
            co['lost'].append(fld); continue
        g, n = good_norm(c, fld, t, i['r'])
        if g: co['good'][fld] = g
        if n: co['norm'][fld] = n
    co['unwritten'] = [l for l in lr if l['kind'] != 'ident' and l['tag'] not in [x['tag'] for x in info.values()]]
    co['exact'] = not co['norm']
    co['keys'] = keys

def item_good_norm(c, fld, t, rd):
    """(condition on a value, normal form) of a value of type t read by rd"""
    k = t[0]
    if k == 'str': return 'good_text', None
    if k == 'int':
        how = ctor_how(c, fld)
        pos = rd.get('rd') == 'rd_positive' or (how and how[0] == '_assign_optional_positive_int')
        return ('(fun z => (0 <= z)%Z)' if pos else None), None
    if k == 'num': return 'good_number', 'reread'
    if k == 'float':
        if rd['type'] == ('num',): return 'good_real', None
        return 'good_float', None
    if k in ('bool', 'enum'): return None, None
    if k == 'ref': return f'(good_ref rc_{rd["type"][1]})', None
    if k in ('obj', 'sum'):
        n = t[1]
        if n in ('MultilanguageLongName', 'MultiLanguageOverviewParagraph'): return '(all_ok good_lang)', None
        if n == 'DocumentationBlock': return 'good_doc', None
        if n == 'SingleLanguageUnitNames': return 'good_names', 'merged'
        ex = known(n)['exact']
        return f'good_{n}', (None if ex else f'norm_{n}')
    raise Unsupported(f'good {t}')
def known(n):
    if n in HAND: return HAND[n]
    if n in CODEC and 'exact' in CODEC[n]: return CODEC[n]
    if n in SUMC: return SUMC[n]
    raise Unsupported(f'{n} not known yet')
SUMC = {}

def good_norm(c, fld, t, rd):
    if t[0] == 'list':
        it = dict(rd); it['type'] = rd['type'][1]
        g, n = item_good_norm(c, fld, t[1], it)
        return (f'all_ok {g}' if g else None), (f'map {n}' if n else None)
    g, n = item_good_norm(c, fld, t, rd)
    return (f'opt_ok {g}' if g else None), (f'option_map {n}' if n else None)

def rleaf(l):
    k = l['kind']
    if k == 'text': return f'child_text "{l["tag"]}" k'
    if k == 'child': return f'child "{l["tag"]}" k {l["rd"]}'
    if k == 'inner': return f'child_inner_try "{l["tag"]}" k {l["rd"]}'
    if k == 'inner0': return f'child_inner "{l["tag"]}" k {l["rd"]}'
    if k == 'list': return f'children "{l["tag"]}" "{l["inner"].lstrip("./")}" k {l["rd"]}'
    if k == 'any': return f'children_any "{l["tag"]}" k {l["rd"]}'
    if k == 'sel': return f'children_sel "{l["tag"]}" k ({l["rd"]} v)'
    if k == 'find': return f'child_find "{l["tag"]}" "{l["inner"]}" k {l["rd"]}'
    raise Unsupported(k)

DONE_G = set()
def emit_stmts(stmts):
    if not stmts: return 'cat []'
    return 'cat [\n    ' + ';\n    '.join(ex for ex, _ in stmts) + ' ]'
def emit_wgroup(m):
    g = group(m)
    ps = ['(v : N)'] + (['(ident : identifiable)'] if g['ident'] else []) + [f'(f_{a} : {fty(g["types"][a])})' for a in g['fields']]
    return f'(** {m}, {lines(g["f"], "writer.py")} *)\nDefinition {coqw(m)} {" ".join(ps)} : out :=\n  {emit_stmts(g["stmts"])}.\n'
def emit_rleaves(ls):
    s = ''
    for l in ls:
        if l['kind'] == 'ident':
            continue
        if l['kind'] == 'group':
            ks = [k for k, _ in rgroup(l['name'])['keys']]
            pat = '_' if not ks else 'd_' + ks[0] if len(ks) == 1 else '(' + ', '.join('d_' + k for k in ks) + ')'
            s += f'  let* {pat} := {coqr(l["name"])} v k in\n'
        else: s += f'  let* d_{l["key"]} := {rleaf(l)} in\n'
    return s
def emit_rgroup(m):
    g = rgroup(m)
    ks = [k for k, _ in g['keys']]
    ret = 'tt' if not ks else 'd_' + ks[0] if len(ks) == 1 else '(' + ', '.join('d_' + k for k in ks) + ')'
    ty = ' * '.join(kty(t) for _, t in g['keys']) if ks else 'unit'
    return f'(** {m}, {lines(g["f"], "reader.py")} *)\nDefinition {coqr(m)} (v : N) (k : list xml) : result ({ty}) :=\n{emit_rleaves(g["leaves"])}  Ok {ret}.\n'
def kty(t): return par(fty(t)) if t[0] == 'list' else 'option ' + par(cty(t[1]))

def cast(c, fld, t, l):
    """(statement before the constructor, expression) for the value of key fld"""
    how = ctor_how(c, fld)
    d = 'd_' + fld
    if t == ('int',) and l['type'] == ('int',):
        if how and how[0] == '_assign_optional_positive_int' and l['rd'] != 'rd_positive': return f'  let* {d} := opt_positive {d} in\n', d
        return '', d
    if t == ('float',) and l['type'] == ('num',):
        if how != ('_assign_optional', 'float'): raise Unsupported(f'{c}.{fld}: float read as a number, {how}')
        return '', f'(option_map as_float {d})'
    if t == ('float',) and l['type'] == ('float',): return '', d
    if t == l['type'] or (t[0] == 'list' and l['type'][0] == 'list' and cty(t[1]) == cty(l['type'][1])): return '', d
    if t[0] == 'ref' and l['type'][0] == 'ref':
        if l['type'] != t: raise Unsupported(f'{c}.{fld}: {t} read as {l["type"]}')
        return '', d
    if t == ('str',) and l['type'] == ('str',): return '', d
    raise Unsupported(f'{c}.{fld}: {t} read as {l["type"]}')

def emit_model(c):
    co = CODEC[c]; w, r = co['w'], co['r']
    cls = classes[c]
    s = f'(** ** {c} *)\n\n(** Attributes of {c}, element.py:{cls.lineno}-{cls.end_lineno} *)\n'
    fl = ([(f'{c}_ident', 'identifiable')] if co['ident'] else []) + [(f'{c}_{cname(k)}', fty(t)) for k, t in co['fields'].items()]
    if not fl: s += f'Record {c} := mk{c} {{ }}.\n'
    else: s += f'Record {c} := mk{c} {{\n  ' + ';\n  '.join(f'{a} : {b}' for a, b in fl) + ' }.\n'
    if w['empty']:
        if co['ident']: raise Unsupported('is_empty of identifiable')
        tests = [(f'no_items ({c}_{cname(k)} e)' if t[0] == 'list' else f'unset ({c}_{cname(k)} e)') for k, t in co['fields'].items()]
        s += f'(** {c}.is_empty, xml/base.py:17-29 *)\nDefinition {c}_is_empty (e : {c}) : bool := {" && ".join(tests)}.\n'
    for m in groups_w(w['stmts']):
        if m not in DONE_G: s += emit_wgroup(m); DONE_G.add(m)
    tag = w['tag']
    ps = '(v : N)' + (' (tag : string)' if w['tagparam'] else '') + f' (e : {c})'
    body = f'node {tag} {w["attrs"]} ({emit_stmts(w["stmts"])})'
    if w['empty']: body = f'if {c}_is_empty e then empty {tag} else\n  ' + body
    s += f'(** {w["name"]}, {lines(w["f"], "writer.py")} *)\nDefinition {coqw(w["name"])} {ps} : out :=\n  {body}.\n'
    for m in groups_r(r['leaves']):
        if m not in DONE_G: s += emit_rgroup(m); DONE_G.add(m)
    s += f'(** {r["name"]}, {lines(r["f"], "reader.py")} *)\nDefinition {coqr(r["name"])} (v : N) (x : xml) : result {c} :=\n  let k := x_kids x in\n'
    idents = [l['name'] for l in r['leaves'] if l['kind'] == 'ident']
    if co['ident']:
        if idents != ['_read_referrable', '_read_multi_language_referrable', '_read_identifiable']: raise Unsupported(f'{c}: {idents}')
        s += '  let* d_ident := read_ident (x_attrs x) k in\n'
    elif ('name', ('name',)) in co['fields'].items():
        if idents != ['_read_referrable']: raise Unsupported(f'{c}: {idents}')
        s += '  let* d_name := read_referrable k in\n'
    elif idents: raise Unsupported(f'{c}: {idents}')
    s += emit_rleaves(r['leaves'])
    args = []
    if co.get('unexpected'): s += '  let* _ := unexpected [' + '; '.join(map(q, co['unexpected'])) + '] k in\n'
    if co['ident']: s += '  let* ident := new_identifiable d_ident in\n'; args.append('ident')
    for fld, t in co['fields'].items():
        if t == ('name',): s += '  let* name := new_referrable d_name in\n'; args.append('name'); continue
        l = co['keys'].get(fld)
        if l is None: args.append('[]' if t[0] == 'list' else 'None'); continue
        st, ex = cast(c, fld, t, l)
        s += st; args.append(ex)
    s += f'  Ok (mk{c} {" ".join(args)}).\n'.replace(' )', ')')
    return s

AND = ' /\\ '
def emit_spec(c):
    co = CODEC[c]; w = co['w']
    cs = []
    if co['ident']:
        cs.append(f'good_ident{"" if "identifiable_attributes" in w["attrs"] else "_no_uuid"} ({c}_ident e)')
    for fld, t in co['fields'].items():
        if fld in co['good']: cs.append(f'{co["good"][fld]} ({c}_{cname(fld)} e)')
        elif fld in co['lost']: cs.append(f'{c}_{cname(fld)} e = {"[]" if t[0] == "list" else "None"}')
    co['conds'] = cs
    s = f'Definition good_{c} (e : {c}) : Prop :=\n  {AND.join(cs) if cs else "True"}.\n'
    if not co['exact']:
        args = ([f'({c}_ident e)'] if co['ident'] else []) + \
               [('None' if t[0] != 'list' else '[]') if fld in co['lost'] else f'({co["norm"][fld]} ({c}_{cname(fld)} e))' if fld in co['norm'] else f'({c}_{cname(fld)} e)' for fld, t in co['fields'].items()]
        s += f'Definition norm_{c} (e : {c}) : {c} :=\n  mk{c} {" ".join(args)}.\n'
    return s

# ---- proofs
def item_proof(c, fld, t, rd, tag, hyp, wl):
    """proof that the value a of type t, written under tag, is carried; hyp proves its condition"""
    k = t[0]
    T = q(tag)
    if k == 'str': return f'c_str {T} a eq_refl {hyp}'
    if k == 'int':
        r = rd['rd']
        if r == 'rd_int': return f'c_int {T} a eq_refl'
        if r == 'rd_integer': return f'c_integer {T} a eq_refl'
        if r == 'rd_positive': return f'c_positive {T} a eq_refl {hyp}'
    if k == 'num' and rd['rd'] == 'rd_number': return f'c_number {T} a eq_refl {hyp}'
    if k == 'float':
        fmt = 'format_float' in wl
        if rd['rd'] == 'rd_number': return f'{"c_real_float" if fmt else "c_real"} {T} a eq_refl {hyp}'
        if rd['rd'] == 'rd_float': return f'{"c_float" if fmt else "c_number_float"} {T} a eq_refl {hyp}'
    if k == 'bool': return f'c_bool {T} a eq_refl'
    if k == 'enum': return f'c_enum em_{t[1]} {T} a ok_{t[1]} eq_refl'
    if k == 'ref': return f'k_{rd["type"][1]} v {T} a eq_refl {hyp}'
    if k in ('obj', 'sum'):
        n = t[1]
        if n == 'MultilanguageLongName': return f'c_langs {T} "L-4" a eq_refl eq_refl {hyp}'
        if n == 'MultiLanguageOverviewParagraph': return f'c_langs {T} "L-2" a eq_refl eq_refl {hyp}'
        if n == 'DocumentationBlock': return f'c_doc {T} a eq_refl {hyp}'
        if n == 'SingleLanguageUnitNames': return f'c_unit_names {T} a eq_refl {hyp}'
        kn = known(n)
        if kn.get('tagparam', kn.get('w', {}).get('tagparam') if isinstance(kn.get('w'), dict) else None): return f'rt_{n} v {T} a eq_refl {hyp}'
        return f'rt_{n} v a {hyp}'
    raise Unsupported(f'proof {t} {rd}')

def leaf_proof(c, ex, l):
    co = CODEC[c]
    if l[0] == 'name': return 'exact (p_name _ G_name).'
    fld = l[2]; t = co['fields'][fld]; i = co['info'][fld]; rd = i['r']; tag = i['tag']
    g, n = co['good'].get(fld), co['norm'].get(fld)
    if fld in co['lost']:
        return f'exact (p_off{"_list" if t[0] == "list" else ""} _ _ G_{fld}).'
    if l[0] == 'leaf':
        hyp = f'(opt_in _ _ a G_{fld} E)' if g else ''
        if rd['kind'] == 'text': return f'exact (p_text {q(tag)} _ eq_refl G_{fld}).'
        if rd['kind'] == 'child' and t == ('str',): return f'exact (p_str {q(tag)} _ eq_refl G_{fld}).'
        if rd['kind'] != 'child': raise Unsupported(f'{c}.{fld}: {l} {rd}')
        pf = item_proof(c, fld, t, rd, tag, hyp, ex)
        if n or (t == ('float',) and rd['rd'] == 'rd_number'): 
            nf = n.replace('option_map ', '', 1) if n else 'reread'
            return f'exact (p_child {q(tag)} _ _ _ {nf} (fun a E => {pf})).'
        return f'exact (p_child_id {q(tag)} _ _ _ (fun a E => {pf})).'
    if l[0] == 'wrap':
        hyp = f'(opt_in _ _ a G_{fld} E)' if g else ''
        inner = l[3]
        pf = item_proof(c, fld, t, rd, (inner or '').strip('"'), hyp, ex)
        if rd['kind'] in ('inner', 'inner0'):
            lem = 'p_inner_try' if rd['kind'] == 'inner' else 'p_inner'
            if t[0] != 'sum': pf = f'ex_intro _ _ ({pf})'
            if n: return f'exact ({lem} {q(tag)} _ _ _ {n.replace("option_map ", "", 1)} eq_refl (fun a E => {pf})).'
            return f'exact ({lem}_id {q(tag)} _ _ _ eq_refl (fun a E => {pf})).'
        if rd['kind'] == 'find':
            return f'exact (p_find{"" if n else "_id"} {q(tag)} {q(rd["inner"])} _ _ _ {n.replace("option_map ", "", 1) if n else ""} eq_refl (fun a E => {pf})).'
        raise Unsupported(f'wrap {rd}')
    if l[0] in ('list', 'list!'):
        hyp = f'(all_in _ _ a G_{fld} I)' if g else ''
        inner = (l[3] or '').strip('"')
        nf = n.replace('map ', '', 1) if n else ''
        it = dict(rd); it['type'] = rd['type'][1]
        if rd['kind'] == 'list':
            pf = item_proof(c, fld, t[1], it, rd['inner'].lstrip('./'), hyp, ex)
            if inner and inner != rd['inner'].lstrip('./'): raise Unsupported(f'{c}.{fld}: items written as {inner}, read as {rd["inner"]}')
            if l[0] == 'list!': return f'exact (p_children_always {q(tag)} {q(inner)} _ _ _ {nf or "(fun a => a)"} eq_refl (fun a I => {pf})).'
            return f'exact (p_children{"" if n else "_id"} {q(tag)} {q(rd["inner"].lstrip("./"))} _ _ _ {nf} eq_refl (fun a I => {pf})).'
        if rd['kind'] == 'any':
            pf = item_proof(c, fld, t[1], it, inner, hyp, ex)
            if t[1][0] != 'sum': pf = f'ex_intro _ _ ({pf})'
            return f'exact (p_children_any{"" if n else "_id"} {q(tag)} _ _ _ {nf} eq_refl (fun a I => {pf})).'
        if rd['kind'] == 'sel':
            return f'exact (p_children_sel{"" if n else "_id"} {q(tag)} _ _ _ {nf} eq_refl (fun a I => rs_{t[1][1]} v a {hyp})).'
    raise Unsupported(f'leaf proof {l} {rd}')

def tree(c, stmts, ind):
    """proof of piece _ (cat stmts) _"""
    pad = '  ' * ind
    if not stmts: return f'{pad}exact p_nothing.\n'
    if stmts[0][1][0] == 'ident':
        gi = 'G_ident' if CODEC[c]['conds'][0].startswith('good_ident (') else '(ident_of _ G_ident)'
        if [s[1] for s in stmts[:3]] != [('ident', 'write_referrable'), ('ident', 'write_multilanguage_referrable'), ('ident', 'write_identifiable')]: raise Unsupported(f'{c}: ident calls')
        if len(stmts) == 3: return f'{pad}exact (p_ident0 _ {gi}).\n'
        return f'{pad}eapply p_ident; [exact {gi}| |].\n{pad}{{\n' + tree(c, stmts[3:], ind + 1) + f'{pad}}}\n{pad}reflexivity.\n'
    def one(s, ind):
        pad = '  ' * ind
        if s[1][0] == 'group':
            return f'{pad}unfold {coqw(s[1][1])}.\n' + tree(c, group(s[1][1])['stmts'], ind)
        return f'{pad}{leaf_proof(c, *s)}\n'
    if len(stmts) == 1: return f'{pad}eapply piece_cat1.\n' + one(stmts[0], ind)
    return f'{pad}eapply piece_cons.\n{pad}{{\n' + one(stmts[0], ind + 1) + f'{pad}}}\n{pad}{{\n' + tree(c, stmts[1:], ind + 1) + f'{pad}}}\n{pad}reflexivity.\n'

NONE_LEMMA = {'text': 'child_text_none', 'child': 'child_none', 'inner': 'child_inner_try_none', 'inner0': 'child_inner_none', 'list': 'children_none', 'any': 'children_any_none', 'sel': 'children_sel_none'}
def emit_proof(c):
    co = CODEC[c]; w, r = co['w'], co['r']
    tg = ' tag' if w['tagparam'] else ''
    norm = 'e' if co['exact'] else f'(norm_{c} e)'
    T = w['tag']
    s = f'Lemma rt_{c} v{tg} e : {"name_okb tag = true -> " if tg else ""}good_{c} e -> carries {T} ({coqw(w["name"])} v{tg} e) ({coqr(r["name"])} v) {norm}.\nProof.\n'
    names = (['G_ident'] if co['ident'] else []) + [f'G_{fld}' for fld in co['fields'] if fld in co['good'] or fld in co['lost']]
    pat = '_' if not names else names[0] if len(names) == 1 else '(' + ' & '.join(names) + ')'
    s += f'  {"intros NT. " if tg else ""}unfold good_{c}. intros {pat}. unfold {coqw(w["name"])}.\n'
    NT = 'NT' if tg else 'eq_refl'
    if w['empty']:
        s += f'  destruct ({c}_is_empty e) eqn:E.\n  {{ clear - E{" NT" if tg else ""}. unfold {c}_is_empty in E. apply e_empty; [exact {NT}|]. destruct e. cbn in E. emptied E. subst. reflexivity. }}\n  clear E.\n'
    s += f'  eapply e_node2.\n  {{\n{tree(c, w["stmts"], 2)}  }}\n  {{ exact {NT}. }}\n'
    s += '  { ' + ('apply ident_attrs; exact G_ident.' if 'identifiable_attributes' in w['attrs'] else 'apply attrs_ok_nil.') + ' }\n'
    s += '  intros t k H N. cbv beta in H. '
    s += 'unand H.\n'
    for l in co['unwritten']:
        s += f'  pose proof ({NONE_LEMMA[l["kind"]]} {q(l["tag"])} {q(l["inner"].lstrip("./")) + " " if l["kind"] == "list" else ""}k {l["rd"] if l["kind"] != "text" else ""} (N {q(l["tag"])} eq_refl)).\n'
    gr = groups_r(r['leaves'])
    s += '  unfold ' + ', '.join([coqr(r['name'])] + [coqr(g) for g in gr] + [x for g in gr for x in EXTRA_UNFOLD.get(g, [])]) + '. cbn [x_attrs x_kids].\n'
    if co['ident']:
        lem = 'with_uuid' if 'identifiable_attributes' in w['attrs'] else 'no_uuid'
        s += f'  match goal with H : ident_read _ k |- _ => rewrite (H _ ({lem} _ G_ident)); clear H end. cbn [bind].\n'
    s += '  use_facts.\n'
    if co.get('unexpected'): s += '  rewrite unexpected_none by (repeat constructor; apply N; reflexivity). cbn [bind].\n'
    if co['ident']: s += f'  rewrite new_ident by {"assumption" if lem == "with_uuid" else "(apply ident_of; assumption)"}. cbn [bind].\n'
    if ('name', ('name',)) in co['fields'].items(): s += '  cbn [new_referrable fst snd bind].\n'
    for fld, t in co['fields'].items():
        l = co['keys'].get(fld)
        if l is None or fld in co['lost']: continue
        st, ex = cast(c, fld, t, l)
        if st: s += f'  rewrite (opt_positive_ok _ G_{fld}). cbn [bind].\n'
        if 'as_float' in ex: s += f'  rewrite (as_float_opt _ G_{fld}).\n'
    if co['exact']:
        if co['lost']:
            full = ([f'({c}_ident e)'] if co['ident'] else []) + [f'({c}_{cname(k)} e)' for k in co['fields']]
            s += f'  transitivity (Ok (mk{c} {" ".join(full)})); [rewrite {", ".join("G_" + f for f in co["lost"])}; reflexivity|destruct e; reflexivity].\n'
        else: s += '  destruct e; reflexivity.\n'
    else: s += '  reflexivity.\n'
    return s + 'Qed.\n'

def topo(cs):
    out, seen = [], set()
    def go(c):
        if c in seen: return
        seen.add(c)
        for d in sorted(class_deps(c)):
            if d in CODEC and d in cs: go(d)
        out.append(c)
    for c in cs: go(c)
    return out
def available(have):
    """classes whose dependencies are all modelled"""
    av = set()
    while True:
        new = {c for c in CODEC if c not in av and c not in have and class_deps(c) <= (av | have | ({c} & set()))}
        if not new: break
        av |= new
    return [c for c in CODEC if c in av]

# ---- sums: one value per entry of a switcher
SWITCH = {'ProvidePortComSpec': ('_write_provided_com_spec', '_read_provided_com_spec', 'switcher_provided_com_spec', 'NotImplementedError'),
          'RequirePortComSpec': ('_write_required_com_spec', '_read_required_com_spec', 'switcher_required_com_spec', 'NotImplementedError'),
          'RteEvent': ('_write_rte_event_element', '_read_rte_event_element', 'switcher_rte_event', 'NotImplementedError')}
def check_switch(f, sw, key, exns):
    """the method looks its key up in the switcher, calls the method found and raises otherwise"""
    b = [x for x in f.body if not is_skip(x) and not isinstance(x, ast.Assert)]
    t = '\n'.join(map(U, b))
    for e in exns: t = t.replace('raise ' + e, 'raise EXN')
    p = first_param(f)
    if not re.fullmatch(r'(class_name = ' + p + r'\.__class__\.__name__\n)?(\w+) = self\.' + sw + r'\.get\(' + key + r', None\)\nif \2 is not None:\n    (return )?\2\(' + p + r'\)\nelse:\n    raise EXN\(.*\)', t):
        raise Unsupported('switch ' + t)
def emit_sum(n):
    wmeth, rmeth, sw, wexn = SWITCH[n]
    check_switch(wm[wmeth], sw, 'class_name', [wexn]); check_switch(rm[rmeth], sw, re.escape(first_param(rm[rmeth]) + '.tag'), ['KeyError'])
    ws, rs = switcher(W, 'Writer', sw), switcher(R, 'Reader', sw)
    cs = list(ws)
    rcls = {m: ret_type(m)[1] for m in rs.values()}
    if sorted(rcls.values()) != sorted(cs): raise Unsupported(f'{n}: {sorted(rcls.values())} {sorted(cs)}')
    exact = {c: known(c)['exact'] for c in cs}
    al = all(exact.values())
    SUMC[n] = dict(exact=al, tagparam=False)
    m = f'(** ** {n} *)\n\n(** The classes which self.{sw} of the writer knows *)\nInductive {n} :=\n' + '\n'.join(f'| {n}_{c} (e : {c})' for c in cs) + '.\n'
    m += f'(** {wmeth}, {lines(wm[wmeth], "writer.py")}; other classes raise {wexn} and are outside the type *)\nDefinition {coqw(wmeth)} (v : N) (s : {n}) : out :=\n  match s with\n' + '\n'.join(f'  | {n}_{c} e => {coqw(ws[c])} v e' for c in cs) + '\n  end.\n'
    m += f'(** {rmeth}, {lines(rm[rmeth], "reader.py")}, with self.{sw} of the reader *)\nDefinition {coqr(rmeth)} (v : N) (x : xml) : result {n} :=\n  let tag := x_tag x in\n'
    for t, r in rs.items(): m += f'  if String.eqb tag "{t}" then let* e := {coqr(r)} v x in Ok ({n}_{rcls[r]} e) else\n'
    m += '  Err KeyError.\n'
    s = f'Definition good_{n} (s : {n}) : Prop :=\n  match s with\n' + '\n'.join(f'  | {n}_{c} e => good_{c} e' for c in cs) + '\n  end.\n'
    if not al: s += f'Definition norm_{n} (s : {n}) : {n} :=\n  match s with\n' + '\n'.join(f'  | {n}_{c} e => {n}_{c} ' + ('e' if exact[c] else f'(norm_{c} e)') for c in cs) + '\n  end.\n'
    tag_of = {rcls[r]: t for t, r in rs.items()}
    p = f'Lemma rt_{n} v s : good_{n} s -> exists tag, carries tag ({coqw(wmeth)} v s) ({coqr(rmeth)} v) {"s" if al else f"(norm_{n} s)"}.\nProof.\n  destruct s as [{"|".join("e" for c in cs)}]; cbn [good_{n}{"" if al else f" norm_{n}"} {coqw(wmeth)}]; intros G.\n'
    for c in cs: p += f'  - exists "{tag_of[c]}". eapply carries_as; [exact (rt_{c} v e G)|]. intros x T R. unfold {coqr(rmeth)}. rewrite T. cbn [String.eqb Ascii.eqb Bool.eqb]. rewrite R. reflexivity.\n'
    return m, s, p + 'Qed.\n'

HDR = '''(** {title}
    Generated by tools/gen_codec.py from /repo/src/autosar/xml/{{element,writer,reader}}.py; the
    line numbers in the comments refer to these files. *)
From Verif Require Import {imports}.
'''
PDEPS = 'Base PBase MNames MNum SNum PNum PNum3 MXml SXml PXml PXml2 MEnum PEnum MRefTab MRef SEnum PRef MCodec SCodec PCodec PPiece PIdent MElem0 PElem0 PElemRef'
OUT = '/verif/rocq/theories/'
def generate(n, cs, prev, title, sums=()):
    """files MElem<n>.v, SElem<n>.v, PElem<n>.v for the classes cs; prev: suffixes of the files before"""
    ms, ss, ps = '', '', ''
    done = []
    for x in sums:
        m, s_, p = emit_sum(x); ms += m + '\n'; ss += s_; ps += p
    for c in topo(cs):
        try:
            analyse(c); m = emit_model(c); s_ = emit_spec(c); p = emit_proof(c)
        except Unsupported as e:
            print('UNSUPPORTED', c, str(e)[:300]); CODEC[c].pop('exact', None); continue
        ms += m + '\n'; ss += s_; ps += p; done.append(c)
    pm = ' '.join('MElem' + x for x in prev); psx = ' '.join('SElem' + x for x in prev); pp = ' '.join('PElem' + x for x in prev)
    open(OUT + f'MElem{n}.v', 'w').write(HDR.format(title=title + ': attributes, writer methods, reader methods.', imports=f'Base MNames MNum MXml MEnum MRefTab MRef MCodec MElem0 {pm}'.strip()) + '\n' + ms)
    open(OUT + f'SElem{n}.v', 'w').write(HDR.format(title=title + ': which objects survive a round trip (good_), and as what (norm_).', imports=f'Base MNum SNum MXml SXml MEnum MRefTab MRef SEnum MCodec SCodec MElem0 {pm} MElem{n} {psx}'.strip()) + '\n' + ss)
    open(OUT + f'PElem{n}.v', 'w').write(HDR.format(title=title + ': round trips.', imports=f'{PDEPS} {pm} MElem{n} {psx} SElem{n} {pp}'.strip()) + 'Open Scope list_scope.\n\n' + ps)
    return done

def gen_refs():
    s = '''(** Round trips of the references, by class.  Generated by tools/gen_codec.py. *)
From Verif Require Import Base MXml MEnum MRefTab MRef SEnum MCodec SCodec PCodec PPiece PXml2.
Open Scope list_scope.

'''
    for m in rm:
        if is_ref_reader(m): s_ = ret_class(m); names.setdefault(s_, m)
    for c in sorted(names):
        s += f'Lemma k_{c} v tag r : name_okb tag = true -> good_ref rc_{c} r -> carries tag (write_ref tag r) (read_ref rc_{c} v) r.\nProof. apply c_ref; [unfold all_ref_classes; repeat (first [left; reflexivity|right])|discriminate]. Qed.\n'
    open(OUT + 'PElemRef.v', 'w').write(s)
names = {}

def main():
    build()
    gen_refs()
    have = set(HAND)
    a1 = available(set())
    d = generate('1', a1, [], 'Elements built from texts, numbers, enumerations and references')
    print(len(d), d)
    a2 = available((have - LATE) | set(d))
    d2 = generate('2', a2, ['1', 'A', 'B', 'C'], 'Elements built from data properties, value specifications and accesses')
    print(len(d2), d2)
    DONE_G.add('_read_receiver_com_spec')
    a3 = available(have | set(d) | set(d2))
    d3 = generate('3', a3, ['1', 'A', 'B', 'C', '2', 'D'], 'Com-specs of receivers')
    print(len(d3), d3)
    for c in ('PRPortPrototype', 'SwcModeSwitchEvent'): have.discard(c)
    prov = ['ProvidePortComSpec', 'RequirePortComSpec']
    a4 = available(have | set(d) | set(d2) | set(d3) | set(prov))
    d4 = generate('4', a4, ['1', 'A', 'B', 'C', '2', 'D', '3'], 'Ports', prov)
    print(len(d4), d4)
    have |= {'PRPortPrototype', 'SwcModeSwitchEvent'}
    d5 = generate('5', [], ['1', 'A', 'B', 'C', '2', 'D', '3', '4', 'E'], 'Events', ['RteEvent'])
    print([(c, sorted(class_deps(c) - have - set(d) - set(d2))) for c in CODEC if c not in d + d2 + d3 + d4])
if __name__ == '__main__': main()
