#!/usr/bin/env python3
"""Print each /repo/pyasn1_modules/rfc*.py as a Coq term of type Verif.Py.Syntax.module.

Usage: tools/py2coq.py [/repo/pyasn1_modules [rocq/theories/Gen]]

Purely syntactic: the Python text is parsed with the standard `ast` module and
printed node by node; nothing is evaluated.  Any construct outside the subset
is a hard error.
"""
import ast, glob, os, sys

SRC = sys.argv[1] if len(sys.argv) > 1 else '/repo/pyasn1_modules'
OUT = sys.argv[2] if len(sys.argv) > 2 else os.path.join(os.path.dirname(os.path.abspath(__file__)), '..', 'rocq', 'theories', 'Gen')


def s(x):
    for c in x:
        assert 32 <= ord(c) < 127, 'non printable character %r' % x
    return '"' + x.replace('"', '""') + '"'


def z(n):
    return str(n) if n >= 0 else '(%d)' % n


def lst(items):
    return '[' + '; '.join(items) + ']'


def is_attr(e, mod, name=None):
    return (isinstance(e, ast.Attribute) and isinstance(e.value, ast.Name)
            and e.value.id == mod and (name is None or e.attr == name))


def const_int(e):
    return isinstance(e, ast.Constant) and type(e.value) is int


def const_str(e):
    return isinstance(e, ast.Constant) and type(e.value) is str


MOD = {'univ': 'univ', 'char': 'chr', 'useful': 'useful'}
KW1 = {'implicitTag': 'implicit', 'explicitTag': 'explicit', 'subtypeSpec': 'withspec',
       'sizeSpec': 'withsize', 'value': 'withvalue'}
TAGS = {('tagClassContext', 'tagFormatSimple'): 'ctxS', ('tagClassContext', 'tagFormatConstructed'): 'ctxC',
        ('tagClassApplication', 'tagFormatSimple'): 'appS', ('tagClassApplication', 'tagFormatConstructed'): 'appC'}
NT = {'NamedType': 'nt', 'OptionalNamedType': 'ont', 'DefaultedNamedType': 'dnt'}


def p(e):
    t = ex(e)
    return t if ' ' not in t or t[0] in '["' and t.endswith((']', '"')) and t.count('"') <= 2 else '(' + t + ')'


def ex(e):
    if isinstance(e, ast.Name):
        return 'EName ' + s(e.id)
    if isinstance(e, ast.Attribute):
        if isinstance(e.value, ast.Name):
            if e.value.id in MOD:
                return '%s %s' % (MOD[e.value.id], s(e.attr))
            return 'qual %s %s' % (s(e.value.id), s(e.attr))
        return 'EAttr %s %s' % (p(e.value), s(e.attr))
    if isinstance(e, ast.Constant):
        v = e.value
        if type(v) is bool:
            return 'EBool ' + ('true' if v else 'false')
        if type(v) is int:
            return 'EInt ' + z(v)
        if type(v) is str:
            return 'EStr ' + s(v)
        raise SystemExit('constant %r' % (v,))
    if isinstance(e, ast.UnaryOp) and isinstance(e.op, ast.USub):
        return 'ENeg ' + p(e.operand)
    if isinstance(e, ast.BinOp):
        op = {ast.Add: 'OAdd', ast.Sub: 'OSub'}[type(e.op)]
        return 'EBin %s %s %s' % (op, p(e.left), p(e.right))
    if isinstance(e, ast.Tuple):
        if len(e.elts) == 2 and const_str(e.elts[0]) and const_int(e.elts[1]):
            return 'nv %s %s' % (s(e.elts[0].value), z(e.elts[1].value))
        return 'ETuple ' + lst([ex(x) for x in e.elts])
    if isinstance(e, ast.List):
        return 'EList ' + lst([ex(x) for x in e.elts])
    if isinstance(e, ast.Dict):
        return 'EDict ' + lst(['(%s, %s)' % (ex(k), ex(v)) for k, v in zip(e.keys, e.values)])
    if isinstance(e, ast.Subscript):
        return 'ESub %s %s' % (p(e.value), p(e.slice))
    if isinstance(e, ast.Starred):
        return 'EStar ' + p(e.value)
    if isinstance(e, ast.Call):
        kws = [(k.arg, k.value) for k in e.keywords]
        assert all(k for k, _ in kws)
        f, a = e.func, e.args
        if not kws and is_attr(f, 'tag', 'Tag') and len(a) == 3 and is_attr(a[0], 'tag') and is_attr(a[1], 'tag') and const_int(a[2]):
            key = (a[0].attr, a[1].attr)
            if key in TAGS:
                return '%s %s' % (TAGS[key], z(a[2].value))
            return 'mktag %s %s %s' % (s(key[0]), s(key[1]), z(a[2].value))
        if isinstance(f, ast.Attribute) and f.attr == 'subtype' and not a and len(kws) == 1 and kws[0][0] in KW1:
            return '%s %s %s' % (KW1[kws[0][0]], p(f.value), p(kws[0][1]))
        if not kws and is_attr(f, 'namedtype', 'NamedTypes'):
            return 'nts ' + lst([ex(x) for x in a])
        if not kws and is_attr(f, 'namedtype') and f.attr in NT and len(a) == 2 and const_str(a[0]):
            return '%s %s %s' % (NT[f.attr], s(a[0].value), p(a[1]))
        if not kws and is_attr(f, 'constraint', 'ValueSizeConstraint') and len(a) == 2:
            return 'sizec %s %s' % (p(a[0]), p(a[1]))
        if not kws and is_attr(f, 'constraint', 'ValueRangeConstraint') and len(a) == 2:
            return 'rangec %s %s' % (p(a[0]), p(a[1]))
        if not kws and is_attr(f, 'namedval', 'NamedValues'):
            return 'nvs ' + lst([ex(x) for x in a])
        if not kws and not a:
            if isinstance(f, ast.Name):
                return 'new ' + s(f.id)
            return 'call0 ' + p(f)
        if not kws:
            return 'call %s %s' % (p(f), lst([ex(x) for x in a]))
        return 'ECall %s %s %s' % (p(f), lst([ex(x) for x in a]), lst(['(%s, %s)' % (s(k), ex(v)) for k, v in kws]))
    raise SystemExit('expression %s' % ast.dump(e))


def st(n):
    if isinstance(n, ast.Import):
        assert len(n.names) == 1 and n.names[0].asname is None
        return 'SImport ' + s(n.names[0].name)
    if isinstance(n, ast.ImportFrom):
        assert n.level == 0
        if n.names[0].name == '*':
            return 'SFromStar ' + s(n.module)
        return 'SFrom %s %s' % (s(n.module), lst(['(%s, %s)' % (s(a.name), s(a.asname or a.name)) for a in n.names]))
    if isinstance(n, ast.Assign):
        if len(n.targets) == 1:
            t = n.targets[0]
            if isinstance(t, ast.Name):
                return 'set %s %s' % (s(t.id), p(n.value))
            if isinstance(t, ast.Attribute) and isinstance(t.value, ast.Name):
                return 'seta %s %s %s' % (s(t.value.id), s(t.attr), p(n.value))
        return 'SAssign %s %s' % (lst([ex(t) for t in n.targets]), p(n.value))
    if isinstance(n, ast.Expr):
        if const_str(n.value):
            return 'SPass'  # docstring: evaluated and discarded
        return 'SExpr ' + p(n.value)
    if isinstance(n, ast.Pass):
        return 'SPass'
    if isinstance(n, ast.ClassDef):
        assert len(n.bases) == 1 and not n.keywords and not n.decorator_list
        return 'SClass %s %s %s' % (s(n.name), p(n.bases[0]), lst([st(x) for x in n.body]))
    if isinstance(n, ast.FunctionDef):
        a = n.args
        assert not (a.kwonlyargs or a.kw_defaults or a.kwarg or a.defaults or getattr(a, 'posonlyargs', []))
        va = 'None' if a.vararg is None else '(Some %s)' % s(a.vararg.arg)
        return 'SDef %s %s %s %s' % (s(n.name), lst([s(x.arg) for x in a.args]), va, lst([st(x) for x in n.body]))
    if isinstance(n, ast.For):
        assert isinstance(n.target, ast.Name) and not n.orelse
        return 'SFor %s %s %s' % (s(n.target.id), p(n.iter), lst([st(x) for x in n.body]))
    if isinstance(n, ast.If):
        return 'SIf %s %s %s' % (p(n.test), lst([st(x) for x in n.body]), lst([st(x) for x in n.orelse]))
    if isinstance(n, ast.Return):
        return 'SReturn ' + p(n.value)
    raise SystemExit('statement %s' % ast.dump(n))


def main():
    os.makedirs(OUT, exist_ok=True)
    names = []
    for f in sorted(glob.glob(os.path.join(SRC, 'rfc*.py'))):
        name = os.path.basename(f)[:-3]
        names.append(name)
        tree = ast.parse(open(f).read())
        lines = []
        for n in tree.body:
            lines.append('  (%d%%N, %s)' % (n.lineno, st(n)))
        with open(os.path.join(OUT, name + '.v'), 'w') as g:
            g.write('(** pyasn1_modules/%s.py, printed by tools/py2coq.py.  Every statement is\n    preceded by its line number in that file. *)\n' % name)
            g.write('From Verif Require Import Py.Syntax.\nFrom Coq Require Import List String ZArith NArith.\n')
            g.write('Import ListNotations.\nOpen Scope string_scope.\nOpen Scope Z_scope.\n\n')
            g.write('Definition src : module := [\n' + ';\n'.join(lines) + '\n].\n')
    with open(os.path.join(OUT, 'All.v'), 'w') as g:
        g.write('(** The table of all schema modules of pyasn1_modules/, printed by tools/py2coq.py. *)\n')
        g.write('From Verif Require Import Py.Syntax.\nFrom Coq Require Import List String.\n')
        for n in names:
            g.write('From Verif Require Gen.%s.\n' % n)
        g.write('Import ListNotations.\nOpen Scope string_scope.\n\n')
        g.write('Definition all_modules : list (string * module) := [\n')
        g.write(';\n'.join('  ("%s", Gen.%s.src)' % (n, n) for n in names) + '\n].\n')


main()
