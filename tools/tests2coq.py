#!/usr/bin/env python3
"""Extract the codec assertions of /repo/tests into rocq/theories/Gen/Vectors.v, and
the test methods as programs into rocq/theories/Gen/TestPrograms.v.

The tests are read as text (ast), never run.  A test method contributes one
vector for every call

    obj, rest = der_decoder(substrate, asn1Spec=module.Type() [, decodeOpenTypes=True] [, openTypes=map])

whose substrate is pem.readBase64fromText of a class attribute and whose
asn1Spec is written there or in setUp.  The vector records the modules of
pyasn1_modules the test file imports, in order, and which of these the method
goes on to assert:

    assertFalse(rest)                                no octet left
    assertEqual(substrate, der_encoder(obj))         same octets on encoding

A map given as openTypes is recorded as its entries, in the order in which the
method puts them in.  Everything else a method does (looking into the decoded
object, decoding parts of it again) is left out there; the programs have it.

usage: tests2coq.py REPO VECTORS PROGRAMS
"""
import ast, glob, os, re, sys

repo, dest, dest2 = sys.argv[1:4]
DECODE = ('der_decoder', 'der_decoder.decode')
ENCODE = ('der_encoder', 'der_encoder.encode')


class Skip(Exception):
    pass


def strings(c):
    """Class attributes that are string literals, or tuples or lists of them."""
    out = {}
    for b in c.body:
        if isinstance(b, ast.Assign) and len(b.targets) == 1 and isinstance(b.targets[0], ast.Name):
            if isinstance(b.value, ast.Constant) and isinstance(b.value.value, str):
                out[b.targets[0].id] = b.value.value
    return out


def spec_of(e, spec):
    if isinstance(e, ast.Attribute) and e.attr == 'asn1Spec':
        return spec
    if (isinstance(e, ast.Call) and isinstance(e.func, ast.Attribute) and isinstance(e.func.value, ast.Name)
            and not e.args and not e.keywords):
        return (e.func.value.id, e.func.attr)
    return None


def q(s):
    assert '"' not in s
    return '"%s"' % s


def expr(e):
    """A Python expression as (module to evaluate it in, Py.Syntax.expr)."""
    if isinstance(e, ast.Attribute) and isinstance(e.value, ast.Name) and e.value.id.startswith('rfc'):
        return e.value.id, '(EName %s)' % q(e.attr)
    if isinstance(e, ast.Attribute) and isinstance(e.value, ast.Name) and e.value.id in ('univ', 'char', 'useful'):
        return 'rfc5280', '(EAttr (EName %s) %s)' % (q(e.value.id), q(e.attr))
    if isinstance(e, ast.Call) and not e.keywords and all(isinstance(a, ast.Constant) and isinstance(a.value, str) for a in e.args):
        m, f = expr(e.func)
        return m, '(ECall %s [%s] [])' % (f, '; '.join('EStr %s' % q(a.value) for a in e.args))
    raise Skip(ast.unparse(e))


def entries(e):
    """A dictionary expression as a list of entries."""
    if isinstance(e, ast.Dict):
        out = []
        for k, v in zip(e.keys, e.values):
            (km, ke), (vm, ve) = expr(k), expr(v)
            out.append('One %s %s %s %s' % (q(km), ke, q(vm), ve))
        return out
    if isinstance(e, ast.Call) and isinstance(e.func, ast.Attribute) and e.func.attr == 'copy':
        e = e.func.value
    if isinstance(e, ast.Attribute) and isinstance(e.value, ast.Name):
        return ['AllOf %s %s' % (q(e.value.id), q(e.attr))]
    raise Skip(ast.unparse(e))


vectors, skipped, methods = [], [], 0
for f in sorted(glob.glob(os.path.join(repo, 'tests', 'test_*.py'))):
    tree = ast.parse(open(f).read())
    name = os.path.basename(f)[5:-3]
    imports = [a.name for n in tree.body if isinstance(n, ast.ImportFrom) and n.module == 'pyasn1_modules'
               for a in n.names if a.name != 'pem']
    for c in [n for n in tree.body if isinstance(n, ast.ClassDef)]:
        attrs, spec = strings(c), None
        for b in c.body:
            if isinstance(b, ast.FunctionDef) and b.name == 'setUp':
                for s in b.body:
                    if isinstance(s, ast.Assign) and ast.unparse(s.targets[0]) == 'self.asn1Spec':
                        spec = spec_of(s.value, None)
        for b in c.body:
            if not (isinstance(b, ast.FunctionDef) and b.name.startswith('test')):
                continue
            methods += 1
            subs, dicts, local, found = {}, {}, {}, 0
            asserted = {ast.unparse(n) for n in ast.walk(b) if isinstance(n, ast.Call)
                        and ast.unparse(n.func).startswith('self.assert')}
            for s in b.body:
                try:
                    if (isinstance(s, ast.Expr) and isinstance(s.value, ast.Call) and isinstance(s.value.func, ast.Attribute)
                            and s.value.func.attr == 'update' and isinstance(s.value.func.value, ast.Name)
                            and s.value.func.value.id in dicts):
                        d = dicts.pop(s.value.func.value.id)
                        try:
                            dicts[s.value.func.value.id] = d + entries(s.value.args[0])
                        except Skip:
                            pass
                    if not (isinstance(s, ast.Assign) and len(s.targets) == 1):
                        # any other statement that touches a map makes it unknown
                        for n in ast.walk(s):
                            if isinstance(s, ast.For) and isinstance(n, ast.Name) and n.id in dicts and '%s.update' % n.id in ast.unparse(s):
                                dicts.pop(n.id)
                        continue
                    t = s.targets[0]
                    if isinstance(t, ast.Name):
                        if isinstance(s.value, ast.Dict) or (isinstance(s.value, ast.Call) and isinstance(s.value.func, ast.Attribute)
                                                             and s.value.func.attr == 'copy'):
                            dicts.pop(t.id, None)
                            try:
                                dicts[t.id] = entries(s.value)
                            except Skip:
                                pass
                        elif isinstance(s.value, ast.Call) and ast.unparse(s.value.func) == 'pem.readBase64fromText':
                            a = s.value.args[0]
                            if isinstance(a, ast.Attribute) and ast.unparse(a.value) == 'self' and a.attr in attrs:
                                subs[t.id] = attrs[a.attr]
                            else:
                                subs.pop(t.id, None)
                        else:
                            subs.pop(t.id, None)
                            sp = spec_of(s.value, spec)
                            if sp:
                                local[t.id] = sp
                    if (isinstance(t, ast.Tuple) and len(t.elts) == 2 and all(isinstance(x, ast.Name) for x in t.elts)
                            and isinstance(s.value, ast.Call) and ast.unparse(s.value.func) in DECODE):
                        kw = {k.arg: k.value for k in s.value.keywords}
                        a = s.value.args[0]
                        if not (isinstance(a, ast.Name) and a.id in subs):
                            raise Skip(ast.unparse(s))
                        e = kw.get('asn1Spec', s.value.args[1] if len(s.value.args) > 1 else None)
                        sp = local.get(e.id) if isinstance(e, ast.Name) else spec_of(e, spec)
                        if not sp or not set(kw) <= {'asn1Spec', 'decodeOpenTypes', 'openTypes'}:
                            raise Skip(ast.unparse(s))
                        more = []
                        if 'openTypes' in kw:
                            if not (isinstance(kw['openTypes'], ast.Name) and kw['openTypes'].id in dicts):
                                raise Skip(ast.unparse(s))
                            more = dicts[kw['openTypes'].id]
                        obj, rest = (x.id for x in t.elts)
                        rec = any('self.assertEqual(%s)' % x in asserted for enc in ENCODE
                                  for x in ('%s, %s(%s)' % (a.id, enc, obj), '%s(%s), %s' % (enc, obj, a.id)))
                        norest = 'self.assertFalse(%s)' % rest in asserted
                        vectors.append(('%s.%s.%s' % (name, c.name, b.name), imports, sp, subs[a.id],
                                        'decodeOpenTypes' in kw, more, norest, rec))
                        found += 1
                        break     # later assertions may be about re-assigned names
                except Skip as x:
                    skipped.append(('%s.%s.%s' % (name, c.name, b.name), str(x)))
                    break
            else:
                if not found:
                    skipped.append(('%s.%s.%s' % (name, c.name, b.name), 'no such call'))

texts, rows = {}, []
B = lambda x: 'true' if x else 'false'
for n, imp, sp, txt, op, more, nr, rec in vectors:
    k = texts.setdefault(txt, 't%d' % len(texts))
    rows.append('  mkV %s [%s] %s %s %s %s [%s] %s %s' % (q(n), '; '.join(map(q, imp)), q(sp[0]), q(sp[1]), k, B(op),
                                                        '; '.join(more), B(nr), B(rec)))
with open(dest, 'w') as o:
    o.write('(** GENERATED by tools/tests2coq.py from /repo/tests - do not edit.\n'
            '    %d decode calls found in %d test methods.\n'
            '    Test methods without one that could be extracted:\n%s *)\n'
            % (len(rows), methods, '\n'.join('      %s' % s[0] for s in skipped)))
    o.write('From Coq Require Import List String.\nFrom Verif Require Import Py.Syntax.\nImport ListNotations.\nOpen Scope string_scope.\n\n')
    o.write('(** An entry of a map given as openTypes: one entry (key and value, each with the module\n'
            '    it is evaluated in), or all entries of a registry of a module. *)\n'
            'Inductive more := One (mk : string) (k : expr) (mv : string) (v : expr) | AllOf (m x : string).\n\n')
    o.write('(** A decode call of a test: test name, modules imported by the file, module and type of\n'
            '    asn1Spec, the text handed to readBase64fromText, decodeOpenTypes, openTypes, and\n'
            '    whether the test asserts that nothing is left and that encoding gives the same octets. *)\n'
            'Record vector := mkV { v_test : string; v_imports : list string; v_module : string; v_type : string;\n'
            '  v_text : string; v_open : bool; v_more : list more; v_norest : bool; v_recode : bool }.\n\n')
    for t, k in texts.items():
        assert '"' not in t
        o.write('Definition %s := "%s".\n' % (k, t.replace('\r', '')))
    o.write('\nDefinition vectors : list vector := [\n' + ';\n'.join(rows) + '].\n')
print(len(rows), 'vectors', len(texts), 'texts', methods, 'methods', len(skipped), 'skipped')
for s in skipped:
    print(' ', *s)

# ---------------------------------------------------------------------------
# Whole test methods, as programs of Tools/TestLang.v.

SIMPLE = {}          # module -> does it import univ/char from pyasn1.type
def has_name(m, n):
    k = (m, n)
    if k not in SIMPLE:
        t = ast.parse(open(os.path.join(repo, 'pyasn1_modules', m + '.py')).read())
        SIMPLE[k] = any(isinstance(s, ast.ImportFrom) and s.module == 'pyasn1.type' and n in [a.name for a in s.names]
                        for s in t.body)
    return SIMPLE[k]


def general(e):
    """A library expression (univ.X, namedtype.NamedTypes(...)) as a Py.Syntax.expr."""
    if isinstance(e, ast.Name):
        return 'EName %s' % q(e.id)
    if isinstance(e, ast.Attribute):
        return 'EAttr (%s) %s' % (general(e.value), q(e.attr))
    if isinstance(e, ast.Constant) and isinstance(e.value, str):
        return 'EStr %s' % q(e.value)
    if isinstance(e, ast.Call) and not e.keywords:
        return 'ECall (%s) [%s] []' % (general(e.func), '; '.join(general(a) for a in e.args))
    raise Skip(ast.unparse(e))


class Method:
    """Translate one test method."""

    def __init__(self, method, imports, attrs, consts, texts):
        self.method = method
        self.imports, self.attrs, self.consts, self.texts = imports, attrs, consts, texts
        self.local, self.maps, self.classes, self.peeks, self.defs = set(), set(), {}, set(), {}

    def text(self, s):
        s = s.replace('\r', '')
        if any(ord(c) > 126 for c in s):
            return '(XCodes [%s]%%N)' % '; '.join(str(ord(c)) for c in s)
        if len(s) > 100:
            return '(XText %s)' % self.texts.setdefault(s, 't%d' % len(self.texts))
        return '(XText %s)' % q(s)

    def py(self, e):
        """(module, Py.Syntax.expr) for an expression over module names and constants, or None."""
        if isinstance(e, ast.Attribute) and isinstance(e.value, ast.Name) and e.value.id in self.imports:
            return e.value.id, '(EName %s)' % q(e.attr)
        if isinstance(e, ast.Attribute) and isinstance(e.value, ast.Name) and e.value.id in ('univ', 'char', 'useful'):
            for m in self.imports:
                if has_name(m, e.value.id):
                    return m, '(EAttr (EName %s) %s)' % (q(e.value.id), q(e.attr))
            raise Skip('no module with ' + e.value.id)
        if isinstance(e, ast.Call) and isinstance(e.func, ast.Name) and e.func.id in self.classes and not e.args and not e.keywords:
            # C() of a local class: the base class with the attributes as keywords
            base, kw = self.classes[e.func.id]
            for m in self.imports:
                if all(has_name(m, n.id) for x in [base] + list(kw.values()) for n in ast.walk(x) if isinstance(n, ast.Name)):
                    return m, '(ECall (%s) [] [%s])' % (general(base), '; '.join('(%s, %s)' % (q(k), general(v)) for k, v in kw.items()))
            raise Skip(ast.unparse(e))
        if isinstance(e, ast.Call):
            if isinstance(e.func, ast.Attribute) and e.func.attr in ('subtype', 'clone') and isinstance(e.func.value, ast.Call):
                f = self.py(e.func.value)
                f = f and (f[0], '(EAttr %s %s)' % (f[1], q(e.func.attr)))
            else:
                f = self.py(e.func)
            if f and not any(k.arg == 'hexValue' for k in e.keywords):
                return f[0], '(ECall %s [%s] [%s])' % (f[1], '; '.join(self.const(a) for a in e.args),
                                                        '; '.join('(%s, %s)' % (q(k.arg), self.const(k.value)) for k in e.keywords))
        return None

    def const(self, e):
        if isinstance(e, ast.Constant) and isinstance(e.value, bool):
            return 'EBool %s' % B(e.value)
        if isinstance(e, ast.Constant) and isinstance(e.value, int):
            return 'EInt (%d)' % e.value
        if isinstance(e, ast.Constant) and isinstance(e.value, str) and all(32 <= ord(c) < 127 for c in e.value):
            return 'EStr %s' % q(e.value)
        if isinstance(e, ast.Tuple):
            return 'ETuple [%s]' % '; '.join(self.const(a) for a in e.elts)
        raise Skip('argument ' + ast.unparse(e))

    def x(self, e):
        u = ast.unparse(e)
        if isinstance(e, ast.Constant):
            if e.value is None:
                return 'XNone'
            if isinstance(e.value, bool):
                return '(XBool %s)' % B(e.value)
            if isinstance(e.value, int):
                return '(XInt (%d))' % e.value
            if isinstance(e.value, str):
                return self.text(e.value)
        if isinstance(e, ast.Name):
            if e.id in self.local:
                return '(XVar %s)' % q(e.id)
            raise Skip(u)
        if isinstance(e, ast.Attribute):
            if isinstance(e.value, ast.Name) and e.value.id == 'self':
                if e.attr in self.attrs:
                    return self.text(self.attrs[e.attr])
                if 'self.' + e.attr in self.local:
                    return '(XVar %s)' % q('self.' + e.attr)
                if e.attr in self.consts:
                    return self.x(self.consts[e.attr])
                raise Skip(u)
            p = self.py(e)
            if p:
                return '(XPy %s %s)' % (q(p[0]), p[1])
            if e.attr == 'isValue':
                return '(XDo "isValue" %s)' % self.x(e.value)
            raise Skip(u)
        if isinstance(e, ast.Subscript):
            if isinstance(e.slice, ast.Slice):
                b = lambda z: 'None' if z is None else '(Some (%d)%%Z)' % ast.literal_eval(z)
                if e.slice.step:
                    raise Skip(u)
                return '(XSlice %s %s %s)' % (self.x(e.value), b(e.slice.lower), b(e.slice.upper))
            return '(XIdx %s %s)' % (self.x(e.value), self.x(e.slice))
        if isinstance(e, ast.UnaryOp) and isinstance(e.op, ast.USub) and isinstance(e.operand, ast.Constant):
            return '(XInt (%d))' % -e.operand.value
        if isinstance(e, ast.UnaryOp) and isinstance(e.op, ast.Not):
            return '(XNot %s)' % self.x(e.operand)
        if isinstance(e, ast.Compare) and len(e.ops) == 1:
            a, b, o = self.x(e.left), self.x(e.comparators[0]), e.ops[0]
            for c, s in ((ast.Eq, '(XOp "==" %s %s)'), (ast.NotEq, '(XNot (XOp "==" %s %s))'), (ast.In, '(XOp "in" %s %s)'),
                         (ast.NotIn, '(XNot (XOp "in" %s %s))'), (ast.Lt, '(XOp "<" %s %s)')):
                if isinstance(o, c):
                    return s % (a, b)
        if isinstance(e, ast.BoolOp) and len(e.values) == 2:
            return '(XOp %s %s %s)' % (q('and' if isinstance(e.op, ast.And) else 'or'), self.x(e.values[0]), self.x(e.values[1]))
        if isinstance(e, ast.BinOp) and isinstance(e.op, (ast.Mod, ast.Add)):
            return '(XOp %s %s %s)' % (q('%' if isinstance(e.op, ast.Mod) else '+'), self.x(e.left), self.x(e.right))
        if isinstance(e, ast.Dict):
            return '(XDict [%s])' % '; '.join('(%s, %s)' % (self.x(k), self.x(v)) for k, v in zip(e.keys, e.values))
        if isinstance(e, (ast.List, ast.Tuple)):
            return '(XList [%s])' % '; '.join(self.x(k) for k in e.elts)
        if isinstance(e, ast.Lambda) and len(e.args.args) == 1:
            n = e.args.args[0].arg
            had = n in self.local
            self.local.add(n)
            b = self.x(e.body)
            if not had:
                self.local.discard(n)
            return '(XLam %s %s)' % (q(n), b)
        if isinstance(e, ast.Call):
            f = ast.unparse(e.func)
            if f in ENCODE and len(e.args) == 1 and all(k.arg == 'omitEmptyOptionals' and ast.unparse(k.value) == 'True' for k in e.keywords):
                return '(XDo "encode" %s)' % self.x(e.args[0])
            if f == 'pem.readBase64fromText' and len(e.args) == 1:
                return '(XDo "base64" %s)' % self.x(e.args[0])
            if f in ('len', 'str', 'str2octs', 'ints2octs') and len(e.args) == 1 and not e.keywords:
                return '(XDo %s %s)' % (q(f), self.x(e.args[0]))
            if isinstance(e.func, ast.Attribute) and not e.args and not e.keywords and e.func.attr in (
                    'prettyPrint', 'hasValue', 'getName', 'keys', 'copy', 'asOctets', 'lower'):
                return '(XDo %s %s)' % (q(e.func.attr), self.x(e.func.value))
            if (len(e.keywords) == 1 and e.keywords[0].arg == 'hexValue' and not e.args
                    and isinstance(e.keywords[0].value, ast.Constant)):
                p = self.py(e.func)
                if p:
                    return '(XHex (XPy %s (ECall %s [] [])) %s)' % (q(p[0]), p[1], q(e.keywords[0].value.value))
            if f == 'sum' and re.fullmatch(r'sum\(\(1 for _ in \w+\)\)', u):
                return '(XDo "count" %s)' % self.x(e.args[0].generators[0].iter)
            if (len(e.keywords) == 1 and e.keywords[0].arg == 'value' and not e.args and isinstance(e.keywords[0].value, ast.Constant)
                    and isinstance(e.keywords[0].value.value, str) and any(ord(c) > 126 for c in e.keywords[0].value.value)):
                p = self.py(e.func)
                if p:
                    return '(XWith (XPy %s (ECall %s [] [])) %s)' % (q(p[0]), p[1], self.x(e.keywords[0].value))
            p = self.py(e)
            if p:
                return '(XPy %s %s)' % (q(p[0]), p[1])
            if not e.keywords and len(e.args) == 1 and isinstance(e.func, ast.Subscript):
                return '(XApp %s %s)' % (self.x(e.func), self.x(e.args[0]))
        raise Skip(u)

    def block(self, l):
        out = []
        for s in l:
            out += self.s(s)
        return '[%s]' % ';\n    '.join(out)

    def s(self, s):
        u = ast.unparse(s)
        if isinstance(s, ast.Pass):
            return []
        if isinstance(s, ast.Assert):
            return ['TAssert %s' % self.x(s.test)]
        if isinstance(s, ast.FunctionDef) and isinstance(s.body[-1], ast.Return) and not s.args.defaults:
            self.defs[s.name] = s
            return []
        if isinstance(s, ast.ClassDef) and len(s.bases) == 1:
            kw = {}
            for b in s.body:
                if isinstance(b, ast.Assign) and isinstance(b.targets[0], ast.Name):
                    kw[b.targets[0].id] = b.value
                elif not isinstance(b, ast.Pass):
                    raise Skip(u.split('\n')[0])
            self.classes[s.name] = (s.bases[0], kw)
            return []
        if isinstance(s, ast.Assign) and len(s.targets) == 1:
            t = s.targets[0]
            if isinstance(t, ast.Attribute) and isinstance(t.value, ast.Name) and t.value.id in self.classes:
                self.classes[t.value.id][1][t.attr] = s.value
                return []
            if (isinstance(t, ast.Name) and isinstance(s.value, ast.Call) and isinstance(s.value.func, ast.Name)
                    and s.value.func.id in self.defs):
                d = self.defs[s.value.func.id]
                ps = [a.arg for a in d.args.args]
                args = '; '.join('(%s, %s)' % (q(a), self.x(v)) for a, v in zip(ps, s.value.args))
                had = set(self.local)
                self.local |= set(ps)
                r = 'TCall %s [%s] %s %s' % (q(t.id), args, self.block(d.body[:-1]), self.x(d.body[-1].value))
                self.local = had | {t.id}
                return [r]
            if isinstance(t, ast.Name) or ast.unparse(t).startswith('self.') and isinstance(t, ast.Attribute):
                n = ast.unparse(t)
                e = self.x(s.value)
                self.local.add(n)
                self.maps.discard(n)
                if isinstance(s.value, (ast.Dict, ast.List)) or isinstance(s.value, ast.Call) and ast.unparse(s.value.func).endswith('.copy'):
                    self.maps.add(n)
                return ['TSet %s %s' % (q(n), e)]
            if (isinstance(t, ast.Tuple) and len(t.elts) == 2 and all(isinstance(y, ast.Name) for y in t.elts)
                    and isinstance(s.value, ast.Call) and ast.unparse(s.value.func) in DECODE):
                kw = {k.arg: k.value for k in s.value.keywords}
                a = s.value.args
                if not set(kw) <= {'asn1Spec', 'decodeOpenTypes', 'openTypes'} or len(a) + ('asn1Spec' in kw) != 2:
                    raise Skip(u)
                if 'decodeOpenTypes' in kw and ast.unparse(kw['decodeOpenTypes']) != 'True':
                    raise Skip(u)
                r = 'TDecode %s %s %s %s %s %s' % (
                    q(t.elts[0].id), q(t.elts[1].id), self.x(a[0]), self.x(kw['asn1Spec'] if 'asn1Spec' in kw else a[1]),
                    B('decodeOpenTypes' in kw), '(Some %s)' % self.x(kw['openTypes']) if 'openTypes' in kw else 'None')
                for y in t.elts:
                    self.local.add(y.id)
                    self.maps.discard(y.id)
                return [r]
            if isinstance(t, ast.Subscript) and isinstance(t.value, ast.Name) and t.value.id in self.local:
                return ['TPut %s %s %s' % (q(t.value.id), self.x(t.slice), self.x(s.value))]
        if isinstance(s, ast.AugAssign) and isinstance(s.op, ast.Add) and isinstance(s.target, ast.Name):
            n = q(s.target.id)
            return ['TSet %s (XOp "+" (XVar %s) %s)' % (n, n, self.x(s.value))]
        if isinstance(s, ast.For) and isinstance(s.target, ast.Name) and not s.orelse:
            e = self.x(s.iter)
            self.local.add(s.target.id)
            # for v in w: if v['x'].hasValue(): ...   Reading an alternative that is not chosen changes v;
            # here v is not read again then, nor is w after the loop.
            if (isinstance(s.iter, ast.Name) and len(s.body) == 1 and isinstance(s.body[0], ast.If) and not s.body[0].orelse
                    and not any(isinstance(n, ast.Name) and n.id in (s.iter.id, s.target.id) and isinstance(n.ctx, ast.Load)
                                and n.lineno > s.end_lineno for n in ast.walk(self.method))):
                self.peeks.add(s.body[0].test)
            return ['TFor %s %s %s' % (q(s.target.id), e, self.block(s.body))]
        if (isinstance(s, ast.If) and s.test in self.peeks and isinstance(s.test, ast.Call) and isinstance(s.test.func, ast.Attribute)
                and s.test.func.attr == 'hasValue' and isinstance(s.test.func.value, ast.Subscript)
                and isinstance(s.test.func.value.value, ast.Name) and isinstance(s.test.func.value.slice, ast.Constant)):
            v = s.test.func.value
            return ['TIf (XHas %s %s) %s []' % (self.x(v.value), q(v.slice.value), self.block(s.body))]
        if isinstance(s, ast.If):
            return ['TIf %s %s %s' % (self.x(s.test), self.block(s.body), self.block(s.orelse))]
        if isinstance(s, ast.While) and not s.orelse:
            return ['TWhile %s %s' % (self.x(s.test), self.block(s.body))]
        if isinstance(s, ast.Expr) and isinstance(s.value, ast.Call):
            c, f = s.value, ast.unparse(s.value.func)
            if f == 'self.assertRaises' and ast.unparse(c.args[0]) == 'error.PyAsn1Error' and ast.unparse(c.args[1]) in ENCODE and len(c.args) == 3:
                return ['TRaises (XDo "encode" %s)' % self.x(c.args[2])]
            if f.startswith('self.assert') and not c.keywords:
                k, a = f[len('self.assert'):], [self.x(y) for y in c.args]
                if k == 'True':            # a second argument is the message
                    return ['TAssert %s' % a[0]]
                if k == 'False':
                    return ['TAssert (XNot %s)' % a[0]]
                forms = {'Equal': '(XOp "==" %s %s)', 'NotEqual': '(XNot (XOp "==" %s %s))', 'In': '(XOp "in" %s %s)',
                         'Less': '(XOp "<" %s %s)'}
                if k in forms and len(a) == 2:
                    return ['TAssert ' + forms[k] % tuple(a)]
                if k == 'Greater' and len(a) == 2:
                    return ['TAssert (XOp "<" %s %s)' % (a[1], a[0])]
            if isinstance(c.func, ast.Attribute) and isinstance(c.func.value, ast.Name) and len(c.args) == 1 and not c.keywords:
                n = c.func.value.id
                if c.func.attr == 'update' and n in self.maps:
                    return ['TUpdate %s %s' % (q(n), self.x(c.args[0]))]
                if c.func.attr == 'append' and n in self.maps:
                    return ['TAppend %s %s' % (q(n), self.x(c.args[0]))]
        if isinstance(s, ast.Expr) and isinstance(s.value, ast.Compare):
            return ['TExpr %s' % self.x(s.value)]
        raise Skip(u.split('\n')[0])


# Methods that the interpreter does not cover, and why (see DESIGN.md).
LEFT_OUT = {'rfc3739.WithComponentsTestCase.testDerCodec': 'encoding a Sequence without a value'}
# Methods that pass but take the proof checker minutes.
for n in ('rfc2459.DSAPrivateKeyTestCase.testDerCodec', 'rfc2459.DSAPrivateKeyTestCase.testDerCodecDecodeOpenTypes',
          'rfc3279.DHCertificateTestCase.testDerCodec', 'rfc3279.DHCertificateTestCase.testOpenTypes',
          'rfc3447.MultiprimeRSAPrivateKeyTestCase.testDerCodec', 'rfc8017.MultiprimeRSAPrivateKeyTestCase.testDerCodec',
          'rfc8360.CertExtnsTestCase.testDerCodec'):
    LEFT_OUT[n] = 'slow to check'

programs, left, held = [], [], set(texts)
for f in sorted(glob.glob(os.path.join(repo, 'tests', 'test_*.py'))):
    tree = ast.parse(open(f).read())
    name = os.path.basename(f)[5:-3]
    imports = [a.name for n in tree.body if isinstance(n, ast.ImportFrom) and n.module == 'pyasn1_modules'
               for a in n.names if a.name != 'pem']
    for c in [n for n in tree.body if isinstance(n, ast.ClassDef)]:
        consts = {b.targets[0].id: b.value for b in c.body if isinstance(b, ast.Assign)
                  and len(b.targets) == 1 and isinstance(b.targets[0], ast.Name)}
        setup = [s for b in c.body if isinstance(b, ast.FunctionDef) and b.name == 'setUp' for s in b.body]
        for b in c.body:
            if not (isinstance(b, ast.FunctionDef) and b.name.startswith('test')):
                continue
            n = '%s.%s.%s' % (name, c.name, b.name)
            try:
                if n in LEFT_OUT:
                    raise Skip(LEFT_OUT[n])
                body = Method(b, imports, strings(c), consts, texts).block(setup + b.body)
                programs.append('  mkP %s [%s]\n   %s' % (q(n), '; '.join(map(q, imports)), body))
            except Skip as x:
                left.append((n, str(x)))
with open(dest2, 'w') as o:
    o.write('(** GENERATED by tools/tests2coq.py from /repo/tests - do not edit.\n'
            '    %d of %d test methods.  Left out:\n%s *)\n'
            % (len(programs), methods, '\n'.join('      %s: %s' % (a, b.replace('"', "'").replace('(*', '( *')) for a, b in left)))
    o.write('From Coq Require Import List String ZArith.\nFrom Verif Require Import Py.Syntax Tools.TestLang Gen.Vectors.\n'
            'Import ListNotations.\nOpen Scope string_scope.\nOpen Scope Z_scope.\n\n')
    for t, k in texts.items():
        if t not in held:
            assert '"' not in t
            o.write('Definition %s := "%s".\n' % (k, t))
    for i, p in enumerate(programs):
        o.write('Definition p%d := %s.\n' % (i, p.strip()))
    o.write('\nDefinition programs : list program := [' + '; '.join('p%d' % i for i in range(len(programs))) + '].\n')
print(len(programs), 'programs', len(left), 'left out')
for s in left:
    print(' ', *s)
