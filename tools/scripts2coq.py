#!/usr/bin/env python3
"""Print pyasn1_modules/pem.py and the dump tools of a checkout as Coq terms.

usage: scripts2coq.py REPO OUT [TOOL ...]

With tools named, those alone are printed (Gen/ScriptSnmp.v: snmpget; Gen/ScriptOcsp.v:
ocspclient).

The terms are of the types of rocq/theories/Tools/ScriptLang.v.  Anything the types cannot
express is an error.
"""
import ast
import os
import sys

TOOLS = ["x509dump", "x509dump-rfc5280", "crldump", "pkcs10dump", "pkcs1dump", "pkcs8dump",
         "ocspreqdump", "ocsprspdump", "cmpdump", "crmfdump", "pkcs7dump", "cmcdump"]


def string(s):
    for c in s:
        if not (c == "\n" or 32 <= ord(c) < 127):
            raise ValueError("character %r" % c)
    return '"' + s.replace('"', '""') + '"'


def many(l):
    return "[" + "; ".join(l) + "]"


def num(z):
    return "(%d)" % z if z < 0 else "%d" % z


CMP = {ast.Eq: "==", ast.NotEq: "!=", ast.LtE: "<=", ast.In: "in"}


def expr(e):
    if isinstance(e, ast.Name):
        return "(XName %s)" % string(e.id)
    if isinstance(e, ast.Constant):
        v = e.value
        if v is None:
            return "XNone"
        if v is True:
            return "XTrue"
        if isinstance(v, str):
            return "(XStr %s)" % string(v)
        if type(v) is int:
            return "(XInt %s)" % num(v)
    if isinstance(e, ast.Tuple):
        return "(XTuple %s)" % many(map(expr, e.elts))
    if isinstance(e, ast.List):
        return "(XList %s)" % many(map(expr, e.elts))
    if isinstance(e, ast.Dict):
        return "(XDict %s)" % many("(%s, %s)" % (expr(k), expr(v)) for k, v in zip(e.keys, e.values))
    if isinstance(e, ast.Attribute):
        return "(XAttr %s %s)" % (expr(e.value), string(e.attr))
    if isinstance(e, ast.Call):
        if (isinstance(e.func, ast.Name) and e.func.id == "map" and len(e.args) == 2 and not e.keywords
                and isinstance(e.args[0], ast.Lambda)):
            a = e.args[0].args
            if len(a.args) == 1 and not (a.vararg or a.kwarg or a.defaults or a.kwonlyargs or a.posonlyargs):
                return "(XComp %s %s %s)" % (expr(e.args[0].body), string(a.args[0].arg), expr(e.args[1]))
        return "(XCall %s %s %s)" % (expr(e.func), many(map(expr, e.args)),
                                     many("(%s, %s)" % (string(k.arg), expr(k.value)) for k in e.keywords))
    if isinstance(e, ast.ListComp) and len(e.generators) == 1:
        g = e.generators[0]
        if isinstance(g.target, ast.Name) and not g.ifs and not g.is_async:
            return "(XComp %s %s %s)" % (expr(e.elt), string(g.target.id), expr(g.iter))
    if isinstance(e, ast.Subscript):
        if isinstance(e.slice, ast.Slice):
            s = e.slice
            if s.lower is None and s.step is None and s.upper is not None:
                return "(XUpto %s %s)" % (expr(e.value), expr(s.upper))
            if s.lower is not None and s.step is None and s.upper is None:
                return '(XSub %s (XCall (XName "slice") [%s; XNone] []))' % (expr(e.value), expr(s.lower))
        else:
            return "(XSub %s %s)" % (expr(e.value), expr(e.slice))
    if isinstance(e, ast.UnaryOp) and isinstance(e.op, ast.Not):
        return "(XNot %s)" % expr(e.operand)
    if isinstance(e, ast.UnaryOp) and isinstance(e.op, ast.USub):
        return "(XNeg %s)" % expr(e.operand)
    if isinstance(e, ast.BoolOp) and isinstance(e.op, ast.And) and len(e.values) == 2:
        return "(XAnd %s %s)" % (expr(e.values[0]), expr(e.values[1]))
    if isinstance(e, ast.Compare) and len(e.ops) == 1 and type(e.ops[0]) in CMP:
        return '(XCmp "%s" %s %s)' % (CMP[type(e.ops[0])], expr(e.left), expr(e.comparators[0]))
    if isinstance(e, ast.BinOp) and isinstance(e.op, ast.Mod):
        return "(XMod %s %s)" % (expr(e.left), expr(e.right))
    if isinstance(e, ast.Starred):
        return '(XCall (XName "*") [%s] [])' % expr(e.value)
    raise ValueError("line %d: %s" % (e.lineno, ast.dump(e)))


def block(l, ind):
    if not l:
        return "[]"
    pad = "\n" + " " * ind
    return "[" + (";" + pad).join(stmt(s, ind) for s in l) + "]"


def target(t):
    if isinstance(t, ast.Name):
        return [t.id]
    if isinstance(t, ast.Tuple) and all(isinstance(x, ast.Name) for x in t.elts):
        return [x.id for x in t.elts]
    raise ValueError("line %d: target" % t.lineno)


def stmt(s, ind):
    i = ind + 2
    pad = "\n" + " " * i
    if isinstance(s, ast.Import) and all(n.asname is None for n in s.names) and len(s.names) == 1:
        return "PImport %s" % string(s.names[0].name)
    if isinstance(s, ast.ImportFrom) and not s.level and all(n.asname is None for n in s.names):
        return "PFrom %s %s" % (string(s.module), many(string(n.name) for n in s.names))
    if isinstance(s, ast.Assign) and len(s.targets) == 1:
        return "PAssign %s %s" % (many(map(string, target(s.targets[0]))), expr(s.value))
    if isinstance(s, ast.AugAssign) and isinstance(s.op, ast.Add) and isinstance(s.target, ast.Name):
        return "PAug %s %s" % (string(s.target.id), expr(s.value))
    if isinstance(s, ast.Expr):
        c = s.value
        if (isinstance(c, ast.Call) and isinstance(c.func, ast.Attribute) and c.func.attr == "append"
                and isinstance(c.func.value, ast.Name) and len(c.args) == 1 and not c.keywords):
            return "PAppend %s %s" % (string(c.func.value.id), expr(c.args[0]))
        return "PExpr %s" % expr(c)
    if isinstance(s, ast.Assert):
        return "PAssert %s" % expr(s.test)
    if isinstance(s, ast.If):
        return "PIf %s%s%s%s%s" % (expr(s.test), pad, block(s.body, i + 1), pad, block(s.orelse, i + 1))
    if isinstance(s, ast.While) and not s.orelse:
        return "PWhile %s%s%s" % (expr(s.test), pad, block(s.body, i + 1))
    if isinstance(s, ast.Break):
        return "PBreak"
    if isinstance(s, ast.Continue):
        return "PContinue"
    if isinstance(s, ast.Return) and s.value is not None:
        return "PReturn %s" % expr(s.value)
    if isinstance(s, ast.FunctionDef) and not s.decorator_list:
        a = s.args
        if a.kwarg or a.kwonlyargs or a.posonlyargs:
            raise ValueError("line %d: parameters" % s.lineno)
        names = [x.arg for x in a.args]
        defs = ["None"] * (len(names) - len(a.defaults)) + ["Some %s" % expr(d) for d in a.defaults]
        return "PDef %s %s %s%s%s" % (string(s.name), many("(%s, %s)" % (string(n), d) for n, d in zip(names, defs)),
                                     "(Some %s)" % string(a.vararg.arg) if a.vararg else "None", pad, block(s.body, i + 1))
    raise ValueError("line %d: %s" % (s.lineno, ast.dump(s)))


def top(s):
    """A statement of a program that has classes and imports under try."""
    if isinstance(s, ast.ClassDef) and len(s.bases) == 1 and not s.keywords and not s.decorator_list:
        return "TClass %s %s\n     %s" % (string(s.name), expr(s.bases[0]), block(s.body, 6))
    if (isinstance(s, ast.Try) and len(s.body) == len(s.handlers) == len(s.handlers[0].body) == 1 and not s.orelse
            and not s.finalbody and isinstance(s.body[0], ast.Import) and isinstance(s.handlers[0].type, ast.Name)
            and s.handlers[0].type.id == "ImportError" and isinstance(s.handlers[0].body[0], ast.Import)):
        (a,), (b,) = s.body[0].names, s.handlers[0].body[0].names
        if a.asname is None and b.asname is not None:
            return "TImport %s %s %s" % (string(a.name), string(b.name), string(b.asname))
    return "TStmt (%s)" % stmt(s, 5)


def main():
    repo, out = sys.argv[1:3]
    given = sys.argv[3:]
    l = ["(** Generated by tools/scripts2coq.py from %s. *)" % (
            ", ".join("tools/%s.py" % t for t in given) or "pyasn1_modules/pem.py and tools/*.py"),
         "From Coq Require Import List String ZArith.", "From Verif Require Import Tools.ScriptLang.",
         "Import ListNotations.", "Open Scope string_scope.", "Open Scope Z_scope.", "Open Scope list_scope.", ""]

    def program(path, name):
        with open(os.path.join(repo, path)) as f:
            tree = ast.parse(f.read())
        l.append("(** %s *)" % path)
        if any(isinstance(s, (ast.ClassDef, ast.Try)) for s in tree.body):
            l[2] = "From Verif Require Import Tools.ScriptLang Tools.ScriptTop."
            l.append("Definition %s : list top :=\n  [%s]." % (name, ";\n   ".join(map(top, tree.body))))
            l.append("")
            return
        l.append("Definition %s : list ps :=\n  %s." % (name, block(tree.body, 3)))
        l.append("")

    if not given:
        program("pyasn1_modules/pem.py", "pem_py")
    for t in given or TOOLS:
        program("tools/%s.py" % t, t.replace("-", "_") + "_py")
    with open(out, "w") as f:
        f.write("\n".join(l))


if __name__ == "__main__":
    main()
