#!/usr/bin/env python3
"""Generates rocq/theories/Schema.v from the text (AST) of the xsdata models in /repo.

The model files are parsed, never imported or run.
"""
import ast
import sys

BASE = sys.argv[1] if len(sys.argv) > 1 else "/repo/"
DIR = "ccsds_ndm/models/ndmxml2/"
MODS = ["common_2_0", "aem_1_0", "apm_1_0", "cdm_1_0", "oem_2_0", "omm_2_0",
        "opm_2_0", "rdm_1_0", "tdm_2_0", "ndm_2_0", "master_2_0"]

classes = {}
order = []
for m in MODS:
    fn = DIR + "ndmxml_2_0_0_%s.py" % m
    for n in ast.parse(open(BASE + fn).read()).body:
        if isinstance(n, ast.ClassDef):
            assert n.name not in classes
            first = n.decorator_list[0].lineno if n.decorator_list else n.lineno
            classes[n.name] = (fn, first, n.end_lineno, n)
            order.append(n.name)


def q(s):
    assert '"' not in s and all(32 <= ord(c) < 127 for c in s), s
    return '"%s"' % s


def fields_of(name):
    fn, a, b, n = classes[name]
    out = []
    for base in n.bases:
        out += fields_of(base.id)
    for x in n.body:
        if not isinstance(x, ast.AnnAssign):
            continue
        kw = {k.arg: k.value for k in x.value.keywords}
        md = kw.get("metadata")
        d = {ast.literal_eval(k): v for k, v in zip(md.keys, md.values)} if md else {}
        ann = ast.unparse(x.annotation)
        is_list = "default_factory" in kw
        fixed = None
        if is_list:
            assert ast.unparse(kw["default_factory"]) == "list" and ann.startswith("List[")
            inner = ann[5:-1]
        elif "init" in kw:
            assert ast.literal_eval(kw["init"]) is False and ann == "str"
            inner = ann
            fixed = ast.literal_eval(kw["default"])
        else:
            assert ann.startswith("Optional[") and ast.literal_eval(kw["default"]) is None
            inner = ann[9:-1]
        ty = {"str": "TStr", "int": "TInt", "Decimal": "TDec"}.get(inner)
        if ty is None:
            assert inner in classes, inner
            ty = '(TCls "%s")' % inner
        kind = {"Element": "KElem", "Attribute": "KAttr", None: "KText"}[
            ast.literal_eval(d["type"]) if "type" in d else None]
        if kind == "KText":
            assert x.target.id == "value"
        nm = ast.literal_eval(d["name"]) if "name" in d else None
        out.append((x.target.id, nm, is_list, ty, kind, fixed))
    return out


def meta_name(name):
    n = classes[name][3]
    for x in n.body:
        if isinstance(x, ast.ClassDef) and x.name == "Meta":
            for y in x.body:
                if isinstance(y, ast.Assign) and y.targets[0].id == "name":
                    return ast.literal_eval(y.value)
    raise AssertionError(name)


o = []
w = o.append
w("(* GENERATED by tools/gen_schema.py from the text of /repo/%s*.py. Do not edit.\n"
  "   Each definition cites the file and lines of the class it transcribes.\n"
  "   Fields are in dataclass order (base class fields first).\n"
  "   Simplification: validation facets (pattern, min/max, required) and\n"
  "   namespaces are dropped; the library never enforces them on reading. *)" % DIR)
w("From Coq Require Import String List.")
w("From Verif Require Import PyVal.")
w("Import ListNotations.\nLocal Open Scope string_scope.\n")
for c in order:
    fn, a, b, n = classes[c]
    bases = [x.id for x in n.bases]
    if bases == ["Enum"]:
        mem = [(x.targets[0].id, ast.literal_eval(x.value)) for x in n.body
               if isinstance(x, ast.Assign)]
        for m, v in mem:
            assert isinstance(v, str), (c, m, v)
        w("(* %s lines %d-%d *)" % (fn, a, b))
        w("Definition c_%s : cdef := CEnum [%s]." % (
            c, "; ".join("(%s, %s)" % (q(m), q(v)) for m, v in mem)))
    else:
        fs = fields_of(c)
        w("(* %s lines %d-%d%s *)" % (fn, a, b, "; base " + ", ".join(
            "%s %s lines %d-%d" % ((bs,) + classes[bs][:3]) for bs in bases) if bases else ""))
        w("Definition c_%s : cdef := CData %s [" % (c, q(meta_name(c))))
        w(";\n".join("  mkField %s %s %s %s %s %s" % (
            q(nm), "(Some %s)" % q(kw) if kw else "None", "true" if l else "false", ty, kind,
            "(Some %s)" % q(fx) if fx else "None") for nm, kw, l, ty, kind, fx in fs))
        w("].")
w("\n(* all classes of /repo/%s*.py *)" % DIR)
w("Definition schema : list (string * cdef) := [")
w(";\n".join("  (%s, c_%s)" % (q(c), c) for c in order))
w("].")
open("/verif/rocq/theories/Schema.v" if len(sys.argv) < 3 else sys.argv[2], "w").write("\n".join(o) + "\n")
