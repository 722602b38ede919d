#!/usr/bin/env python3
"""Generates rocq/theories/Samples.v: the KVN sample files shipped with the repository's tests
as Coq strings, beside the object described by the XML truth file of the same name
(converted with the standard library XML parser and the schema text; no repository code is
imported or run)."""
import ast
import decimal
import sys
import xml.etree.ElementTree as ET

BASE = "/repo/"
DATA = "ccsds_ndm/tests/data/kvn/"
DIR = BASE + "ccsds_ndm/models/ndmxml2/"
MODS = ["common_2_0", "aem_1_0", "apm_1_0", "cdm_1_0", "oem_2_0", "omm_2_0",
        "opm_2_0", "rdm_1_0", "tdm_2_0", "ndm_2_0", "master_2_0"]
FILES = ["502x0b2c1e2_fig3_2_opm", "502x0b2c1e2_fig3_4_opm", "504x0b1c1_fig3_6_apm",
         "504x0b1c1_fig3_8_apm", "508x1b1_figc_2_rdm", "adm-testcase04a_abbrev",
         "adm-testcase04a_multi", "cdm_example_section4", "odmv2-testcase6_abbrev",
         "odmv2-testcase7a_xxx", "omm1_ct", "omm1_st", "tdm-testcase01b"]

classes = {}
for m in MODS:
    for n in ast.parse(open(DIR + "ndmxml_2_0_0_%s.py" % m).read()).body:
        if isinstance(n, ast.ClassDef):
            classes[n.name] = n


def is_enum(c):
    return [b.id for b in classes[c].bases] == ["Enum"]


def members(c):
    return [(x.targets[0].id, ast.literal_eval(x.value)) for x in classes[c].body
            if isinstance(x, ast.Assign)]


def fields(c):
    n = classes[c]
    out = []
    for b in n.bases:
        out += fields(b.id)
    for x in n.body:
        if isinstance(x, ast.AnnAssign):
            kw = {k.arg: k.value for k in x.value.keywords}
            if "init" in kw:
                continue
            md = kw.get("metadata")
            d = {ast.literal_eval(k): v for k, v in zip(md.keys, md.values)} if md else {}
            nm = ast.literal_eval(d["name"]) if "name" in d else x.target.id
            kind = ast.literal_eval(d["type"]) if "type" in d else "Text"
            ann = ast.unparse(x.annotation)
            out.append((x.target.id, nm, ann.startswith("List"), ann[ann.index("[") + 1:-1], kind))
    return out


def q(s):
    assert all(ord(c) < 128 for c in s), s
    return '"%s"' % s.replace('"', '""')


def conv(ty, text):
    if not text:
        return "VStr []"
    if ty == "str":
        return "VStr (lit %s)" % q(text)
    if ty == "int":
        return "VInt (%d)%%Z" % int(text)
    if ty == "Decimal":
        try:
            t = decimal.Decimal(text).as_tuple()
        except decimal.InvalidOperation:
            return "VStr (lit %s)" % q(text)
        return "VDec (DFin %s %s%%N (%d)%%Z)" % (
            "true" if t.sign else "false", int("".join(map(str, t.digits))), t.exponent)
    for m, v in members(ty):
        if v == text.strip():
            return 'VEnum %s %s (lit %s)' % (q(ty), q(m), q(v))
    return "VStr (lit %s)" % q(text)


def obj(c, el):
    vs = []
    for name, nm, lst, ty, kind in fields(c):
        if kind == "Text":
            v = conv(ty, el.text or "")
        elif kind == "Attribute":
            v = conv(ty, el.attrib[nm]) if nm in el.attrib else "VNone"
        else:
            ch = [x for x in el if x.tag == nm]
            items = []
            for x in ch:
                if ty in classes and not is_enum(ty):
                    items.append(obj(ty, x))
                else:
                    items.append(conv(ty, x.text or ""))
            if lst:
                v = "VList [%s]" % "; ".join(items)
            else:
                assert len(items) <= 1
                v = items[0] if items else "VNone"
        vs.append("(%s, %s)" % (q(name), v))
    known = {nm for _, nm, _, _, _ in fields(c)}
    for x in el:
        assert x.tag in known, (c, x.tag)
    return "VObj %s [%s]" % (q(c), ";\n ".join(vs))


o = []
w = o.append
w("(* GENERATED by tools/gen_samples.py from /repo/%s*.kvn and *.xml. Do not edit.\n"
  "   Validation of the model on the repository's own test data (concrete tests, not part\n"
  "   of any proof). *)" % DATA)
w("From Coq Require Import NArith ZArith List String.")
w("From Verif Require Import PyStr PyDec PyVal.")
w("Import ListNotations.\nLocal Open Scope string_scope.\n")
for f in FILES:
    ident = f.replace("-", "_")
    text = open(BASE + DATA + f + ".kvn").read()
    root = ET.parse(BASE + DATA + f + ".xml").getroot()
    w("(* %s%s.kvn *)" % (DATA, f))
    w("Definition kvn_%s : string := %s." % (ident, q(text)))
    tag = root.tag.split("}")[-1]
    if tag == "ndm":
        assert len(root) == 1
        root = root[0]
        tag = root.tag
    w("(* %s%s.xml *)" % (DATA, f))
    w("Definition obj_%s : pyval :=\n %s." % (ident, obj(tag.capitalize(), root)))
w("Definition samples : list (string * string * pyval) := [")
w(";\n".join("  (%s, kvn_%s, obj_%s)" % (q(f), f.replace("-", "_"), f.replace("-", "_")) for f in FILES))
w("].")
open("/verif/rocq/theories/Samples.v" if len(sys.argv) < 2 else sys.argv[1], "w").write("\n".join(o) + "\n")
