#!/usr/bin/env python3
"""Translates /repo/zigpy_cc/definition.py (as text, via the Python AST) into theories/CmdTable.v."""
import ast, os
src = open("/repo/zigpy_cc/definition.py").read()
tree = ast.parse(src)
d = next(n.value for n in tree.body if isinstance(n, ast.Assign) and n.targets[0].id == "Definition")
def params(node):
    out = []
    for p in node.elts:
        kv = {k.id: v for k, v in zip(p.keys, p.values)}
        assert set(kv) == {"name", "parameterType"}
        out.append('("%s", %s)' % (kv["name"].value, kv["parameterType"].attr))
    return "[" + "; ".join(out) + "]"
o = []
o.append('(** * CmdTable: zigpy_cc/definition.py:14-2624, generated by tools/gen_definition.py.')
o.append('    One entry per command, in source order; the comment gives the source line. *)')
o.append('From Verif Require Import Base Types.')
o.append('')
subs = []
for k, v in zip(d.keys, d.values):
    s = k.attr; subs.append(s)
    o.append('(** definition.py:%d-%d *)' % (k.lineno, v.end_lineno))
    o.append('Definition def_%s : list cmd := [' % s)
    es = []
    for c in v.elts:
        kv = {kk.id: vv for kk, vv in zip(c.keys, c.values)}
        assert set(kv) <= {"name", "ID", "type", "request", "response"}
        f = lambda n: "None" if n not in kv else "(Some %s)" % params(kv[n])
        es.append('  (* %d *) mk_cmd "%s" %d %s\n    %s\n    %s' % (c.lineno, kv["name"].value, kv["ID"].value, kv["type"].attr, f("request"), f("response")))
    o.append(";\n".join(es)); o.append('].'); o.append('')
o.append('(** The dict [Definition]: KeyError for a subsystem without commands. *)')
o.append('Definition definition (s : subsystem) : result (list cmd) :=')
o.append('  match s with')
for s in subs: o.append('  | %s => Ok def_%s' % (s, s))
o.append('  | RESERVED | NWK => Err KeyError')
o.append('  end.')
open(os.path.join(os.path.dirname(os.path.abspath(__file__)), "..", "rocq", "theories", "CmdTable.v"), "w").write("\n".join(o) + "\n")
