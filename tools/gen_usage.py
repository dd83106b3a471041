#!/usr/bin/env python3
"""Generate rocq/theories/UsageTable.v from the text of /repo/hrdc/usage/*.py.

The modules are read as text and never imported.  Every line of a table
module must be blank, a comment, the import line or one declaration of the
form  Attr = Usage("name", 0xvalue, kinds); anything else is an error.
"""
import re, sys, os

REPO = sys.argv[1] if len(sys.argv) > 1 else "/repo"
D = os.path.join(REPO, "hrdc", "usage")
# import order of hrdc/usage/__init__.py, button and ordinal being loops
MODULES = ["pid", "keyboard", "desktop", "telephony", "consumer",
           "simulation", "led", "vr", "game", "camera", "device",
           "digitizers", "lighting", "sensors"]
KINDS = {"CA", "CL", "CP", "RTC", "LC", "MC", "OSC", "Sel", "SV", "SF", "DF",
         "DV", "NAry", "US", "UM", "OOC"}
DECL = re.compile(r'^(\w+) = Usage\("([^"]*)", (0x[0-9A-Fa-f]+),? ?([\w, ]*)\)\s*$')

def read(mod):
    out = []
    for no, line in enumerate(open(os.path.join(D, mod + ".py")), 1):
        s = line.rstrip("\n")
        if not s.strip() or s.lstrip().startswith("#") or s.strip() == "from .usage import *":
            continue
        m = DECL.match(s)
        if not m:
            sys.exit("%s.py:%d: not a declaration: %r" % (mod, no, s))
        kinds = [k for k in re.split(r"[, ]+", m.group(4)) if k]
        assert set(kinds) <= KINDS, (mod, no, kinds)
        out.append((no, m.group(1), m.group(2), m.group(3).lower(), kinds))
    return out

print('(* UsageTable.v -- generated by tools/gen_usage.py from the text of')
print('   hrdc/usage/*.py; do not edit.  One list per module, in import order')
print('   (hrdc/usage/__init__.py:3-21); arcade.py is not imported by default')
print('   and is kept apart. *)')
print('From Verif Require Import Py Usage.')
print('Open Scope string_scope.')
print('Local Open Scope Z_scope.')
print()
print('(** Attr = Usage("name", value, kinds) *)')
print('Record udecl := UDecl { u_attr : string; u_name : string; u_value : Z;')
print('                        u_kinds : list utype }.')
for m in MODULES + ["arcade"]:
    decls = read(m)
    print()
    print("(* hrdc/usage/%s.py:%d-%d *)" % (m, decls[0][0], decls[-1][0]))
    print("Definition t_%s : list udecl := [" % m)
    print(";\n".join('  UDecl "%s" "%s" %s [%s]' % (a, n, v, "; ".join(k))
                     for _, a, n, v, k in decls))
    print("].")
