#!/usr/bin/env python3
"""Screen the model with small random edits.

usage: screen.py BUILT WORKDIR SEED COUNT [FILE...]

BUILT is a directory with the Rocq sources and their compiled files.  For each
of COUNT random edits of the model files, WORKDIR is made a copy of BUILT, the
edit is applied and everything that depends on it is built until a lemma or
theorem fails; Examples that fail are dropped.  One JSON line per edit:
`verdict` is "ill-typed" (the definition is rejected), "killed" or
"survived"."""
import json, os, random, re, subprocess, sys, time

MODEL = "Py Usage Item Parser TextFormats Optimizer Descriptor Extractor Converter Dumper PyExpr Tools Compare".split()
HEAD = re.compile(r"^\s*(?:Local\s+|Global\s+|#\[local\]\s*)?(Lemma|Theorem|Example|Corollary|Fact|Remark|Definition|Fixpoint|Inductive|Record|Instance|Ltac)\s+([A-Za-z0-9_']+)")
RULES = [
    (r"(?<![\w.])(\d+)(?![\w.%~])", lambda m: str(int(m.group(1)) + 1)),
    (r"(?<![\w.])(\d+)(?![\w.%~])", lambda m: str(max(0, int(m.group(1)) - 1))),
    (r"<\?", lambda m: "<=?"), (r"<=\?", lambda m: "<?"),
    (r"&&", lambda m: "||"), (r"\|\|", lambda m: "&&"),
    (r"\btrue\b", lambda m: "false"), (r"\bfalse\b", lambda m: "true"),
    (r"\bnegb\b", lambda m: "id"),
    (r"\bZ\.land\b", lambda m: "Z.lor"), (r"\bZ\.shiftl\b", lambda m: "Z.shiftr"), (r"\bZ\.shiftr\b", lambda m: "Z.shiftl"),
    (r"Minimum\b", lambda m: "Maximum"), (r"Maximum\b", lambda m: "Minimum"),
    (r"\bUsage\b", lambda m: "StringIndex"), (r"\bString", lambda m: "Designator"), (r"\bDesignator", lambda m: "String"),
    (r"\bReportCount\b", lambda m: "ReportSize"), (r"\bReportSize\b", lambda m: "ReportCount"),
    (r"\bInput\b", lambda m: "Output"), (r"\bUsagePage\b", lambda m: "ReportID"),
    (r"\bGlobal\b", lambda m: "Local"), (r"\bLocal\b", lambda m: "Main"),
    (r"lmin\b", lambda m: "lmax"), (r"lmax\b", lambda m: "lmin"), (r"pmin\b", lambda m: "pmax"), (r"pmax\b", lambda m: "pmin"),
    (r"\bNone\b", lambda m: "(Some 0)"), (r"=\? 0\b", lambda m: "=? 1"),
    (r"(?<= )\+(?= )", lambda m: "-"), (r"(?<= )-(?= )", lambda m: "+"), (r"(?<= )\*(?= )", lambda m: "+"),
    (r"\brev ", lambda m: "id "), (r"\bskipn\b", lambda m: "firstn"), (r"\bfirstn\b", lambda m: "skipn"),
    (r"\bZ\.max\b", lambda m: "Z.min"), (r"\bNat\.min\b", lambda m: "Nat.max"),
    (r"(?<=\+\+ )\[[^\[\]]+\]", lambda m: "[]"), (r"\bexistsb\b", lambda m: "forallb"), (r"\bforallb\b", lambda m: "existsb"),
    (r"\b(Index|Attribute|Assertion|Value|Type|Key)Error\b", lambda m: "StructError" if m.group(1) != "Struct" else "KeyError"),
]

def blank(text):
    """the text with comments and strings blanked, same length"""
    out, i, depth = [], 0, 0
    instr = False
    while i < len(text):
        two = text[i:i+2]
        if not instr and two == "(*": depth += 1; out.append("  "); i += 2; continue
        if not instr and depth and two == "*)": depth -= 1; out.append("  "); i += 2; continue
        c = text[i]
        if depth == 0 and c == '"':
            instr = not instr; out.append(" "); i += 1; continue
        out.append(c if (c == "\n" or (depth == 0 and not instr)) else " ")
        i += 1
    return "".join(out)

def spans(text):
    """(name, start, end) of each definition of the model"""
    ls = text.split("\n")
    pos, heads = 0, []
    for l in ls:
        m = HEAD.match(l)
        if m: heads.append((m.group(1), m.group(2), pos))
        pos += len(l) + 1
    heads.append(("End", "", len(text)))
    return [(n, s, heads[k + 1][2]) for k, (h, n, s) in enumerate(heads[:-1]) if h in ("Definition", "Fixpoint")]

def mutants(src, files):
    for f in files:
        text = open(os.path.join(src, "theories", f + ".v")).read()
        b = blank(text)
        for name, s, e in spans(b):
            body = b.find(":=", s, e)
            if body < 0: continue
            for pat, fn in RULES:
                for m in re.finditer(pat, b[body:e]):
                    a, z = body + m.start(), body + m.end()
                    new = fn(m)
                    if new == text[a:z]: continue
                    yield f, name, a, z, text[a:z], new

def admit(path, line):
    ls = open(path).read().split("\n")
    i = line - 1
    while i >= 0 and not HEAD.match(ls[i]): i -= 1
    if i < 0: return None, None
    kind, name = HEAD.match(ls[i]).group(1, 2)
    if kind != "Example": return kind, name
    text = "\n".join(ls[i:])
    m = re.search(r"\bProof\b[^.]*\.", text); q = re.search(r"\b(Qed|Defined)\.", text)
    st = text[:m.start()]
    text = st + "Proof. Admitted." + text[q.end():]
    open(path, "w").write("\n".join(ls[:i] + [text]))
    return kind, name

def main():
    built, work, seed, count = sys.argv[1], sys.argv[2], int(sys.argv[3]), int(sys.argv[4])
    files = sys.argv[5:] or MODEL
    ms = sorted(mutants(built, files))
    rnd = random.Random(seed)
    by = {}
    for m in ms: by.setdefault((m[0], m[1]), []).append(m)
    keys = sorted(by); rnd.shuffle(keys)
    picked, k = [], 0
    while len(picked) < count and by:
        key = keys[k % len(keys)]; k += 1
        if key in by:
            l = by[key]; picked.append(l.pop(rnd.randrange(len(l))))
            if not l: del by[key]
    for f, name, a, z, old, new in picked:
        t0 = time.time()
        subprocess.run("rm -rf %s; cp -a %s %s" % (work, built, work), shell=True, check=True)
        p = os.path.join(work, "theories", f + ".v")
        text = open(p).read()
        line = text.count("\n", 0, a) + 1
        open(p, "w").write(text[:a] + new + text[z:])
        src = text.split("\n")[line - 1].strip()
        dropped, verdict, by_ = [], None, None
        while verdict is None:
            r = subprocess.run("timeout 3000 make -j1", shell=True, cwd=work, capture_output=True, text=True)
            if r.returncode == 0: verdict = "survived"; break
            e = re.search(r'File "\./(theories/\w+\.v)", line (\d+), characters', r.stdout + r.stderr)
            if not e: verdict, by_ = "killed", "timeout or " + (r.stderr or r.stdout)[-150:]; break
            kind, nm = admit(os.path.join(work, e.group(1)), int(e.group(2)))
            if kind == "Example": dropped.append(nm); continue
            if e.group(1) == "theories/%s.v" % f and kind in ("Definition", "Fixpoint", None): verdict, by_ = "ill-typed", nm
            else: verdict, by_ = "killed", "%s:%s" % (e.group(1)[9:], nm)
        print(json.dumps(dict(file=f, definition=name, line=line, old=old, new=new, text=src, verdict=verdict, by=by_, examples=dropped, seconds=round(time.time() - t0))), flush=True)

main()
