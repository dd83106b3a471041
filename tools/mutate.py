#!/usr/bin/env python3
"""Test the theorems against a wrong program.

usage: mutate.py SPEC.json WORKDIR [JOBS]

SPEC.json is a list of {"name", "file", "definition", "old", "new", "claim"},
optionally with "targets", the property files to look at (all if absent).
For each entry the Rocq sources are copied to WORKDIR, `old` is replaced by
`new` in theories/<file>, and everything is rebuilt.  Each proof that fails is
replaced by Admitted, so that the build goes on; in the end Print Assumptions
tells which property theorems rest on a proof that failed.  One JSON line per
entry is written on standard output."""
import json, os, re, shutil, subprocess, sys

SRC = os.path.join(os.path.dirname(os.path.abspath(__file__)), "..", "rocq")
HEAD = re.compile(r"^\s*(?:Local\s+|Global\s+)?(Lemma|Theorem|Example|Corollary|Fact|Remark|Definition|Instance)\s+([A-Za-z0-9_']+)")

def admit(path, line):
    """replace the proof around `line` by Admitted; the name, or None"""
    ls = open(path).read().split("\n")
    i = line - 1
    while i >= 0 and not HEAD.match(ls[i]):
        i -= 1
    if i < 0:
        return None
    name = HEAD.match(ls[i]).group(2)
    text = "\n".join(ls[i:])
    m = re.search(r"\bProof\b[^.]*\.", text)
    q = re.search(r"\b(Qed|Defined)\.", text)
    if not m or not q or q.start() < m.start():
        return None
    if line - 1 - i < text[:m.start()].count("\n"):
        return None                    # the statement itself
    text = text[:m.start()] + "Proof. Admitted." + text[q.end():]
    open(path, "w").write("\n".join(ls[:i]) + "\n" + text if i else text)
    return name

def run(spec, work, jobs):
    if os.path.exists(work):
        have, want = os.path.join(work, "theories"), os.path.join(SRC, "theories")
        for f in os.listdir(have):
            if f.endswith(".v") and not os.path.exists(os.path.join(want, f)): os.remove(os.path.join(have, f))
        for f in os.listdir(want):
            s, p = os.path.join(want, f), os.path.join(have, f)
            if f.endswith(".v") and (not os.path.exists(p) or open(s).read() != open(p).read()): shutil.copy(s, p)
        shutil.copy(os.path.join(SRC, "_CoqProject"), work)
    else:
        shutil.copytree(SRC, work)
    subprocess.run("coq_makefile -f _CoqProject -o Makefile", shell=True, cwd=work, check=True, capture_output=True)
    only = spec.get("targets")
    goal = " ".join("theories/%s.vo" % t for t in only) if only else ""
    subprocess.run("make -j%d %s" % (jobs, goal), shell=True, cwd=work, capture_output=True)   # unchanged base
    p = os.path.join(work, "theories", spec["file"])
    s = open(p).read()
    assert s.count(spec["old"]) == 1, (spec["name"], s.count(spec["old"]))
    open(p, "w").write(s.replace(spec["old"], spec["new"]))
    failed, stuck, out = [], None, ""
    for _ in range(150):
        r = subprocess.run("timeout 1500 make -k -j%d %s" % (jobs, goal), shell=True, cwd=work, capture_output=True, text=True)
        out += r.stdout
        errs = re.findall(r'File "\./(theories/\w+\.v)", line (\d+), characters[^\n]*\nError', r.stdout + r.stderr)
        if not errs:
            if r.returncode: stuck = (r.stderr or r.stdout)[-300:]
            break
        for f, n in errs:
            name = admit(os.path.join(work, f), int(n))
            if name is None:
                stuck = "%s:%s" % (f, n)
                break
            failed.append("%s:%s" % (f[9:], name))
        if stuck: break
    dead = []
    adm = set(x.split(":")[1] for x in failed)
    for f in sorted(os.listdir(os.path.join(work, "theories"))):
        if f.startswith("Properties_") and f.endswith(".v"):
            text = open(os.path.join(work, "theories", f)).read()
            names = re.findall(r"^Theorem (\w+)", text, re.M)
            mod = f[:-2]
            if only and mod not in only: continue
            if not os.path.exists(os.path.join(work, "theories", mod + ".vo")):
                dead += [n + "?" for n in names]; continue
            q = "From Verif Require %s.\n" % mod + "".join('Goal True. idtac "@@%s". Abort.\nPrint Assumptions %s.%s.\n' % (n, mod, n) for n in names)
            open(os.path.join(work, "q.v"), "w").write(q)
            r = subprocess.run("timeout 900 coqc -Q theories Verif q.v", shell=True, cwd=work, capture_output=True, text=True)
            for part in r.stdout.split("@@")[1:]:
                n, rest = part.split("\n", 1)
                if "Closed under" not in rest: dead.append(n)
    return {"name": spec["name"], "definition": spec["file"] + ":" + spec["definition"], "edit": "%s  -->  %s" % (spec["old"], spec["new"]),
            "claim": spec["claim"], "failed_proofs": failed, "failed_theorems": dead, "stuck": stuck, "targets": only}

if __name__ == "__main__":
    specs = json.load(open(sys.argv[1]))
    for sp in specs:
        try:
            r = run(sp, sys.argv[2], int(sys.argv[3]) if len(sys.argv) > 3 else 2)
        except AssertionError as e:
            r = {"name": sp["name"], "error": str(e)}
        print(json.dumps(r), flush=True)
