#!/usr/bin/env python3
"""Test the theorems against a changed model.

usage: mutate.py FILE.v OLD NEW CLAIM
Copies rocq/ (or the built tree in $MUT_SRC) to a scratch directory, replaces OLD by NEW once in theories/FILE.v,
rebuilds, and gives up failing proofs one at a time (in the scratch copy only), so that
Print Assumptions tells which theorems no longer hold.  Prints one JSON line.
"""
import json, os, re, shutil, subprocess, sys, tempfile
fn, old, new, claim = sys.argv[1:5]
src = os.environ.get("MUT_SRC") or os.path.join(os.path.dirname(os.path.dirname(os.path.abspath(__file__))), "rocq")
tmp = tempfile.mkdtemp(prefix="mut")
dst = os.path.join(tmp, "rocq")
subprocess.check_call(["cp", "-a", src, dst])
p = os.path.join(dst, "theories", fn)
s = open(p).read()
assert s.count(old) == 1, "OLD occurs %d times" % s.count(old)
s2 = s.replace(old, new)
open(p, "w").write(s2)
names = re.findall(r"^\s*(?:Program )?(?:Definition|Fixpoint|Inductive|Record|with|Notation)\s+(\w+)", s[:s.index(old)], re.M)
head = re.compile(r"^(Local |Global |#\[.*?\] )*(Lemma|Theorem|Example|Corollary|Instance|Program Definition|Fact|Definition|Fixpoint|Program Fixpoint)\s+(\w+)", re.M)
failed, out, kept = [], {}, set()
for step in range(400):
    r = subprocess.run(["make", "-k", "-j2", "TIMECMD=timeout 600"], cwd=dst, capture_output=True, text=True)
    txt = r.stdout + r.stderr
    errs = re.findall(r'File "\./theories/(\w+\.v)", line (\d+), characters \d+-\d+:\nError', txt)
    for f in set(re.findall(r"theories/(\w+)\.vo\] Error 124", txt)):
        # a proof that does not end
        t = subprocess.run(["timeout", "600", "coqc", "-q", "-time", "-Q", "theories", "Verif", "theories/%s.v" % f], cwd=dst, capture_output=True)
        at = [int(b) for b in re.findall(rb"^Chars \d+ - (\d+)", t.stdout, re.M)]
        text = open(os.path.join(dst, "theories", f + ".v"), "rb").read()
        errs.append((f + ".v", text[:at[-1] if at else 0].count(b"\n") + 1))
    if not errs:
        assert r.returncode == 0, txt[-800:]
        break
    for f, ln in errs:
        fp = os.path.join(dst, "theories", f)
        t = open(fp).read()
        pos = sum(len(x) + 1 for x in t.split("\n")[:int(ln) - 1])
        eol = t.index("\n", pos) if "\n" in t[pos:] else len(t)
        hs = [m for m in head.finditer(t) if m.start() <= eol]
        if not hs:
            print("cannot locate", f, ln); sys.exit(1)
        m = hs[-1]
        name = m.group(3)
        q = re.compile(r"\b(Qed|Defined)\.").search(t, m.start())
        nxt = head.search(t, m.end())
        pr = re.compile(r"^\s*Proof\b|\.\s+Proof\b", re.M).search(t, m.start())
        has_proof = q and pr and pr.start() < q.start() and (not nxt or q.start() < nxt.start())
        if (f, name) in kept or not has_proof:
            end = q.end() if has_proof else (t.index("\n\n", m.start()) if "\n\n" in t[m.start():] else len(t))
            # a statement that no longer makes sense: drop it, and its Print Assumptions
            t = t[:m.start()] + t[end:]
            t = re.sub(r"^Print Assumptions %s\.\n?" % name, "", t, flags=re.M)
            failed.append(name)
        else:
            j = t.index("Proof", pr.start())
            t = t[:j] + "Admitted." + t[q.end():]
            kept.add((f, name)); failed.append(name)
        open(fp, "w").write(t)
else:
    print("no end"); sys.exit(1)
# assumptions per theorem
bad = []
for f in sorted(os.listdir(os.path.join(dst, "theories"))):
    if not (f.startswith("T_") and f.endswith(".v")):
        continue
    mod = f[:-2]
    vo = os.path.join(dst, "theories", f + "o")
    if os.path.exists(vo) and os.path.getmtime(vo) == os.path.getmtime(os.path.join(src, "theories", f + "o")):
        continue  # not rebuilt: does not depend on the change
    orig = re.findall(r"^(?:Theorem|Lemma)\s+(C\d+_\w+)", open(os.path.join(src, "theories", f)).read(), re.M)
    now = set(re.findall(r"^(?:Theorem|Lemma)\s+(C\d+_\w+)", open(os.path.join(dst, "theories", f)).read(), re.M))
    bad += [n for n in orig if n not in now]
    q = "From Verif Require Import %s.\n" % mod + "".join('Print Assumptions %s.\n' % n for n in orig if n in now)
    open(os.path.join(dst, "Q.v"), "w").write(q)
    r = subprocess.run(["coqc", "-Q", "theories", "Verif", "Q.v"], cwd=dst, capture_output=True, text=True)
    chunks = re.split(r"(?m)^(?=Closed under|Axioms:)", r.stdout)[1:]
    names_ = [n for n in orig if n in now]
    assert len(chunks) == len(names_), (f, len(chunks), len(names_), r.stderr[:500])
    for n, c in zip(names_, chunks):
        ax = re.findall(r"^(\w[\w.]*)\s*:", c, re.M)
        if any(a.split(".")[-1] in failed for a in ax):
            bad.append(n)
shutil.rmtree(tmp)
print(json.dumps({"definition": fn + ": " + (names[-1] if names else "?"), "edit": old + "  =>  " + new,
                  "claim": claim, "failed": bad, "failed_lemmas": failed, "tightened": []}))
