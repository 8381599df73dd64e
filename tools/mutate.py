#!/usr/bin/env python3
"""Try a wrong program: copy the development to a scratch directory, edit the model, rebuild, and
report which theorems of MANIFEST.json no longer have a proof.

usage: mutate.py SPEC.json SCRATCH
SPEC: {"id", "file", "old", "new", "claim"}. A proof that fails is replaced by Admitted in the scratch
copy and the build goes on; a theorem counts as failed if it, or a lemma it needs, was so replaced."""
import json, os, re, shutil, subprocess, sys
spec = json.load(open(sys.argv[1])); scratch = sys.argv[2]
src = os.environ.get("MUTATE_SRC", "/verif/rocq")
shutil.rmtree(scratch, ignore_errors=True)
subprocess.check_call(["cp", "-a", src, scratch])
f = os.path.join(scratch, "theories", spec["file"])
s = open(f).read()
n = s.count(spec["old"])
assert n == 1 or (n > 1 and spec.get("nth") is not None), (spec["id"], n)
if n == 1: s = s.replace(spec["old"], spec["new"])
else:
    parts = s.split(spec["old"]); k = spec["nth"]
    s = spec["old"].join(parts[:k+1]) + spec["new"] + spec["old"].join(parts[k+1:])
open(f, "w").write(s)
ITEM = re.compile(r"^(?:#\[[^\]]*\]\s*)?(?:Local |Global )?(Lemma|Theorem|Example|Corollary|Remark|Fact|Instance|Proposition)\s+([A-Za-z0-9_']+)", re.M)
def start_of_proof(t, k):
    m = re.compile(r"\bProof\b").search(t, k)
    return m.start() if m else -1
admitted, broken = [], []
out = ""
for it in range(200):
    r = subprocess.run(["make", "-k", "-j%d" % spec.get("jobs", 1), "TIMECMD=timeout 400"], cwd=scratch, capture_output=True, text=True)
    out = r.stdout + r.stderr
    if r.returncode == 0: break
    errs = re.findall(r'File "\./(theories/\w+\.v)", line (\d+), characters (\d+)-(\d+):\nError', out)
    seen = set(); progress = False
    for path, line, _, _ in errs:
        if path in seen: continue
        seen.add(path)
        t = open(os.path.join(scratch, path)).read()
        pos = sum(len(x) + 1 for x in t.split("\n")[:int(line) - 1])
        items = [m for m in ITEM.finditer(t) if m.start() <= pos + 200]
        items = [m for m in items if m.start() <= pos or t.count("\n", 0, m.start()) + 1 == int(line)]
        if not items: broken.append(path); continue
        m = items[-1]
        p = start_of_proof(t, m.end()); q = re.compile(r"(Qed|Defined)\.").search(t, p)
        if p < 0 or not q or q.end() <= pos: 
            broken.append((path, line)); continue
        t = t[:p] + "Admitted." + t[q.end():]
        open(os.path.join(scratch, path), "w").write(t)
        admitted.append(m.group(2)); progress = True
    if not progress:
        to = re.findall(r"\*\*\* \[\S+: (theories/\w+)\.vo\] Error 124", out)
        # a proof that no longer terminates: find it with coqc -time and replace it, too
        for x in to:
            path = x + ".v"
            r = subprocess.run(["timeout", "400", "coqc", "-time", "-Q", "theories", "Verif", path], cwd=scratch, capture_output=True, text=True)
            ch = re.findall(r"^Chars (\d+) - (\d+) ", r.stdout, re.M)
            if r.returncode != 124 or not ch: continue
            t = open(os.path.join(scratch, path)).read(); pos = int(ch[-1][1]) + 1
            items = [m for m in ITEM.finditer(t) if m.start() <= pos]
            if not items: continue
            m = items[-1]; p = start_of_proof(t, m.end()); q = re.compile(r"(Qed|Defined)\.").search(t, p)
            if p < 0 or not q or q.end() <= pos: continue
            open(os.path.join(scratch, path), "w").write(t[:p] + "Admitted." + t[q.end():])
            admitted.append(m.group(2)); progress = True
        if progress: continue
        broken += ["timeout " + x for x in to]
        broken.append(out[-1500:]); break
thms = []
man = json.load(open("/verif/MANIFEST.json"))
for c in man["claims"]:
    for t in c["theorems"]:
        if t not in thms: thms.append(t)
mods = [x.strip()[len("theories/"):-2] for x in open(os.path.join(scratch, "_CoqProject")) if x.strip().endswith(".v")]
good = [m for m in mods if os.path.exists(os.path.join(scratch, "theories", m + ".vo"))]
failed = []
ok = len(good) == len(mods) and not broken
if ok:
    where = {}
    for m in mods:
        for x in ITEM.finditer(open(os.path.join(scratch, "theories", m + ".v")).read()): where.setdefault(x.group(2), m)
    thms = [t for t in thms if t in where]
    chk = "".join("From Verif Require %s.\n" % m for m in good) + "".join('Goal True. idtac "@@ %s". Abort.\nPrint Assumptions Verif.%s.%s.\n' % (t, where[t], t) for t in thms)
    open(os.path.join(scratch, "chk.v"), "w").write(chk)
    r = subprocess.run(["coqc", "-Q", "theories", "Verif", "chk.v"], cwd=scratch, capture_output=True, text=True)
    cur = None; txt = {}
    for l in (r.stdout + r.stderr).split("\n"):
        if l.startswith("@@ "): cur = l[3:].strip(); txt[cur] = ""
        elif cur: txt[cur] += l + "\n"
    for t in thms:
        if "Closed under the global context" not in txt.get(t, ""): failed.append(t)
print(json.dumps({"id": spec["id"], "complete": ok, "admitted": admitted, "broken": broken, "failed": failed}))
