#!/usr/bin/env python3
"""Tries wrong programs: applies an edit to the model in a scratch copy, rebuilds, and
reports which theorems no longer prove.

usage: mutate.py EDITS.json   (a list of {"file","definition","old","new","edit","claim"})
A proof that fails is replaced by Admitted and the build goes on, so that at the end
Print Assumptions tells which property theorems depend on a failed proof.  One line per
edit is printed; with --log it is also appended to /verif/seeded/LOG.jsonl."""
import json, os, re, subprocess, sys, shutil
SCRATCH = "/tmp/mut/rocq"
TH = SCRATCH + "/theories"
START = re.compile(r"^\s*(?:#\[[^\]]*\]\s*)?(?:Global |Local )?(?:Lemma|Theorem|Corollary|Example|Fact|Remark)\s+([\w']+)")

def sh(cmd, **k):
    return subprocess.run(cmd, shell=True, stdout=subprocess.PIPE, stderr=subprocess.STDOUT, text=True, **k)

def fresh():
    shutil.rmtree(SCRATCH, ignore_errors=True)
    sh("cp -a /tmp/mut/base %s" % SCRATCH)

def proof_at(lines, n):
    """The statement enclosing line n (0-based): name, first line after the statement, end line."""
    i = n
    while i >= 0 and not START.match(lines[i]):
        i -= 1
    if i < 0:
        return None
    name = START.match(lines[i]).group(1)
    p = i
    while p < len(lines) and not re.search(r"(^|\s)Proof\b", lines[p]):
        p += 1
    e = p
    while e < len(lines) and not re.search(r"(^|\s)(Qed|Defined)\.\s*$", lines[e]):
        e += 1
    if e >= len(lines) or not (p <= n <= e):
        return None
    return name, p, e

def build(admitted, problems):
    while True:
        out = sh("cd %s && coq_makefile -f _CoqProject -o Makefile >/dev/null && (ulimit -t 400; ulimit -v 8000000; make -k -j4 2>&1)" % SCRATCH).stdout
        errs = []
        L = out.splitlines()
        for k, l in enumerate(L):
            m = re.match(r'File "\./theories/(\w+)\.v", line (\d+), characters', l)
            if m and any("Error" in x for x in L[k+1:k+3]):
                errs.append((m.group(1), int(m.group(2)) - 1, " ".join(L[k+1:k+4])))
        if not errs:
            if re.search(r"^make.*Error", out, re.M):
                problems.append("build stopped: " + " ".join(re.findall(r"^make.*Error.*$", out, re.M))[:300])
            return out
        progress = False
        for f, n, msg in errs:
            path = "%s/%s.v" % (TH, f)
            lines = open(path, encoding="utf-8").read().split("\n")
            pr = proof_at(lines, n)
            if pr is None:
                problems.append("%s:%d %s" % (f, n + 1, msg))
                continue
            name, p, e = pr
            head = re.split(r"\bProof\b", lines[p])[0]
            lines[p:e+1] = [head + "Admitted."] + [""] * (e - p)
            open(path, "w", encoding="utf-8").write("\n".join(lines))
            admitted.append("%s.%s" % (f, name))
            progress = True
        if not progress:
            return out

def props():
    r = []
    for f in sorted(os.listdir("/tmp/mut/base/theories")):
        if f.startswith("Prop_") and f.endswith(".v"):
            s = re.sub(r"\(\*.*?\*\)", " ", open("/tmp/mut/base/theories/" + f, encoding="utf-8").read(), flags=re.S)
            r += [(f[:-2], m) for m in re.findall(r"^(?:Theorem|Corollary)\s+(\w+)", s, re.M)]
    return r

def broken():
    ps = props()
    mods = sorted({m for m, _ in ps})
    avail = [m for m in mods if os.path.exists("%s/%s.vo" % (TH, m))]
    src = "".join("From Verif Require %s.\n" % m for m in avail)
    for m, t in ps:
        if m in avail:
            src += 'Goal True. idtac "@@ %s". exact I. Qed.\nPrint Assumptions Verif.%s.%s.\n' % (t, m, t)
    open("/tmp/mut/All.v", "w").write(src)
    out = sh("cd /tmp/mut && coqc -Q rocq/theories Verif All.v").stdout
    bad, cur = [], None
    for l in out.splitlines():
        if l.startswith("@@ "):
            cur = l[3:]
        elif l.startswith("Axioms:"):
            bad.append(cur)
        elif "Error" in l:
            bad.append("?? " + l)
    return bad, [t for m, t in ps if m not in avail]

def main():
    log = "--log" in sys.argv
    edits = json.load(open([a for a in sys.argv[1:] if not a.startswith("--")][0]))
    sh("mkdir -p /tmp/mut && rm -rf /tmp/mut/base && cp -a /verif/rocq /tmp/mut/base")
    for e in edits:
        fresh()
        path = "%s/%s" % (TH, e["file"])
        s = open(path, encoding="utf-8").read()
        if s.count(e["old"]) != 1:
            print(json.dumps({"skipped": e["edit"], "occurrences": s.count(e["old"])})); continue
        open(path, "w", encoding="utf-8").write(s.replace(e["old"], e["new"]))
        admitted, problems = [], []
        build(admitted, problems)
        bad, missing = broken()
        row = {"definition": e["file"] + ":" + e["definition"], "edit": e["edit"], "claim": e["claim"],
               "failed_proofs": admitted, "theorems_failed": bad, "not_built": missing, "problems": problems,
               "theorems_tightened": e.get("tightened", [])}
        print(json.dumps(row, ensure_ascii=False), flush=True)
        if log:
            keep = {k: v for k, v in row.items() if v or k in ("theorems_failed", "theorems_tightened")}
            open("/verif/seeded/LOG.jsonl", "a", encoding="utf-8").write(json.dumps(keep, ensure_ascii=False) + "\n")
main()
