#!/usr/bin/env python3
"""Tries wrong programs quickly: like mutate.py, but the build stops at the first file with
a proof that fails.  (When no property theorem depends on it, as with examples, the proof is
admitted and the build goes on.)  The property theorems that depend on that proof are found in the .glob
files of the unchanged theories.  An edit that breaks no proof is built to the end.

usage: mutate_fast.py WORKDIR EDITS.json [--log]"""
import json, os, re, subprocess, sys, shutil, fcntl
WORK = sys.argv[1]
SCRATCH = WORK + "/rocq"
BASE = WORK + "/base"
TH = SCRATCH + "/theories"
START = re.compile(r"^\s*(?:#\[[^\]]*\]\s*)?(?:Global |Local )?(?:Lemma|Theorem|Corollary|Example|Fact|Remark|Definition|Fixpoint|Inductive|Record)\s+([\w']+)")

def sh(cmd, **k):
    return subprocess.run(cmd, shell=True, stdout=subprocess.PIPE, stderr=subprocess.STDOUT, text=True, **k)

def graph():
    users = {}
    for f in sorted(os.listdir(BASE + "/theories")):
        if not f.endswith(".glob"):
            continue
        mod, items, refs = f[:-5], [], []
        for l in open(BASE + "/theories/" + f, encoding="utf-8", errors="replace"):
            m = re.match(r"R(\d+):\d+ Verif\.(\w+) \S+ (\S+) (\w+)", l)
            if m:
                refs.append((int(m.group(1)), m.group(2) + "." + m.group(3)))
                continue
            m = re.match(r"(prf|def|thm|ind|rec|ex|coe|inst) (\d+):\d+ \S+ (\S+)", l)
            if m:
                items.append((int(m.group(2)), mod + "." + m.group(3).split(".")[-1]))
        items.sort()
        k = -1
        for p, r in sorted(refs):
            while k + 1 < len(items) and items[k + 1][0] <= p:
                k += 1
            if k >= 0:
                users.setdefault(r, set()).add(items[k][1])
    return users

def admit(failed):
    """Replaces the failed proofs by Admitted; files of unit tests are left out of the build."""
    done = False
    for f, n in failed:
        path = "%s/%s.v" % (TH, f)
        lines = open(path, encoding="utf-8").read().split("\n")
        i = n
        while i >= 0 and not START.match(lines[i]):
            i -= 1
        p = i
        while 0 <= p < len(lines) and not re.search(r"(^|\s)Proof\b", lines[p]):
            p += 1
        e = p
        while 0 <= e < len(lines) and not re.search(r"(^|\s)(Qed|Defined)\.\s*$", lines[e]):
            e += 1
        if 0 <= p <= n <= e < len(lines):
            lines[p:e+1] = [re.split(r"\bProof\b", lines[p])[0] + "Admitted."] + [""] * (e - p)
            open(path, "w", encoding="utf-8").write("\n".join(lines))
            done = True
        elif f.startswith("T_"):
            pr = open(SCRATCH + "/_CoqProject").read()
            open(SCRATCH + "/_CoqProject", "w").write(pr.replace("theories/%s.v\n" % f, ""))
            done = True
    return done

def dependents(users, names):
    seen, todo = set(names), list(names)
    while todo:
        for u in users.get(todo.pop(), ()):
            if u not in seen:
                seen.add(u); todo.append(u)
    return seen

def main():
    log = "--log" in sys.argv
    edits = json.load(open(sys.argv[2]))
    sh("mkdir -p %s && rm -rf %s && cp -a %s %s" % (WORK, BASE, os.environ.get("ROCQ", "/verif/rocq"), BASE))
    users = graph()
    for e in edits:
        shutil.rmtree(SCRATCH, ignore_errors=True)
        sh("cp -a %s %s" % (BASE, SCRATCH))
        path = "%s/%s" % (TH, e["file"])
        s = open(path, encoding="utf-8").read()
        if s.count(e["old"]) != 1:
            print(json.dumps({"skipped": e["edit"], "occurrences": s.count(e["old"])}), flush=True); continue
        open(path, "w", encoding="utf-8").write(s.replace(e["old"], e["new"]))
        failed, problems, th = [], [], []
        while True:
            out = sh("cd %s && coq_makefile -f _CoqProject -o Makefile >/dev/null && (ulimit -t 600; ulimit -v 8000000; make -j2 2>&1)" % SCRATCH).stdout
            places = []
            L = out.splitlines()
            for k, l in enumerate(L):
                m = re.match(r'File "\./theories/(\w+)\.v", line (\d+), characters', l)
                if m and any("Error" in x for x in L[k+1:k+3]):
                    lines = open("%s/%s.v" % (TH, m.group(1)), encoding="utf-8").read().split("\n")
                    n = int(m.group(2)) - 1
                    places.append((m.group(1), n))
                    while n >= 0 and not START.match(lines[n]):
                        n -= 1
                    name = "%s.%s" % (m.group(1), START.match(lines[n]).group(1)) if n >= 0 else m.group(1)
                    failed.append(name)
                    if m.group(1) + ".v" == e["file"]:
                        problems.append(" ".join(L[k+1:k+6]))
            if not places and re.search(r"^make.*Error", out, re.M):
                problems.append("build stopped: " + " ".join(re.findall(r"^make.*Error.*$", out, re.M))[:300])
            th = sorted({x.split(".")[1] for x in dependents(users, failed) if re.match(r"Prop_\w+\.C\d\d_", x) and "nonvacuous" not in x})
            if any(not t.endswith("_refuted") for t in th) or problems or not places or not admit(places):
                break
        row = {"definition": e["file"] + ":" + e["definition"], "edit": e["edit"], "claim": e["claim"],
               "failed_proofs": failed, "theorems_failed": th, "problems": problems, "theorems_tightened": e.get("tightened", [])}
        print(json.dumps(row, ensure_ascii=False), flush=True)
        if log and not problems:
            keep = {k: v for k, v in row.items() if v or k in ("theorems_failed", "theorems_tightened")}
            keep["stopped"] = "at the first file with a failed proof that a property theorem needs"
            with open("/verif/seeded/LOG.jsonl", "a", encoding="utf-8") as f:
                f.write(json.dumps(keep, ensure_ascii=False) + "\n")
main()
