#!/usr/bin/env python3
"""Mutation testing of the theorems.  usage: mutate.py mutants.py [names...]
Works in a scratch copy outside /verif: applies one edit to a model file, rebuilds, and whenever a proof breaks records its
name, replaces it by Admitted *in the scratch copy*, and goes on, so that all broken theorems are collected: those whose own
proof breaks and those that then depend on a broken lemma (Print Assumptions).  Appends one line per mutant to
seeded/LOG.jsonl."""
import sys, os, re, shutil, subprocess, json
ROOT = "/verif"; SCRATCH = os.environ.get("MUT", "/tmp/mut"); BASE = SCRATCH + "_base"
JOBS = os.environ.get("MJ", "3")
def run(cmd, cwd):
    p = subprocess.run(cmd, cwd=cwd, shell=True, stdout=subprocess.PIPE, stderr=subprocess.STDOUT, text=True)
    return p.returncode, p.stdout
START = re.compile(r"^\s*(?:#\[[^\]]*\]\s*)?(Lemma|Theorem|Corollary|Example|Fact|Remark)\s+([\w']+)", re.M)
def admit(path, line):
    s = open(path).read(); lines = s.split("\n"); pos = sum(len(l) + 1 for l in lines[:line - 1])
    ms = [m for m in START.finditer(s) if m.start() <= pos + len(lines[line - 1])]
    if not ms: return None
    m = ms[-1]
    e = re.compile(r"\b(Qed|Defined)\.").search(s, m.end())
    if not e or e.end() < pos: return None
    pm = re.compile(r"\bProof\b[^.]*\.").search(s, m.end(), e.start())
    if not pm: return None
    open(path, "w").write(s[:pm.start()] + "Admitted." + s[e.end():])
    return m.group(2)
def main():
    ns = {}; exec(open(sys.argv[1]).read(), ns); todo = ns["MUTANTS"]; only = set(sys.argv[2:])
    if not os.path.isdir(BASE) or os.environ.get("REBASE"):
        shutil.rmtree(BASE, ignore_errors=True); shutil.copytree(ROOT + "/rocq", BASE)
        rc, out = run("coq_makefile -f _CoqProject -o Makefile && timeout 3000 make -j%s" % JOBS, BASE); assert rc == 0, out[-2000:]
    for (mid, f, defn, old, new, claim, expect) in todo:
        if only and mid not in only: continue
        shutil.rmtree(SCRATCH, ignore_errors=True); run("cp -a %s %s" % (BASE, SCRATCH), "/")
        p = "%s/theories/%s.v" % (SCRATCH, f); s = open(p).read(); t0 = __import__("time").time() - 1
        if s.count(old) != 1: print("SKIP", mid, "count", s.count(old)); continue
        open(p, "w").write(s.replace(old, new))
        broken = []; stuck = None; tainted = set(); kills = 0
        for _ in range(150):
            rc, out = run("ulimit -v 6000000; timeout 1500 make -k -j%s %s" % (JOBS, os.environ.get("TARGET", "")), SCRATCH)
            errs = sorted(set((m.group(1), int(m.group(2))) for m in re.finditer(r'File "\./(theories/\w+\.v)", line (\d+), characters [^\n]*\n(?!Warning)', out)))
            errs = [(a, b) for a, b in errs if re.search(r'File "\./%s", line %d, characters [^\n]*\nError' % (re.escape(a), b), out)]
            if rc == 0: break
            if not errs and "Killed" in out and kills < 1:
                kills += 1; run("ulimit -v 6000000; timeout 3000 make -k -j1 " + os.environ.get("TARGET", ""), SCRATCH); continue
            if not errs: stuck = out[-400:]; break
            ok = False
            for a, b in errs:
                n = admit(os.path.join(SCRATCH, a), b)
                if n: broken.append(n); ok = True
            if not ok: stuck = "%s" % errs; break
        failed = [b for b in broken if re.match(r"C\d\d\d?_", b)]
        if True:   # which property theorems now rest on a broken lemma
            q = []
            for pf in sorted(os.listdir(SCRATCH + "/theories")):
                if pf.startswith("Props_") and pf.endswith(".v") and os.path.exists(SCRATCH + "/theories/" + pf + "o") and os.path.getmtime(SCRATCH + "/theories/" + pf + "o") > t0:
                    names = re.findall(r"^Theorem (C\d\d\d?_\w+)", open(SCRATCH + "/theories/" + pf).read(), re.M)
                    q += [(pf[:-2], n) for n in names]
            for mod in sorted(set(m for m, _ in q)):
                names = [n for m, n in q if m == mod]
                src = "From Verif Require %s.\n" % mod + "".join("Print Assumptions %s.%s.\n" % (mod, n) for n in names)
                open(SCRATCH + "/pa.v", "w").write(src)
                rc, out = run("timeout 900 coqc -Q theories Verif pa.v", SCRATCH)
                blocks = re.findall(r"(Closed under the global context|Axioms:\n(?:(?!Closed under|Axioms:).*\n?)*)", out)
                if len(blocks) == len(names):
                    for n, b in zip(names, blocks):
                        if b.startswith("Axioms") and n not in failed: tainted.add(n)
                else: stuck = (stuck or "") + "; not built: " + mod
        allf = sorted(set(failed) | tainted)
        hit = [e for e in expect if any(x.startswith(e) for x in allf)]
        miss = [e for e in expect if e not in hit]
        rec = dict(id=mid, definition="%s.%s" % (f, defn), edit="%s  ==>  %s" % (old.strip(), new.strip()), claim_broken=claim,
                   expected=expect, theorems_failed=allf, lemmas_failed=[b for b in broken if b not in allf], theorems_tightened=[],
                   not_caught=miss)
        if stuck: rec["stuck"] = stuck
        print(mid, "caught" if not miss and (allf or broken) else "*** MISSED %s" % miss, allf[:8], len(allf), "stuck" if stuck else "", flush=True)
        open(ROOT + "/seeded/LOG.jsonl", "a").write(json.dumps(rec) + "\n")
main()
