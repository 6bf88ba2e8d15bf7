#!/usr/bin/env python3
"""Seeded-bug testing.  usage: mutate.py mutants.json

Each mutant is {"file","old","new","definition","edit","claim","tightened"?}.
The theories are copied to a scratch directory, the edit is applied and everything
is rebuilt.  A proof that no longer goes through is replaced by Admitted (in the
scratch copy only) so that the build continues; the theorems of the *Props files
whose Print Assumptions then mention an admitted lemma are the ones that failed.
One line per mutant is appended to seeded/LOG.jsonl."""
import sys, os, re, json, shutil, subprocess, tempfile
root = "/verif"
def order():
    return [l.strip() for l in open(root + "/rocq/_CoqProject") if l.strip().endswith(".v")]
def deps(files, d):
    out = subprocess.run(["coqdep", "-Q", "theories", "Verif"] + files, cwd=d, capture_output=True, text=True).stdout
    dep = {}
    for l in out.splitlines():
        m = re.match(r"(\S+)\.vo \S+.*?: (.*)", l)
        if m:
            dep[m.group(1) + ".v"] = [x[:-1] for x in m.group(2).split() if x.endswith(".vo") and x.startswith("theories/")]
    return dep
HEAD = re.compile(r"^(?:#\[[^\]]*\]\s*)?(?:Local |Global )?(Theorem|Lemma|Corollary|Example|Fact|Instance|Remark|Proposition)\s+([A-Za-z0-9_']+)", re.M)
def prescan(d, f, limit):
    """Feed the file to coqtop with an Admitted after every proof: the lemmas for which
    that Admitted succeeds are the ones whose proofs do not go through."""
    src = open(os.path.join(d, f)).read()
    src = "Set Printing Depth 2.\n" + re.sub(r"\b(Qed|Defined)\.", r"\1.\nAdmitted.", src)
    try:
        r = subprocess.run(["coqtop", "-q", "-Q", "theories", "Verif"], input=src, cwd=d, capture_output=True, text=True, timeout=limit)
    except subprocess.TimeoutExpired:
        return []
    return re.findall(r"^([A-Za-z0-9_']+) is declared", r.stdout, re.M)
def admit(path, name, broken):
    src = open(path).read()
    for h in HEAD.finditer(src):
        if h.group(2) == name:
            pm = re.compile(r"\bProof\b[^.]*\.", re.M).search(src, h.start())
            q = re.compile(r"\b(Qed|Defined)\.").search(src, h.start())
            if pm and q and pm.start() < q.start():
                broken.append(name)
                open(path, "w").write(src[:pm.start()] + "Proof. Admitted." + src[q.end():])
            return
def build(d, f, broken, limit):
    path = os.path.join(d, f)
    for k in range(60):
        if k == 1:
            for name in prescan(d, f, 2 * limit):
                if name not in broken: admit(path, name, broken)
        try:
            r = subprocess.run(["coqc", "-Q", "theories", "Verif", f], cwd=d, capture_output=True, text=True, timeout=limit)
        except subprocess.TimeoutExpired:
            return "timeout", ""
        if r.returncode == 0:
            return None, r.stdout
        m = None
        for m in re.finditer(r'File "([^"]*)", line (\d+), characters (\d+)-(\d+):\s*\n(Error|.*\nError)', r.stderr + r.stdout): pass
        if not m: return (r.stderr + r.stdout)[-400:], ""
        line = int(m.group(2))
        src = open(path).read()
        off = sum(len(x) + 1 for x in src.split("\n")[:line - 1]) + 1
        last = None
        for h in HEAD.finditer(src):
            if h.start() <= off: last = h
        if not last: return "outside a proof: " + (r.stderr)[-300:], ""
        pm = re.compile(r"\bProof\b[^.]*\.", re.M).search(src, last.start())
        q = re.compile(r"\b(Qed|Defined)\.").search(src, last.start())
        if not pm or not q or pm.start() > q.start() or off < pm.start():
            return "statement of %s: %s" % (last.group(2), r.stderr[-300:]), ""
        broken.append(last.group(2))
        src = src[:pm.start()] + "Proof. Admitted." + src[q.end():]
        open(path, "w").write(src)
    return "too many", ""
def main():
    muts = json.load(open(sys.argv[1]))
    files = order()
    base = "/tmp/mutbase" + os.environ.get("MUTTAG", "")
    if os.path.exists(base): shutil.rmtree(base)
    shutil.copytree(root + "/rocq", base)
    dep = deps(files, base)
    log = open(root + "/seeded/LOG.jsonl", "a") if "--dry" not in sys.argv else None
    for mu in muts:
        d = "/tmp/mutwork" + os.environ.get("MUTTAG", "")
        if os.path.exists(d): shutil.rmtree(d)
        shutil.copytree(base, d)
        f = "theories/" + mu["file"]
        s = open(os.path.join(d, f)).read()
        n = s.count(mu["old"])
        if n != 1 and not mu.get("all"):
            print("!! %s: pattern occurs %d times: %r" % (mu["file"], n, mu["old"])); continue
        open(os.path.join(d, f), "w").write(s.replace(mu["old"], mu["new"]))
        dirty = {f}; broken = []; failed = []; dead = []; note = []
        for g in files:
            if g == f or any(x in dirty for x in dep.get(g, [])):
                dirty.add(g)
                if any(x in dead for x in dep.get(g, [])): dead.append(g); continue
                err, out = build(d, g, broken, mu.get("limit", 600))
                if err: dead.append(g); note.append(g + ": " + err)
                src = open(os.path.join(d, g)).read()
                pas = re.findall(r"\bPrint Assumptions ([A-Za-z0-9_']+)\.", src)
                if pas and not err:
                    blocks = re.split(r"^(?=Closed under the global context|Axioms:)", out, flags=re.M)
                    blocks = [b for b in blocks if b.startswith(("Closed", "Axioms:"))]
                    if len(blocks) != len(pas): note.append("%s: %d blocks for %d" % (g, len(blocks), len(pas)))
                    for t, b in zip(pas, blocks):
                        if any(re.search(r"^(?:\w+\.)*%s\b" % re.escape(x), b, re.M) for x in broken): failed.append(t)
        failed += [b for b in broken if re.match(r"C\d\d", b) and b not in failed]
        print(json.dumps(dict(edit=mu["edit"], lemmas=broken, failed=failed, dead=dead, note=note)))
        sys.stdout.flush()
        if log and not mu.get("nolog"):
            log.write(json.dumps(dict(definition=mu["file"] + ":" + mu["definition"], edit=mu["edit"], claim=mu["claim"],
                theorems_failed=failed, lemmas_failed=broken, build_stopped=dead, theorems_tightened=mu.get("tightened", []))) + "\n")
            log.flush()
main()
