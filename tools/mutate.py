#!/usr/bin/env python3
"""Apply a wrong-program edit to a scratch copy of the model, rebuild, and tell which property
theorems no longer prove.  A proof that fails is replaced by Admitted so that the build goes on;
a property theorem has failed when it depends on an admitted lemma.

usage: mutate.py mutants.json out.jsonl [scratch]      mutants: [{id, file, old, new, ...}]"""
import glob, json, os, re, shutil, subprocess, sys
BASE = os.environ.get("BASE", "/tmp/mut/base")  # a built copy of rocq/
START = re.compile(r"^\s*(?:Local |Global |#\[\w+\] )?(Theorem|Lemma|Example|Corollary|Fact|Remark|Proposition|Instance|Let)\s+([\w']+)", re.M)
ERR = re.compile(r'File "\./(theories/\w+\.v)", line (\d+), characters (\d+)-(\d+):\nError')

def run(cmd, cwd, timeout):
    p = subprocess.run(cmd, cwd=cwd, shell=True, capture_output=True, text=True)
    return p.stdout + p.stderr

USING = {}
def using(path, name):
    """the section variables that a proof of the unchanged model uses"""
    f = os.path.basename(path)
    if f not in USING:
        os.makedirs("/tmp/mut/sug", exist_ok=True)
        out = run('timeout 900 coqc -set "Suggest Proof Using" -o /tmp/mut/sug/%so -Q theories Verif theories/%s' % (f, f), BASE, 1000)
        d = {}
        for m in re.finditer(r"The proof of\s+(\S+)\s+should start with one of the following\s+commands:\s*((?:Proof using[^.]*\.\s*)+)", out):
            d[m.group(1)] = re.match(r"Proof using([^.]*)\.", m.group(2)).group(1).split()
        lets = set(re.findall(r"^\s*Let\s+([\w']+)", open(BASE + "/theories/" + f).read(), re.M))
        USING[f] = d, lets
    d, lets = USING[f]
    if name not in d:
        return None
    vs, todo = [], list(d[name])
    while todo:
        v = todo.pop(0)
        if v in lets:
            todo += d.get(v, [])
        elif v not in vs:
            vs.append(v)
    return "Proof using " + (" ".join(vs) if vs else "Type") + "."

def admit(path, pos):
    """admit the proof around character offset pos; returns the lemma name"""
    s = open(path).read()
    ms = [m for m in START.finditer(s) if m.start() <= pos]
    if not ms:
        return None
    m = ms[-1]
    p = re.compile(r"\bProof\b[^.]*\.").search(s, m.end())
    q = re.compile(r"\b(Qed|Defined)\.").search(s, m.end())
    if not p or not q or p.start() > q.start() or pos > q.end() or pos < p.start():
        return None
    u = using(path, m.group(2))
    s = s[:p.start()] + (u or s[p.start():p.end()]) + " Admitted." + s[q.end():]
    if m.group(1) == "Let":
        s = s[:m.start(1)] + "Lemma" + s[m.end(1):]
    open(path, "w").write(s)
    return m.group(2)

def one(mut, work):
    if os.path.exists(work):
        shutil.rmtree(work)
    shutil.copytree(BASE, work)
    f = work + "/theories/" + mut["file"]
    s = open(f).read()
    assert s.count(mut["old"]) == 1, (mut["id"], s.count(mut["old"]))
    open(f, "w").write(s.replace(mut["old"], mut["new"]))
    before = {g: os.path.getmtime(g) for g in glob.glob(work + "/theories/*.vo")}
    admitted = []
    for _ in range(400):
        out = run("coq_makefile -f _CoqProject -o Makefile >/dev/null; make -k -j4 COQC='timeout 400 coqc'", work, 4000)
        errs = ERR.findall(out)
        if not errs:
            stuck = re.findall(r"(theories/\w+)\.vo\] Error 124", out)
            if not stuck:
                if re.search(r"^Error|^make.*Error", out, re.M):
                    return admitted, None, out[-600:]
                break
            for x in stuck:
                o = run("timeout 400 coqc -Q theories Verif -time %s.v" % x, work, 500)
                last = re.findall(r"Chars (\d+) - (\d+)", o)
                n = admit(work + "/" + x + ".v", int(last[-1][1]) + 1)
                if not n:
                    return admitted, None, "stuck " + x
                admitted.append(n)
            continue
        for (p, line, a, b) in dict.fromkeys(errs):
            path = work + "/" + p
            data = open(path, "rb").read()
            lines = data.split(b"\n")
            pos = len(b"\n".join(lines[:int(line) - 1]).decode()) + 1 + int(a)
            n = admit(path, pos)
            if not n:
                return admitted, None, out[-800:]
            admitted.append(n)
    names = []
    for g in sorted(glob.glob(work + "/theories/Prop*.v")):
        mod = os.path.basename(g)[:-2]
        if os.path.getmtime(g + "o") == before.get(g + "o"):
            continue  # not rebuilt: depends on nothing that changed
        names += [(mod, m.group(1)) for m in re.finditer(r"^Theorem\s+(C\d\d+_\w+)", open(g).read(), re.M)]
    if not names:
        return admitted, [], None
    chk = "".join("From Verif Require %s.\n" % m for m in sorted({m for m, _ in names}))
    chk += "".join("Print Assumptions %s.%s.\n" % x for x in names)
    open(work + "/chk.v", "w").write(chk)
    out = run("timeout 900 coqc -Q theories Verif chk.v", work, 1000)
    blocks = re.findall(r"^(Closed under the global context|Axioms:)$", out, re.M)
    if len(blocks) != len(names):
        return admitted, None, out[-500:]
    return admitted, [n for (_, n), b in zip(names, blocks) if b == "Axioms:"], None

if __name__ == "__main__":
    muts = json.load(open(sys.argv[1]))
    work = sys.argv[3] if len(sys.argv) > 3 else "/tmp/mut/work"
    for m in muts:
        adm, failed, err = one(m, work)
        r = dict(m); r["lemmas_failed"] = adm; r["theorems_failed"] = failed
        if err:
            r["error"] = err
        open(sys.argv[2], "a").write(json.dumps(r) + "\n")
        print(m["id"], failed, err or "", flush=True)
