#!/usr/bin/env python3
"""Wrong-program tests on the C text.  usage: srcmut.py OUT.jsonl [-j N] [-n SAMPLE] [SrcFile ...]

Every operator, comparison, constant and some names in the functions of a C file are changed in
turn in a copy of /repo/mulib, the copy is translated with c2v.py, and the theorems about that
file's text are rebuilt in a scratch copy of the theories until a Theorem or Lemma fails
("killed" by it).  Mutants whose translation is unchanged (comments, dead text) are skipped."""
import json, os, random, re, subprocess, sys, shutil
from concurrent.futures import ThreadPoolExecutor
V = "/verif"; B = "/tmp/sm/base"
CHAINS = {
 'SrcQueue': ('mu_queue.c', ['QueueSrc', 'QueueSrcProps']),
 'SrcMqueue': ('mu_mqueue.c', ['TaskSrc', 'TaskSrcProps', 'MqueueSrc', 'MqueueSrcProps']),
 'SrcBisync': ('mu_bisync.c', ['BisyncSrc', 'BisyncSrcProps']),
 'SrcArray': ('mu_array.c', ['ArraySrc', 'ArraySrcProps']),
 'SrcSpsc': ('mu_spsc.c', ['SpscSrc', 'SpscThreads', 'SpscSrcProps']),
 'SrcSched': ('mu_sched.c', ['SchedSrc', 'SchedSrc2', 'SchedSrc3', 'SchedSrc4', 'SchedSrc5', 'SchedSrc6', 'SchedSrcProps']),
 'SrcJems': ('mu_jems.c', ['JemsSrc', 'JemsSrcProps']),
 'SrcLog': ('mu_log.c', ['LogSrc', 'LogSrcProps']),
 'SrcBvec': ('mu_bbuf.c', ['BbufSrc'] + ['BbufSrc%d' % i for i in range(2, 10)] + ['BbufSrcProps', 'BvecSrcProps', 'BbufSrcUB', 'BbufSrcUB2', 'BbufSrcUBProps']),
}
OPS = [(r"(?<![<>=!-])<(?![<=])", ["<=", ">"]), (r"(?<![<>-])>(?![>=])", [">=", "<"]), (r"<=", ["<"]), (r">=", [">"]), (r"==", ["!="]), (r"!=", ["=="]),
       (r"&&", ["||"]), (r"\|\|", ["&&"]), (r"(?<!\+)\+(?![+=])", ["-"]), (r"(?<!-)-(?![->=])", ["+"]), (r"\+\+", ["--"]), (r"--", ["++"]),
       (r"(?<!&)&(?!&)(?= )", ["|"]), (r" % ", [" / "]), (r" \* ", [" + "]), (r" / ", [" * "]), (r"\+=", ["-="]), (r"-=", ["+="]), (r"<<", [">>"]), (r">>", ["<<"]),
       (r"!(?!=)", [""]), (r"\btrue\b", ["false"]), (r"\bfalse\b", ["true"]), (r"\bNULL\b", ["(void *)1"]), (r"(?<![\w.'])\d+\b(?!\w)", [None])]

def blank(s):   # comments, strings and preprocessor lines become spaces
    def sp(m): return re.sub(r"[^\n]", " ", m.group(0))
    s = re.sub(r"/\*[\s\S]*?\*/|//[^\n]*", sp, s)
    s = re.sub(r"^\s*#.*(?:\\\n.*)*", sp, s, flags=re.M)
    return re.sub(r'"(?:\\.|[^"\n])*"', sp, s)

def muts(cf):
    src = open(f"/repo/mulib/{cf}").read(); s = blank(src); M = []
    def add(a, b, n):
        ln = src.count("\n", 0, a) + 1
        M.append(dict(c=cf, line=ln, pos=a, end=b, old=src[a:b], new=n, text=src.split("\n")[ln - 1].strip()))
    for pat, news in OPS:
        for o in re.finditer(pat, s):
            for n in news: add(o.start(), o.end(), str(int(o.group(0)) + 1) if n is None else n)
    # a statement dropped: an assignment, a call, a return
    for o in re.finditer(r"(?<=[;{}\n])[ \t]*((?:[\w.>\[\]*()-]+ [+-]?= [^;{}]+|[\w>.-]+(?:\+\+|--)|\w+\([^;{}]*\)|break|continue);)", s):
        if re.match(r"return|typedef|static", o.group(1)): continue
        add(o.start(1), o.end(1), ";")
    return M

def sh(cmd, cwd): return subprocess.run(cmd, shell=True, cwd=cwd, capture_output=True, text=True)
def statement_at(f, line):
    ls = open(f).read().split("\n")[:line]
    for l in reversed(ls):
        m = re.match(r"\s*(Theorem|Lemma|Corollary|Example|Definition|Fixpoint)\s+([\w']+)", l)
        if m: return m.groups()
    return ("?", "?")

def run(arg):
    i, src, mu = arg; root = f"/tmp/sm/w{i}"; shutil.rmtree(root, ignore_errors=True); os.makedirs(root + "/repo")
    subprocess.check_call(["cp", "-r", "/repo/mulib", root + "/repo/"])
    p = f"{root}/repo/mulib/{mu['c']}"; s = open(p).read()
    open(p, "w").write(s[:mu["pos"]] + mu["new"] + s[mu["end"]:])
    os.makedirs(root + "/t")
    r = sh(f"python3 {V}/tools/c2v.py {root}/repo {root}/t {src}", root); res = dict(mu, src=src)
    try:
        if r.returncode: res["result"] = "untranslatable"; return res
        strip = lambda f: re.sub(r"\(\*.*?\*\)", "", open(f).read())
        if strip(f"{root}/t/{src}.v") == strip(f"{B}/{src}.v"): res["result"] = "same"; return res
        for f in os.listdir(B):
            if f.endswith(".vo") and f[:-3] not in [src] + CHAINS[src][1]: os.symlink(f"{B}/{f}", f"{root}/t/{f}")
        for f in [src] + CHAINS[src][1]:
            if f != src: shutil.copy(f"{B}/{f}.v", f"{root}/t/{f}.v")
            while True:
                r = sh(f"ulimit -v 7000000; timeout 400 coqc -Q . Verif {f}.v", root + "/t")
                if r.returncode == 0: break
                m = re.search(r"line (\d+)", r.stderr); 
                if not m: res.update(result="error", msg=r.stderr[-300:]); return res
                k, n = statement_at(f"{root}/t/{f}.v", int(m.group(1)))
                if k == "Example":   # an Example does not count: replace its proof by nothing
                    t = open(f"{root}/t/{f}.v").read()
                    t2 = re.sub(r"Example " + n + r"\b[\s\S]*?Qed\.", "", t, 1)
                    if t == t2: res.update(result="error", msg=n); return res
                    open(f"{root}/t/{f}.v", "w").write(t2); continue
                res.update(result="killed", by=f"{f}.{n}"); return res
        res["result"] = "survived"; return res
    finally: shutil.rmtree(root, ignore_errors=True)

if __name__ == "__main__":
    out = sys.argv[1]; j = 2; only = []; k = None
    a = sys.argv[2:]
    while a:
        if a[0] == "-j": j = int(a[1]); a = a[2:]
        elif a[0] == "-n": k = int(a[1]); a = a[2:]
        else: only.append(a[0]); a = a[1:]
    shutil.rmtree(B, ignore_errors=True); os.makedirs(os.path.dirname(B), exist_ok=True); shutil.copytree(V + "/rocq/theories", B)
    jobs = [(i, s, m) for i, (s, m) in enumerate((s, m) for s in (only or CHAINS) for m in muts(CHAINS[s][0]))]
    if k and k < len(jobs): jobs = random.Random(1).sample(jobs, k)
    print(len(jobs), "mutants", flush=True); n = {}
    with open(out, "w") as o, ThreadPoolExecutor(j) as ex:
        for r in ex.map(run, jobs):
            o.write(json.dumps(r) + "\n"); o.flush(); n[r["result"]] = n.get(r["result"], 0) + 1
    print(n)
