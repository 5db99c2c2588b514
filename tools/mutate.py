#!/usr/bin/env python3
"""Wrong-program tests.  usage: mutate.py mutants.json [-j N]

Each mutant: {"file", "definition", "old", "new", "claims": ["C01", ...], "edit": "words"}.
In a scratch copy of rocq/ the model is edited and every dependent file rebuilt; a proof that
no longer goes through is replaced by a hole (an axiom of its own), so that the files after it
are still checked.  At the end Print Assumptions of every theorem in MANIFEST.json tells which
theorems lost their proof.  Nothing of this happens in /verif."""
import json, os, re, subprocess, sys, shutil
from concurrent.futures import ThreadPoolExecutor
V = "/verif"; BASE = "/tmp/mut/base"
KW = r"^[ \t]*(?:Local )?(?:Theorem|Lemma|Corollary|Example|Fact|Instance|Global Instance)\s+(\w+)"

def sh(cmd, cwd, timeout):
    try:
        r = subprocess.run(cmd, cwd=cwd, timeout=timeout, stdout=subprocess.PIPE, stderr=subprocess.STDOUT, text=True, errors="replace")
        return r.returncode, r.stdout
    except subprocess.TimeoutExpired as e:
        out = e.stdout or b""
        return 124, out.decode(errors="replace") if isinstance(out, bytes) else out

def files(root):
    return [l.strip()[len("theories/"):-2] for l in open(root + "/_CoqProject") if l.strip().endswith(".v")]

def deps(root, fs):
    d = {}
    for f in fs:
        s = open(f"{root}/theories/{f}.v").read()
        d[f] = set()
        for m in re.finditer(r"From Verif Require (?:Import|Export)([^.]*)\.", s):
            d[f] |= set(m.group(1).split())
    return d

def prepare():
    """build the base copy, and learn which section variables each proof uses"""
    SUG = "/tmp/mut/sug"
    for d in (BASE, SUG):
        shutil.rmtree(d, ignore_errors=True); os.makedirs(d)
        subprocess.check_call(["cp", "-r", V + "/rocq/.", d])
        subprocess.check_call("rm -f theories/*.vo theories/*.vos theories/*.vok theories/*.glob theories/.*.aux .Makefile.d", shell=True, cwd=d)
    subprocess.check_call("coq_makefile -f _CoqProject -o Makefile && make -j4 >/dev/null", shell=True, cwd=BASE)
    subprocess.check_call(["cp", "-r", BASE + "/theories/.", SUG + "/theories"])
    using = {}
    for f in files(SUG):
        q = f"{SUG}/theories/{f}.v"; src = open(q).read()
        if not re.search(r"^Section", src, re.M): continue
        shutil.copy(f"{BASE}/theories/{f}.vo", "/tmp/mut/keep.vo")
        open(q, "w").write("Set Suggest Proof Using.\n" + src)
        rc, out = sh(["coqc", "-Q", "theories", "Verif", f"theories/{f}.v"], SUG, 1200)
        assert rc == 0, (f, out[-2000:])
        shutil.copy("/tmp/mut/keep.vo", f"{SUG}/theories/{f}.vo")
        for m in re.finditer(r"The proof of (\w+)\s+should start with one of the following commands:\s*Proof using ([^.]*)\.", out):
            using[f + "." + m.group(1)] = " ".join(m.group(2).split())
    json.dump(using, open(BASE + "/using.json", "w"))
    shutil.copy(V + "/MANIFEST.json", BASE + "/MANIFEST.json")

def statement_at(src, pos):
    best = None
    for m in re.finditer(KW, src, re.M):
        if m.start() <= pos: best = m
        else: break
    return best

def hole(root, f, pos, using):
    path = f"{root}/theories/{f}.v"; b = open(path, "rb").read()
    src = b.decode(); cpos = len(b[:pos].decode(errors="replace"))
    m = statement_at(src, cpos)
    if not m: return None
    end = re.compile(r"\b(Qed|Defined)\.").search(src, m.end())
    pr = re.compile(r"\bProof\b[^.]*\.").search(src, m.end())
    if not end or not pr or pr.start() > end.start() or cpos > end.end(): return None
    name = m.group(1)
    if "mut_hole_" in src[pr.start():end.end()]: return None
    u = using.get(f + "." + name)
    proof = (f"Proof using {u}." if u else "Proof.") + f" apply mut_hole_{f}_{name}. Qed."
    ax = f"Axiom mut_hole_{f}_{name} : forall P : Prop, P.\n"
    src = src[:m.start()] + ax + src[m.start():pr.start()] + proof + src[end.end():]
    open(path, "w").write(src)
    return name

def run(arg):
    i, mu = arg
    root = f"/tmp/mut/m{i}"
    shutil.rmtree(root, ignore_errors=True); subprocess.check_call(["cp", "-a", BASE, root])
    using = json.load(open(BASE + "/using.json"))
    p = f"{root}/theories/{mu['file']}.v"; s = open(p).read()
    res = dict(mu)
    if s.count(mu["old"]) < 1 or (s.count(mu["old"]) > 1 and not mu.get("all")): res["error"] = f"old text occurs {s.count(mu['old'])} times"; return res
    open(p, "w").write(s.replace(mu["old"], mu["new"]))
    fs = [f for f in files(root) if not f.startswith("UnitTests")]; d = deps(root, fs); dirty = set(); holes = []
    for f in fs:
        if not (f == mu["file"] or d[f] & dirty): continue
        dirty.add(f); ok = False
        for attempt in range(80):
            rc, out = sh(["coqc", "-time", "-Q", "theories", "Verif", f"theories/{f}.v"], root, 240)
            if rc == 0: ok = True; break
            src = open(f"{root}/theories/{f}.v", "rb").read()
            if rc == 124:
                cs = re.findall(r"^Chars \d+ - (\d+)", out, re.M); pos = int(cs[-1]) + 2 if cs else 0
            else:
                e = re.findall(r'File "[^"]*", line (\d+), characters (-?\d+)-(-?\d+):\s*\n(?!Warning)', out)
                if not e: res["error"] = f"{f}: {out[-500:]}"; break
                ln, c0, _ = map(int, e[-1]); lines = src.split(b"\n"); pos = sum(len(x) + 1 for x in lines[:ln - 1]) + max(c0, 0)
            n = hole(root, f, pos, using)
            if n is None: res["error"] = f"{f}: not in a proof: {out[-600:]}"; break
            holes.append(f + "." + n)
        if not ok: break
    res["holes"] = holes
    if "error" not in res:
        man = json.load(open(BASE + "/MANIFEST.json")); ths = sorted({t for c in man["claims"] for t in c["theorems"]})
        open(root + "/pa.v", "w").write("From Verif Require Import " + " ".join(fs) + ".\n" +
            "".join(f'Goal True. idtac "@@{t}". Abort.\nPrint Assumptions {t}.\n' for t in ths))
        rc, out = sh(["coqc", "-Q", "theories", "Verif", "pa.v"], root, 600)
        failed = []
        if rc != 0: res["error"] = "assumptions: " + out[-500:]
        for blk in out.split("@@")[1:]:
            if "mut_hole_" in blk: failed.append(blk.split()[0])
        res["failed"] = failed
        res["claims_failed"] = sorted({c["property"] for c in man["claims"] if set(c["theorems"]) & set(failed)})
        res["missed"] = [c for c in mu["claims"] if c not in res["claims_failed"]]
    shutil.rmtree(root, ignore_errors=True)
    return res

if __name__ == "__main__":
    if sys.argv[1] == "prepare": prepare(); sys.exit()
    mus = json.load(open(sys.argv[1])); j = int(sys.argv[3]) if len(sys.argv) > 3 else 3
    with ThreadPoolExecutor(j) as ex:
        for r in ex.map(run, enumerate(mus)):
            with open(sys.argv[1] + ".out", "a") as o: o.write(json.dumps(r) + "\n")
            print(r["definition"], "|", r.get("error", ""), "| failed", r.get("claims_failed"), "| MISSED", r.get("missed"), flush=True)
