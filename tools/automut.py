#!/usr/bin/env python3
"""Systematic wrong-program tests.  usage: automut.py prepare | gen OUT.json [File ...] | run IN.json OUT.jsonl [-j N]

Every operator, comparison, constant and flag in the definitions of the models (*Model.v) is
changed in turn, one at a time.  In a scratch copy the dependent files are rebuilt until a
Theorem or Lemma no longer proves ("killed" by it); failing Examples do not count (they are
replaced by a hole) and the transcribed unit tests are not built.  A mutant after which
everything still proves is a "survivor": an equivalent program, or a gap in the theorems."""
import json, os, re, subprocess, sys, shutil
from concurrent.futures import ThreadPoolExecutor
V = "/verif"; B = "/tmp/am/base"
sys.path.insert(0, os.path.dirname(os.path.abspath(__file__)))
import mutate
from mutate import sh, files, deps, statement_at

OPS = [(r"<\?", "<=?"), (r"<=\?", "<?"), (r"(?<![<>])=\?", "<=?"), (r"\bnegb\b ", ""), (r"&&", "||"), (r"\|\|", "&&"),
       (r" \+ 1\b", " + 0"), (r" - 1\b", " - 0"), (r" \+ (?!1\b)", " - "), (r" - (?!1\b)", " + "), (r" \* ", " + "),
       (r"\btrue\b", "false"), (r"\bfalse\b", "true"), (r"(?<![\w.'])([02-9]|[1-9]\d+)(?![\w.'%])", None), (r"\(-1\)", "(-2)"),
       (r"\biadd\b", "isub"), (r"\bisub\b", "iadd"), (r"\bNULL\b", "1"), (r"\bto_size p\b ", "(fun z : Z => match p with P32 => z | P64 => z end) "), (r"\bto_int\b ", "id "), (r"\bto_u16\b ", "id "), (r"\bto_u8\b ", "id ")]

def strip_comments(s):
    out = []; d = 0; i = 0
    while i < len(s):
        if s.startswith("(*", i): d += 1; out.append("  "); i += 2; continue
        if s.startswith("*)", i) and d: d -= 1; out.append("  "); i += 2; continue
        out.append(s[i] if d == 0 or s[i] == "\n" else " "); i += 1
    return "".join(out)

def gen(out, only):
    M = []
    for path in sorted(os.listdir(V + "/rocq/theories")):
        f = path[:-2]
        if not path.endswith("Model.v") or (only and f not in only): continue
        src = open(f"{V}/rocq/theories/{path}").read(); s = strip_comments(src)
        for m in re.finditer(r"^(?:Definition|Fixpoint)\s+(\w+)([\s\S]*?)\.\n(?=\s*\n|[A-Z(]|\s*$)", s, re.M):
            body0 = s.find(":=", m.start(), m.end())
            if body0 < 0: continue
            for pat, new in OPS:
                for o in re.finditer(pat, s[body0 + 2:m.end()]):
                    a, b = body0 + 2 + o.start(), body0 + 2 + o.end()
                    old = src[a:b]; n = str(int(old) + 1) if new is None else new
                    line = src[src.rfind("\n", 0, a) + 1:src.find("\n", b)]
                    if re.match(r"\s*\|\s*[^=]*$", src[src.rfind("\n", 0, a) + 1:a]) and new is None: continue   # in a pattern
                    M.append(dict(file=f, definition=m.group(1), pos=a, end=b, old=old, new=n, line=line.strip()))
    json.dump(M, open(out, "w")); print(len(M), "mutants")

def prepare():
    shutil.rmtree(B, ignore_errors=True); os.makedirs(B)
    subprocess.check_call(["cp", "-r", V + "/rocq/.", B])
    subprocess.check_call("rm -f theories/*.vo theories/*.vos theories/*.vok theories/*.glob theories/.*.aux .Makefile.d", shell=True, cwd=B)
    subprocess.check_call("coq_makefile -f _CoqProject -o Makefile && make -j2 >/dev/null 2>&1", shell=True, cwd=B)

def run(arg):
    i, mu = arg
    root = f"/tmp/am/w{i}"
    shutil.rmtree(root, ignore_errors=True); subprocess.check_call(["cp", "-a", B, root])
    p = f"{root}/theories/{mu['file']}.v"; s = open(p).read()
    res = dict(mu)
    if s[mu["pos"]:mu["end"]] != mu["old"]: res["result"] = "stale"; return res
    open(p, "w").write(s[:mu["pos"]] + mu["new"] + s[mu["end"]:])
    fs = [f for f in files(root) if not f.startswith("UnitTests")]; d = deps(root, fs); dirty = set(); ex = []
    res["result"] = "survived"
    for f in fs:
        if not (f == mu["file"] or d[f] & dirty): continue
        dirty.add(f); stop = False
        for attempt in range(40):
            rc, out = sh(["bash", "-c", f"ulimit -v 5000000; exec coqc -time -Q theories Verif theories/{f}.v"], root, 150)
            if rc == 0: break
            src = open(f"{root}/theories/{f}.v", "rb").read()
            e = re.findall(r'File "[^"]*", line (\d+), characters (-?\d+)-(-?\d+):\s*\n(?!Warning)', out)
            if rc == 124 or not e:
                cs = re.findall(r"^Chars \d+ - (\d+)", out, re.M); pos = int(cs[-1]) + 2 if cs else 0
            else:
                ln, c0, _ = map(int, e[-1]); lines = src.split(b"\n"); pos = sum(len(x) + 1 for x in lines[:ln - 1]) + max(c0, 0)
            t = src.decode(); cp = len(src[:pos].decode(errors="replace")); m = statement_at(t, cp)
            name = m.group(1) if m else None; kind = m.group(0).split()[0] if m else None
            endm = re.compile(r"\b(Qed|Defined)\.").search(t, m.end()) if m else None
            inside = m and endm and cp <= endm.end()
            if inside and kind == "Example":
                n = mutate.hole(root, f, pos, {})
                if n: ex.append(f + "." + n); continue
            res["result"] = "killed" if inside else "error"; res["by"] = f"{f}.{name}" if inside else out[-300:]
            if rc == 124: res["timeout"] = True
            stop = True; break
        if stop: break
    res["examples"] = ex
    shutil.rmtree(root, ignore_errors=True)
    return res

if __name__ == "__main__":
    if sys.argv[1] == "prepare": prepare()
    elif sys.argv[1] == "gen": gen(sys.argv[2], sys.argv[3:])
    else:
        mus = json.load(open(sys.argv[2])); j = int(sys.argv[5]) if len(sys.argv) > 5 else 2
        done = set()
        if os.path.exists(sys.argv[3]):
            for l in open(sys.argv[3]): r = json.loads(l); done.add((r["file"], r["pos"], r["new"]))
        todo = [(i, m) for i, m in enumerate(mus) if (m["file"], m["pos"], m["new"]) not in done]
        with ThreadPoolExecutor(j) as x:
            for r in x.map(run, todo):
                with open(sys.argv[3], "a") as o: o.write(json.dumps(r) + "\n")
                print(r["file"], r["definition"], repr(r["old"]), "->", repr(r["new"]), "|", r["line"][:70], "|", r["result"], r.get("by", "")[:100], flush=True)
