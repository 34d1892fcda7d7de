#!/usr/bin/env python3
"""Sweep of small edits over the model, in scratch copies.

usage: sweep.py SEED PER_FILE OUT.jsonl [FILES...]

Single tokens of rocq/theories/Model are replaced (comparisons, signs, constants, booleans, exceptions, fst/snd, strings), PER_FILE of them per
file, chosen at random. Each edit is built alone without Tests and examples; the declaration at which the build stops is printed, or that it passed.
Edits that the checker refuses in the edited file itself are discarded.
"""
import json, os, random, re, subprocess, sys, glob
from concurrent.futures import ThreadPoolExecutor

SRC, BASE, WORK = "/verif/rocq", "/tmp/sweep/base", "/tmp/sweep/w%d"
sys.path.insert(0, os.path.dirname(os.path.abspath(__file__)))
DECL = re.compile(r"^\s*(?:Local |Global )*(Theorem|Lemma|Corollary|Example|Remark|Fact|Definition|Fixpoint|Inductive|Record|Instance|Ltac)\s+([A-Za-z_][\w']*)", re.M)
RULES = [
    (r"(?<![\w.])0(?![\w.])", ["1"]), (r"(?<![\w.])1(?![\w.])", ["0", "2"]), (r"(?<![\w.])2(?![\w.])", ["1", "3"]), (r"(?<![\w.])4(?![\w.])", ["5"]),
    (r"<\?", ["<=?"]), (r"<=\?", ["<?"]), (r"=\?", ["<=?"]), (r" \+ ", [" - "]), (r" - ", [" + "]), (r"&&", ["||"]), (r"\|\|", ["&&"]),
    (r"\btrue\b", ["false"]), (r"\bfalse\b", ["true"]), (r"\bnegb\b", [""]), (r"\bfst\b", ["snd"]), (r"\bsnd\b", ["fst"]),
    (r"\b(?:ValueError|TypeError|KeyError|IndexError|NotImplementedError|OutOfBoundsError|ConcurrencyError|RuntimeError|FileNotFoundError|OSError)\b", ["AssertionError", "ValueError", "KeyError"]),
    (r"\bNORTH\b", ["SOUTH"]), (r"\bEAST\b", ["WEST"]), (r"\bSOUTH\b", ["NORTH"]), (r"\bWEST\b", ["EAST"]),
    (r"\bmax\b", ["min"]), (r"\bmin\b", ["max"]), (r"\brev\b", [""]), (r"\bSome\b", []), (r'"[^"\n]+"', ['"other"']),
    (r"\bAxX\b", ["AxY"]), (r"\bAxY\b", ["AxX"]), (r"\bix\b", ["iy"]), (r"\biy\b", ["ix"]), (r"\bforallb\b", ["existsb"]), (r"\bexistsb\b", ["forallb"]),
    (r"\bsrc\b", ["dst"]), (r"\bfilter\b", []), (r"\* ", ["+ "]), (r" mod ", [" / "]), (r" / ", [" mod "]),
]


def strip_comments(s):
    out, depth, i = [], 0, 0
    while i < len(s):
        if s.startswith("(*", i):
            depth += 1; i += 2; out.append("  ")
        elif s.startswith("*)", i) and depth:
            depth -= 1; i += 2; out.append("  ")
        else:
            out.append(s[i] if not depth or s[i] == "\n" else " "); i += 1
    return "".join(out)


def edits(path):
    s = strip_comments(open(path).read())
    ds = list(DECL.finditer(s))
    out = []
    for pat, news in RULES:
        for m in re.finditer(pat, s):
            line = s[s.rfind("\n", 0, m.start()) + 1: s.find("\n", m.start())]
            if re.match(r"\s*(From|Require|Import|Open|Local Open|Arguments|Notation|Infix|Variable|Section|End|Proof|Record|Inductive|  \w+ :)", line):
                continue
            d = [x for x in ds if x.start() <= m.start()]
            if not d or d[-1].group(1) in ("Lemma", "Theorem", "Inductive", "Record", "Ltac"):
                continue
            for n in news:
                if n != m.group(0): out.append((m.start(), m.end(), n, d[-1].group(2), line.strip()))
    return out


def without_examples(path):
    """examples beside the theorems are not to catch an edit: their proofs are cut off in the scratch copy"""
    s = open(path).read()
    t = strip_comments(s)
    for m in reversed([m for m in DECL.finditer(t) if m.group(1) == "Example"]):
        pr = re.compile(r"\bProof\b").search(t, m.end())
        q = re.compile(r"\b(Qed|Defined)\.").search(t, m.end())
        if pr and q and pr.start() < q.start():
            s = s[: pr.start()] + "Admit" + "ted." + "\n" * s.count("\n", pr.start(), q.end()) + s[q.end():]
    open(path, "w").write(s)


def decl_at(path, line):
    s = strip_comments(open(path).read())
    ds = [m for m in DECL.finditer(s) if s.count("\n", 0, m.start(2)) < line]
    return (ds[-1].group(1), ds[-1].group(2)) if ds else ("", "")


def run(cmd):
    return subprocess.run(cmd, shell=True, stdout=subprocess.PIPE, stderr=subprocess.STDOUT, text=True)


free = list(range(3))


def one(job):
    rel, (a, b, new, definition, line) = job
    w = WORK % free.pop()
    try:
        run(f"rm -rf {w}; cp -a {BASE} {w}")
        p = f"{w}/{rel}"
        s = open(p).read()
        t = s[:a] + new + s[b:]
        open(p, "w").write(t)
        ls = s.rfind("\n", 0, a) + 1
        rec = {"file": rel, "definition": definition, "line": s.count("\n", 0, a) + 1, "old": s[a:b], "new": new, "was": line,
               "now": t[ls: t.find("\n", ls)].strip()}
        r = run(f"cd {w} && timeout 3000 make -j1 2>&1")
        e = re.search(r'File "\./(theories/[^"]+)", line (\d+), characters [\d-]+:\n(?:Error[^\n]*|.*?Error[^\n]*)\n?([^\n]*)', r.stdout)
        errs = [x for x in re.finditer(r'File "\./(theories/[^"]+)", line (\d+), characters [\d-]+:\n(.*)', r.stdout) if x.group(3).startswith("Error")]
        if errs:
            f, l = errs[0].group(1), int(errs[0].group(2))
            if f == rel:
                return None
            kind, name = decl_at(f"{w}/{f}", l)
            rec["stopped"] = f"{kind} {f[9:-2]}.{name}"
        else:
            rec["stopped"] = "SURVIVED" if r.returncode == 0 else "? " + r.stdout[-300:]
        return rec
    finally:
        free.append(int(w[-1]))


def main():
    seed, per, out = int(sys.argv[1]), int(sys.argv[2]), sys.argv[3]
    files = sys.argv[4:] or sorted(os.path.basename(f)[:-2] for f in glob.glob(SRC + "/theories/Model/*.v"))
    random.seed(seed)
    if not os.path.exists(BASE):
        run(f"mkdir -p /tmp/sweep; cp -a {SRC} {BASE}; cd {BASE} && sed -i '/Tests/d' _CoqProject && coq_makefile -f _CoqProject -o Makefile")
        for f in glob.glob(BASE + "/theories/*/*.v"):
            without_examples(f)
        print(run(f"cd {BASE} && make -j4 2>&1 | tail -3").stdout)
    jobs = []
    for f in files:
        rel = f"theories/Model/{f}.v"
        es = edits(f"{SRC}/{rel}")
        jobs += [(rel, e) for e in random.sample(es, min(per, len(es)))]
    random.shuffle(jobs)
    print(len(jobs), "edits", flush=True)
    with ThreadPoolExecutor(3) as ex:
        for rec in ex.map(one, jobs):
            if rec:
                open(out, "a").write(json.dumps(rec) + "\n")


main()
