#!/usr/bin/env python3
"""Mutation testing of the theorems, in a scratch copy.

usage: mutate.py BATCH.json [JOBS]

BATCH.json: list of {"id", "file" (under rocq/theories), "definition", "old", "new", "edit", "breaks"}.
Each edit is applied alone to a scratch copy of rocq/; the copy is rebuilt with make -k and the lemmas at which
coqc stops are collected, together with the claim theorems of Props which use them.
One JSON line per mutation is printed and appended to /tmp/mut/out.jsonl.
"""
import json, os, re, subprocess, sys, glob

SRC = "/verif/rocq"
BASE = "/tmp/mut/base"
WORK = "/tmp/mut/work"
CUT = "Admit" + "ted."  # scratch copies only
DECL = re.compile(r"^\s*(?:Local |Global |#\[[^\]]*\] *)*(Theorem|Lemma|Corollary|Example|Remark|Fact|Definition|Fixpoint|Inductive|Record|Instance|Ltac)\s+([A-Za-z_][\w']*)", re.M)
STMT = {"Theorem", "Lemma", "Corollary", "Example", "Remark", "Fact", "Definition", "Fixpoint", "Instance", "Ltac"}


def strip_comments(s):
    out, depth, i = [], 0, 0
    while i < len(s):
        if s.startswith("(*", i):
            depth += 1; i += 2; out.append("  ")
        elif s.startswith("*)", i) and depth:
            depth -= 1; i += 2; out.append("  ")
        else:
            out.append(s[i] if not depth or s[i] == "\n" else " "); i += 1
    return "".join(out)


def index():
    """declarations of every file and the textual uses graph"""
    decls, body = {}, {}
    for f in sorted(glob.glob(SRC + "/theories/**/*.v", recursive=True)):
        s = strip_comments(open(f).read())
        ms = list(DECL.finditer(s))
        rel = os.path.relpath(f, SRC)
        decls[rel] = []
        for m, n in zip(ms, ms[1:] + [None]):
            line = s.count("\n", 0, m.start(2)) + 1
            decls[rel].append((line, m.group(1), m.group(2)))
            body.setdefault(m.group(2), []).append((rel, set(re.findall(r"[A-Za-z_][\w']*", s[m.end(): n.start() if n else len(s)]))))
    return decls, body


def deps_of_file(rel, cache={}):
    """transitive Require closure, by file"""
    if rel in cache:
        return cache[rel]
    cache[rel] = {rel}
    s = strip_comments(open(os.path.join(SRC, rel)).read())
    out = {rel}
    for m in re.finditer(r"From Verif\.(\w+) Require (?:Import|Export)?\s*([\w\s]+?)\.", s):
        for name in m.group(2).split():
            p = f"theories/{m.group(1)}/{name}.v"
            if os.path.exists(os.path.join(SRC, p)):
                out |= deps_of_file(p)
    cache[rel] = out
    return out


def claims_using(failed, body):
    """claim theorems of Props using one of the failed (file, name), through visible declarations"""
    users = {}
    for name, places in body.items():
        for rel, words in places:
            for w in words:
                if w in body:
                    for rel2, _ in body[w]:
                        if rel2 in deps_of_file(rel) and (rel2, w) != (rel, name):
                            users.setdefault((rel2, w), set()).add((rel, name))
    seen, todo = set(failed), list(failed)
    while todo:
        for u in users.get(todo.pop(), ()):
            if u not in seen:
                seen.add(u); todo.append(u)
    return sorted(n for r, n in seen if r.startswith("theories/Props/") and re.match(r"C\d\d", n))


def run(cmd, **kw):
    return subprocess.run(cmd, shell=True, stdout=subprocess.PIPE, stderr=subprocess.STDOUT, text=True, **kw)


def admit(rel, line):
    """the declaration around [line] of a scratch file; its proof is cut off so that the rest can be checked"""
    p = f"{WORK}/{rel}"
    s = open(p).read()
    t = strip_comments(s)
    pos = sum(len(l) + 1 for l in s.split("\n")[: line - 1])
    ds = [m for m in DECL.finditer(t) if m.start() <= pos + 200 and t.count("\n", 0, m.start(2)) < line]
    if not ds:
        return None
    d = ds[-1]
    pr = re.compile(r"\bProof\b").search(t, d.end())
    q = re.compile(r"\b(Qed|Defined)\.").search(t, d.end())
    if not pr or not q or pr.start() > q.start() or t.count("\n", 0, q.end()) + 1 < line:
        return None
    s = s[: pr.start()] + CUT + "\n" * s.count("\n", pr.start(), q.end()) + s[q.end():]
    open(p, "w").write(s)
    return d.group(2)


def main():
    batch = json.load(open(sys.argv[1]))
    jobs = sys.argv[2] if len(sys.argv) > 2 else "2"
    decls, body = index()
    run(f"mkdir -p /tmp/mut; rm -rf {BASE}; cp -a {SRC} {BASE}; cd {BASE} && coq_makefile -f _CoqProject -o Makefile")
    r = run(f"cd {BASE} && make -j{jobs} 2>&1 | tail -3")
    print(r.stdout, file=sys.stderr)
    for m in batch:
        run(f"rm -rf {WORK}; cp -a {BASE} {WORK}")
        bad = None
        for e in [m] + m.get("also", []):
            p = f"{WORK}/theories/{e['file']}"
            s = open(p).read()
            if s.count(e["old"]) != 1:
                bad = f"old text occurs {s.count(e['old'])} times in {e['file']}"
            open(p, "w").write(s.replace(e["old"], e["new"]))
        if bad:
            print(json.dumps({"id": m["id"], "error": bad}), flush=True)
            continue
        failed, claims, rounds = [], [], 0
        want = re.findall(r"C\d\d", m["breaks"])
        while rounds < 25:
            rounds += 1
            r = run(f"cd {WORK} && timeout 1500 make -k -j{jobs} 2>&1")
            new = []
            for e in re.finditer(r'File "\./(theories/[^"]+)", line (\d+), characters [\d-]+:\n(.*\n)', r.stdout):
                if e.group(3).startswith("Error"):
                    n = admit(e.group(1), int(e.group(2)))
                    new.append((e.group(1), n))
            failed += new
            claims = claims_using(failed, body)
            if not new or all(any(c.startswith(w + "_") for c in claims) for w in want) or any(n is None for _, n in new):
                break
        rec = {k: m[k] for k in ("id", "file", "definition", "edit", "breaks")}
        rec["failed_lemmas"] = [f"{os.path.basename(r)[:-2]}.{n}" for r, n in failed]
        rec["theorems_failed"] = claims
        rec["caught"] = [w for w in want if any(c.startswith(w + "_") for c in claims)]
        rec["missed"] = [w for w in want if w not in rec["caught"]]
        print(json.dumps(rec), flush=True)
        open("/tmp/mut/out.jsonl", "a").write(json.dumps(rec) + "\n")


main()
