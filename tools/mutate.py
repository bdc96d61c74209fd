#!/usr/bin/env python3
"""Test the theorems against wrong programs, outside /verif.

usage: mutate.py MUTANTS.py [id ...]

MUTANTS.py defines a list M of dicts: id, file (model file without .v), old, new, claims (ids of
the properties that are false of the edited program), edit (in words).  Instead of file, old and
new there may be edits, a list of such triples.  For each mutant the model
is copied to a scratch folder, edited and rebuilt.  Where a proof no longer goes through, it is
replaced by Admitted in the scratch copy, and building goes on; at the end, Print Assumptions
tells for every theorem of the Prop files whether it still has a proof.

Most theorems about Extract are proved through the index-free program of Walk.v and Parse.v.  A
mutant with equiv = True edits the model and this program alike; then the lemmas in EQUIV, which
say that the two agree, are taken for granted, so that a theorem counts as failed only if its
proof breaks for another reason.

The outcome is printed, one JSON object per mutant."""
import concurrent.futures, glob, json, os, re, shutil, subprocess, sys
SRC = "/verif/rocq"
WORK = "/tmp/mut"
START = re.compile(r"^\s*(?:Local |Global )?(Lemma|Theorem|Example|Corollary|Fact|Remark)\s+([\w']+)", re.M)

# Lemmas (by file) that relate the model of Extract to Walk.v and Parse.v.
EQUIV = {
    "WalkFacts": "suffix_loop_counts suffix_loop_skip suffix_loop_spec host_components_spec extract_host_outcome",
    "ParseFacts": "contains_low set_first set_remaining set_slashes set_path set_host_end set_user "
                  "index_any_from index_any_span scheme_slashes scheme_rest scheme_spec last_index_at "
                  "user_spec scan_plain scan_after scan_inside port_path_spec extract_rest_spec extract_spec",
}
EQUIV = {f"{f}.{x}" for f, s in EQUIV.items() for x in s.split()}

def sh(cmd, cwd, timeout=1500):
    return subprocess.run(cmd, cwd=cwd, shell=True, capture_output=True, text=True, timeout=timeout)

def files():
    return [l.strip()[9:-2] for l in open(WORK + "/base/_CoqProject") if l.startswith("theories/")]

def deps():
    d = {}
    for f in files():
        t = open(f"{WORK}/base/theories/{f}.v").read()
        d[f] = set(x for m in re.finditer(r"From Verif Require (?:Import|Export)\s+([^.]*)\.", t) for x in m.group(1).split())
    return d

def order(d):
    out = []
    def go(f):
        if f in out: return
        for x in sorted(d[f]): go(x)
        out.append(f)
    for f in d: go(f)
    return out

def admit_at(path, line):
    """Replace the proof around the line by Admitted; return the name of the lemma."""
    t = open(path).read()
    off = sum(len(l) + 1 for l in t.split("\n")[:line - 1])
    eol = t.find("\n", off)
    ms = [m for m in START.finditer(t) if m.start() <= (eol if eol >= 0 else len(t))]
    if not ms: return None
    m = ms[-1]
    e = re.compile(r"\b(Qed|Defined)\.").search(t, m.end())
    p = re.compile(r"\bProof\b[^.]*\.").search(t, m.end())
    if not e or not p or p.start() > e.start(): return None
    if "(*MUT*)" in t[m.start():e.end()]: return None
    t2 = t[:p.start()] + "Proof. Admitted. (*MUT*)" + "\n" * t[p.start():e.end()].count("\n") + t[e.end():]
    open(path, "w").write(t2)
    return m.group(2)

def run(mut):
    d = deps(); o = order(d)
    w = f"{WORK}/{mut['id']}"
    shutil.rmtree(w, ignore_errors=True)
    shutil.copytree(WORK + "/base", w)
    dirty = set()
    for file, old, new in mut.get("edits") or [(mut["file"], mut["old"], mut["new"])]:
        path = f"{w}/theories/{file}.v"
        t = open(path).read()
        n = t.count(old)
        if n != 1:
            return {"id": mut["id"], "bad": f"{file}: {n} occurrences of {old}"}
        open(path, "w").write(t.replace(old, new))
        dirty.add(file)
    granted = {x.split(".")[1] for x in EQUIV} if mut.get("equiv") else set()
    admitted = []; failed = []; bad = None; kept = []
    for f in o:
        if not (f in dirty or d[f] & dirty): continue
        if f == "RepoTests":
            r = sh(f"timeout 600 coqc -Q theories Verif theories/{f}.v", w)
            if r.returncode: admitted.append("RepoTests")
            continue
        dirty.add(f)
        for _ in range(80):
            r = sh(f"timeout 900 coqc -Q theories Verif theories/{f}.v", w)
            if r.returncode == 0: break
            m = re.search(r'line (\d+), characters', r.stderr)
            name = admit_at(f"{w}/theories/{f}.v", int(m.group(1))) if m else None
            if not name:
                bad = f"{f}: {r.stderr[:600]}"; break
            admitted.append(f + "." + name)
        else:
            bad = f"{f}: too many failures"
        if bad: break
        if f.startswith("Prop"):
            names = re.findall(r"^Print Assumptions (\S+)\.", open(f"{w}/theories/{f}.v").read(), re.M)
            blocks = re.findall(r"^(Closed under the global context|Axioms:|Section Variables:)((?:\n(?!Closed|Axioms:|Section).*)*)", r.stdout, re.M)
            assert len(names) == len(blocks), (f, len(names), len(blocks))
            for nm, b in zip(names, blocks):
                axioms = {x.split(".")[-1] for x in re.findall(r"^([\w.']+)(?=\s*:|\s*$)", b[1], re.M)}
                (failed if axioms - granted else kept).append(nm)
    shutil.rmtree(w, ignore_errors=True)
    res = {"id": mut["id"], "failed": failed, "claims": mut["claims"],
           "survived_claims": [c for c in mut["claims"] if not any(x.startswith(c + "_") for x in failed)],
           "kept": kept, "admitted": admitted}
    if bad: res["bad"] = bad
    return res

def main():
    ns = {}
    exec(open(sys.argv[1]).read(), ns)
    ids = sys.argv[2:]
    ms = [m for m in ns["M"] if not ids or m["id"] in ids]
    if not os.path.exists(WORK + "/base/stamp"):
        shutil.rmtree(WORK + "/base", ignore_errors=True)
        shutil.copytree(SRC, WORK + "/base")
        r = sh("coq_makefile -f _CoqProject -o Makefile && make -j4", WORK + "/base", 3000)
        assert r.returncode == 0, r.stderr
        open(WORK + "/base/stamp", "w").write("")
    with concurrent.futures.ThreadPoolExecutor(4) as ex:
        for r in ex.map(run, ms):
            print(json.dumps(r), flush=True)
if __name__ == "__main__":
    main()
