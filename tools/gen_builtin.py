#!/usr/bin/env python3
"""Write rocq/theories/Builtin.v: the text of the built-in list (/repo/fallback.go), its rules
with characters outside ASCII and their ASCII forms, and the places where its rules have gaps.

usage: gen_builtin.py [fallback.go]"""
import sys
src = sys.argv[1] if len(sys.argv) > 1 else "/repo/fallback.go"
OUT = "/verif/rocq/theories/Builtin.v"
go = open(src, encoding="utf-8").read()
start = go.index("const hardcodedPSL string = `")
first_line = go[:start].count("\n") + 1
last_line = go.count("\n", 0, go.rindex("`")) + 1
lines = go[go.index("`", start) + 1 : go.rindex("`")].split("\n")

public, private, is_private = [], [], False
for line in lines:
    line = line.strip()
    if line == "// ===BEGIN PRIVATE DOMAINS===":
        is_private = True
    if line and not line.startswith("//"):
        (private if is_private else public).append(line)

def ascii_form(rule):
    return ".".join(l if l.isascii() else "xn--" + l.encode("punycode").decode() for l in rule.split("."))
unicode = [(r, ascii_form(r)) for r in public + private if not r.isascii()]
def both(rules):
    return [x for r in rules for x in ([r] if r.isascii() else [ascii_form(r), r])]

def gaps(rules):
    paths = [tuple(reversed(r.split("."))) for r in rules]
    known = {p[:n] for p in paths for n in range(1, len(p) + 1)}
    return sorted(p for p in known - set(paths) if p + ("*",) not in known)
def hidden(rules):
    paths = [tuple(reversed(r.split("."))) for r in rules]
    known = {p[:n] for p in paths for n in range(1, len(p) + 1)}
    return sorted({p[:n + 1] for p in paths for n in range(len(p) - 1)
                   if p[n] not in "*" and p[:n] + ("*",) in known})
dotted = lambda p: ".".join(reversed(p))
public_gaps, all_gaps = gaps(both(public)), gaps(both(public + private))
extra_gaps = [p for p in all_gaps if p not in public_gaps]
assert set(public_gaps) <= set(all_gaps) and hidden(both(public)) == []

q = lambda s: '"' + s.replace('"', '""') + '"'
out = []
w = out.append
w(f'''(** Builtin.v - the built-in list (fallback.go:{first_line}-{last_line}), as data.  Written by
    tools/gen_builtin.py. *)

From Verif Require Import Base.
Local Open Scope string_scope.

(** fallback.go:{first_line}-{last_line} hardcodedPSL, one string per line. *)''')
CHUNK = 500
names = []
for i in range(0, len(lines), CHUNK):
    names.append(f"lines{i // CHUNK}")
    w(f"Definition {names[-1]} : list string := [")
    w(";\n".join(q(l) for l in lines[i:i + CHUNK]) + "].")
w("Definition builtin_lines : list bytes := map str (" + " ++ ".join(names) + ")%list.")
w("""(** The constant itself. *)
Fixpoint text_of (lines : list bytes) : bytes :=
  match lines with
  | [] => []
  | [l] => l
  | l :: rest => (l ++ 10%N :: text_of rest)%list
  end.
Definition hardcoded_psl : bytes := text_of builtin_lines.""")
w("")
w("(** The rules with characters outside ASCII, in the order of the list, and their ASCII forms. *)")
w("Definition unicode_rules : list (bytes * bytes) := map (fun x => (str (fst x), str (snd x))) [")
w(";\n".join(f"({q(u)}, {q(a)})" for u, a in unicode) + "].")
w("")
w("(** Names that end some rule of the public section but are not rules. *)")
w("Definition public_gaps : list bytes := map str [\n" + ";\n".join(q(dotted(p)) for p in public_gaps) + "].")
w("(** The same for the whole list: these in addition. *)")
w("Definition private_gaps : list bytes := map str [\n" + ";\n".join(q(dotted(p)) for p in extra_gaps) + "].")
w("(** Names beside a wildcard that have rules below them. *)")
w("Definition hidden_names : list bytes := map str [\n" + ";\n".join(q(dotted(p)) for p in hidden(both(public + private))) + "].")
open(OUT, "w", encoding="utf-8").write("\n".join(out) + "\n")
