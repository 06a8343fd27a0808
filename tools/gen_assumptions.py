#!/usr/bin/env python3
"""Rewrites section 5 of DESIGN.md from the output of Print Assumptions.

Needs a finished build in rocq/."""
import os, re, subprocess

ROOT = os.path.dirname(os.path.dirname(os.path.abspath(__file__)))
TH = os.path.join(ROOT, "rocq", "theories")
files = re.findall(r"theories/(Prop\w+)\.v", open(os.path.join(ROOT, "rocq", "_CoqProject")).read())
groups = {}
total = 0
for f in files:
    names = re.findall(r"^Print Assumptions (\w+)\.", open(os.path.join(TH, f + ".v")).read(), re.M)
    src = "From Verif Require Import %s.\n" % f
    for n in names:
        src += 'Goal True. idtac "@@ %s". exact I. Qed.\nPrint Assumptions %s.\n' % (n, n)
    tmp = "/tmp/assumptions_query.v"
    open(tmp, "w").write(src)
    out = subprocess.run(["coqc", "-Q", TH, "Verif", tmp], capture_output=True, text=True, cwd="/tmp", check=True).stdout
    for part in out.split("@@ ")[1:]:
        name, _, rest = part.partition("\n")
        axioms = tuple(sorted(set(re.findall(r"^([A-Za-z_][\w.']*)\s*:?", rest.replace("Axioms:", ""), re.M))
                              - {"Closed"}))
        groups.setdefault(axioms, []).append(name.strip())
        total += 1
text = "## 5. Assumptions of the theorems\n\n"
text += "Result of `Print Assumptions` for all %d property theorems (generated by `tools/gen_assumptions.py`).\n" % total
for axioms in sorted(groups, key=len):
    names = groups[axioms]
    if not axioms:
        text += "\n* Closed under the global context: the %d theorems not listed below.\n" % len(names)
    else:
        text += "\n* Axioms of the standard library (`Reals`, used through Flocq) "
        text += ", ".join("`%s`" % a for a in axioms) + ":\n  "
        text += ", ".join("`%s`" % n for n in names) + ".\n"
p = os.path.join(ROOT, "DESIGN.md")
s = open(p).read()
i = s.index("## 5. Assumptions of the theorems")
j = s.find("\n## 6.", i)
s = s[:i] + text + (s[j:] if j >= 0 else "")
open(p, "w").write(s)
print(total, {k: len(v) for k, v in groups.items()})
