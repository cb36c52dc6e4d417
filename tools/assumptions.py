#!/usr/bin/env python3
"""Asks, of each *Props.v (all being built), `Print Assumptions` of its theorems and writes what each `Print Assumptions` answers to ASSUMPTIONS.md."""
import glob, os, re, subprocess, tempfile
R = "/verif/rocq"
groups = {}
for f in sorted(glob.glob(R + "/theories/*Props.v")):
    names = re.findall(r"^Print Assumptions (\w+)\.", open(f).read(), re.M)
    m = os.path.basename(f)[:-2]
    with tempfile.TemporaryDirectory() as d:
        q = os.path.join(d, "ask.v")
        with open(q, "w") as o:
            o.write("From Verif Require %s.\n" % m + "".join("Print Assumptions %s.%s.\n" % (m, n) for n in names))
        out = subprocess.run(["coqc", "-Q", "theories", "Verif", q], cwd=R, capture_output=True, text=True)
    assert out.returncode == 0, out.stderr[-2000:]
    answers = re.findall(r"^(Closed under the global context|Axioms:\n(?:(?!Closed under|Axioms:).*\n?)*)", out.stdout, re.M)
    assert len(answers) == len(names), (f, len(answers), len(names))
    for n, a in zip(names, answers):
        ax = tuple(sorted(re.findall(r"^([\w.]+)\s*:", a.split("\n", 1)[1], re.M))) if a.startswith("Axioms") else ()
        groups.setdefault(ax, []).append(n)
with open("/verif/ASSUMPTIONS.md", "w") as o:
    o.write("# What `Print Assumptions` answers for each theorem\n\nGenerated by tools/assumptions.py.\n")
    for ax in sorted(groups):
        o.write("\n## " + (", ".join("`%s`" % x for x in ax) if ax else "Closed under the global context") + "\n\n")
        o.write(", ".join(sorted(groups[ax])) + "\n")
