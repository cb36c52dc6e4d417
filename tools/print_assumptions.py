#!/usr/bin/env python3
"""Adds, in each *Props.v, the missing `Print Assumptions` line of each property theorem."""
import glob, re
for f in sorted(glob.glob("/verif/rocq/theories/*Props.v")):
    s = open(f).read()
    names = re.findall(r"^(?:Theorem|Corollary)\s+(C\d\d_\w+)", s, re.M)
    have = set(re.findall(r"^Print Assumptions (\w+)\.", s, re.M))
    miss = [n for n in names if n not in have]
    if miss:
        open(f, "w").write(s.rstrip("\n") + "\n" + "".join(f"Print Assumptions {n}.\n" for n in miss))
        print(f, len(miss))
