#!/usr/bin/env python3
"""Writes ASSUMPTIONS.md: what Print Assumptions lists for every theorem of MANIFEST.json (needs a finished build)."""
import json, os, re, subprocess, glob
root = os.path.abspath(os.path.join(os.path.dirname(os.path.abspath(__file__)), ".."))
where = {}
for f in sorted(glob.glob(root + "/rocq/theories/*_props.v")):
    for m in re.finditer(r"^Theorem\s+(C\d+_\w+)", open(f).read(), re.M):
        where[m.group(1)] = os.path.basename(f)[:-2]
names = [t for c in json.load(open(root + "/MANIFEST.json"))["claims"] for t in c["theorems"]]
src = "".join(f"From Verif Require {m}.\n" for m in sorted(set(where.values())))
for t in names:
    src += f'Goal True. idtac "@@{t}". Abort.\nPrint Assumptions {where[t]}.{t}.\n'
os.makedirs("/tmp/ax", exist_ok=True)
open("/tmp/ax/ax.v", "w").write(src)
out = subprocess.run(["coqc", "-w", "none", "-Q", root + "/rocq/theories", "Verif", "/tmp/ax/ax.v"], capture_output=True, text=True)
assert out.returncode == 0, out.stderr
groups = {}
for part in out.stdout.split("@@")[1:]:
    t, body = part.split("\n", 1)
    ax = tuple(sorted(re.findall(r"^([A-Za-z_][\w.']*)\s*(?::|$)", body, re.M))) if "Closed under" not in body else ()
    ax = tuple(a for a in ax if a != "Axioms")
    groups.setdefault(ax, []).append((t, where[t]))
with open(root + "/ASSUMPTIONS.md", "w") as f:
    f.write("# What `Print Assumptions` lists\n\nGenerated by `gen/mk_axioms.py` from the compiled files.\n")
    for ax, ts in sorted(groups.items(), key=lambda g: len(g[0])):
        f.write("\n## " + ("Closed under the global context" if not ax else ", ".join("`%s`" % a for a in ax)) + f" ({len(ts)} theorems)\n\n")
        for t, w in ts: f.write(f"* `{t}` ({w}.v)\n")
print({a: len(t) for a, t in groups.items()})
