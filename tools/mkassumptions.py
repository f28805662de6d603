"""Write the section of DESIGN.md which lists what Print Assumptions gives for each theorem of MANIFEST.json.
Needs a built /verif/rocq."""
import json, re, subprocess, os

R = "/verif/rocq/theories"
thms = []
for c in json.load(open("/verif/MANIFEST.json"))["claims"]:
    for t in c["theorems"]:
        if t not in thms:
            thms.append(t)
where = {}
for f in sorted(os.listdir(R)):
    if f.endswith(".v"):
        for n in re.findall(r"^(?:Theorem|Lemma|Corollary)\s+([\w']+)", open(f"{R}/{f}").read(), re.M):
            where.setdefault(n, []).append(f[:-2])
src = "".join(f"From Verif Require {m}.\n" for m in sorted({x for t in thms for x in where[t]}))
for t in thms:
    m = [x for x in where[t] if x.endswith("Props")] or where[t]
    src += f'Goal True. idtac "@@ {t}". Abort.\nPrint Assumptions {m[0]}.{t}.\n'
open("/tmp/pa.v", "w").write(src)
out = subprocess.run(["coqc", "-Q", ".", "Verif", "/tmp/pa.v"], cwd=R, capture_output=True, text=True)
assert out.returncode == 0, out.stderr
res = {}
for part in out.stdout.split("@@ ")[1:]:
    name, rest = part.split("\n", 1)
    ax = tuple(sorted(set(re.findall(r"^([A-Za-z_][\w.]*)\s*:", rest.replace("Axioms:", ""), re.M)))) if "Closed under" not in rest else ()
    res.setdefault(ax, []).append(name)
txt = "<!-- assumptions: generated by tools/mkassumptions.py -->\n"
for ax in sorted(res, key=len):
    head = "Closed under the global context (no axiom)" if not ax else "Depends on " + ", ".join(f"`{a}`" for a in ax)
    txt += f"\n* {head} — {len(res[ax])} theorems:\n  " + ", ".join(sorted(res[ax])) + ".\n"
txt += "\n<!-- end of assumptions -->\n"
p = "/verif/DESIGN.md"
s = open(p).read()
a, b = "<!-- assumptions", "<!-- end of assumptions -->\n"
if a in s:
    s = s[: s.index(a)] + txt + s[s.index(b) + len(b):]
else:
    s += "\n" + txt
open(p, "w").write(s)
print({k: len(v) for k, v in res.items()})
