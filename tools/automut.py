"""Wrong programs drawn at random: small edits of the definitions of the model.

usage: automut.py SEED COUNT FILE...   (COUNT edits in each of the files *Model.v)
For each edit the scratch copy is rebuilt; edits which do not type-check are dropped.
Killed edits are appended to seeded/LOG.jsonl; the others (and those noticed only by an
Example) are printed and stored in /tmp/auto_survivors.jsonl for inspection.
"""
import json, os, random, re, subprocess, sys, shutil

SRC, TMP, LOG = os.environ.get("MUT_SRC", "/verif/rocq"), "/tmp/automut_rocq", "/verif/seeded/LOG.jsonl"
TITLES = {d["id"]: d["title"] for d in map(json.loads, open("/verif/properties.jsonl"))}

RULES = [
    (r" <\? ", [" <=? "]), (r" <=\? ", [" <? "]), (r" =\? ", [" <=? "]),
    (r" \+ 1\b(?!\d)", [""]), (r" - 1\b(?!\d)", [""]), (r" \+ ", [" - "]), (r" - ", [" + "]),
    (r" && ", [" || "]), (r" \|\| ", [" && "]), (r"\bnegb ", [""]),
    (r"\btrue\b", ["false"]), (r"\bfalse\b", ["true"]),
    (r"\bfst\b", ["snd"]), (r"\bsnd\b", ["fst"]), (r"\brev ", [""]),
    (r"\bfirstn\b", ["skipn"]), (r"\bZ\.min\b", ["Z.max"]), (r"\bZ\.max\b", ["Z.min"]),
    (r" \* ", [" + "]), (r" / ", [" * "]), (r"\bmod\b", ["/"]),
    (r"(?<![\w.\"])0(?![\w.\"])", ["1"]), (r"(?<![\w.\"])1(?![\w.\"])", ["0", "2"]), (r"(?<![\w.\"])2(?![\w.\"])", ["1", "3"]),
    (r"\bNone\b(?= =>)", []), (r"\bxs?\b", []),
    (r"(\w+) \+\+ (\w+)", ["SWAP"]), (r"\bSome (\w+)(?= *$)", ["None"]), (r"\((\w+), (\w+)\)", ["PAIR"]),
]


def comments(s):
    """positions inside comments or strings of comments"""
    inside, depth, i = [False] * len(s), 0, 0
    while i < len(s):
        if s.startswith("(*", i):
            depth += 1
            inside[i] = inside[i + 1] = True
            i += 2
        elif s.startswith("*)", i) and depth:
            inside[i] = inside[i + 1] = True
            depth -= 1
            i += 2
        else:
            inside[i] = depth > 0
            i += 1
    return inside


HEAD = re.compile(r"^\s*(?:Local |Global )?(Theorem|Lemma|Corollary|Example|Definition|Fixpoint|Remark|Fact|Inductive|Record)\s+(\w+)")


def enclosing(text, line):
    name = (None, None)
    for i, l in enumerate(text.split("\n"), 1):
        if i > line:
            break
        m = HEAD.match(l)
        if m:
            name = m.groups()
    return name


def sites(s):
    com = comments(s)
    out = []
    for m in re.finditer(r"^(?:Definition|Fixpoint)\s+(\w+).*?\.$", s, re.M | re.S):
        body = s.index(":=", m.start()) if ":=" in m.group(0) else m.start()
        for pat, news in RULES:
            for x in re.finditer(pat, s[body:m.end()], re.M):
                a, b = body + x.start(), body + x.end()
                if com[a]:
                    continue
                for n in news:
                    if n == "SWAP":
                        n = f"{x.group(2)} ++ {x.group(1)}"
                    elif n == "PAIR":
                        n = f"({x.group(2)}, {x.group(1)})"
                    if n != s[a:b]:
                        out.append((m.group(1), a, b, n))
    return out


def depends_on(f, files, seen):
    if f in seen:
        return False
    seen.add(f)
    s = open(f"{TMP}/theories/{f}").read()
    deps = []
    for m in re.finditer(r"From Verif Require Import ([\w\s]+)\.", s):
        deps += [d + ".v" for d in m.group(1).split()]
    return any(d in files or depends_on(d, files, seen) for d in deps)


def attempt(f, site):
    name, a, b, new = site
    shutil.rmtree(TMP, ignore_errors=True)
    subprocess.run(["cp", "-a", SRC, TMP], check=True)
    p = f"{TMP}/theories/{f}"
    s = open(p).read()
    open(p, "w").write(s[:a] + new + s[b:])
    r = subprocess.run(["coqc", "-Q", "theories", "Verif", f"theories/{f}"], cwd=TMP, capture_output=True, text=True)
    if r.returncode:
        return None
    line = s.count("\n", 0, a) + 1
    old_line = s.split("\n")[line - 1].strip()
    new_line = (s[:a] + new + s[b:]).split("\n")[line - 1].strip()
    subprocess.run("coq_makefile -f _CoqProject -o Makefile", shell=True, cwd=TMP, check=True)
    r = subprocess.run(["timeout", "1200", "make", "-k", "-j2"], cwd=TMP, capture_output=True, text=True)
    out, to = r.stdout + r.stderr, r.returncode == 124
    failed = []
    for m in re.finditer(r'File "\./theories/(\w+\.v)", line (\d+), characters [\d-]+:\nError', out):
        ff, l = m.group(1), int(m.group(2))
        failed.append((ff,) + enclosing(open(f"{TMP}/theories/{ff}").read(), l))
    lost = [g for g in sorted(os.listdir(f"{TMP}/theories")) if g.endswith("Props.v") and g not in [x[0] for x in failed]
            and depends_on(g, [x[0] for x in failed], set())]
    return old_line, new_line, failed, lost, to


def props_of(failed, lost):
    ids = []
    for ff, kind, n in failed:
        m = re.match(r"(C\d\d)_", n or "")
        if m:
            ids.append(m.group(1))
    for g in [x[0] for x in failed if x[0].endswith("Props.v")] + lost:
        ids += re.findall(r"^(?:Theorem|Corollary)\s+(C\d\d)_", open(f"{TMP}/theories/{g}").read(), re.M)[:1]
    out = []
    for i in ids:
        if i not in out:
            out.append(i)
    return out


def main():
    seed, count = int(sys.argv[1]), int(sys.argv[2])
    for f in sys.argv[3:]:
        s = open(f"{SRC}/theories/{f}").read()
        rng = random.Random(f"{seed}-{f}")
        ss = sites(s)
        rng.shuffle(ss)
        done = 0
        used = {}
        for site in ss:
            if done >= count:
                break
            if used.get(site[0], 0) >= 1 + count // 4:
                continue
            res = attempt(f, site)
            if res is None:
                continue
            done += 1
            used[site[0]] = used.get(site[0], 0) + 1
            old, new, failed, lost, to = res
            edit = f"`{old}` replaced by `{new}`"
            rec = dict(definition=f"{site[0]} ({f})", edit=edit, claim_broken="", theorems_failed=[f"{n} ({ff})" for ff, _, n in failed],
                       property_files_not_built=lost, theorems_tightened=[])
            ids = props_of(failed, lost)
            rec["claim_broken"] = "; ".join(f"{i}: {TITLES.get(i, '')}" for i in ids[:3])
            if not failed or all(k == "Example" for _, k, _ in failed):
                print("SURVIVED" if not failed else "EXAMPLE-ONLY", site[0], f, edit, rec["theorems_failed"], "TIMEOUT" if to else "", flush=True)
                open("/tmp/auto_survivors.jsonl", "a").write(json.dumps(rec) + "\n")
            else:
                print("KILLED", site[0], f, edit, rec["theorems_failed"], flush=True)
                open(LOG, "a").write(json.dumps(rec) + "\n")


main()
