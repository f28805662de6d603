"""Apply wrong edits to the model in a scratch copy, rebuild, and log which theorems fail.

usage: mutate.py MUTANTS.json   (list of {file, old, new, definition, edit, claim})
Needs a built /verif/rocq.  Nothing is written in /verif but seeded/LOG.jsonl.
"""
import json, os, re, subprocess, sys, shutil, time

SRC = os.environ.get("MUT_SRC", "/verif/rocq")
TMP = "/tmp/mut_rocq"
LOG = "/verif/seeded/LOG.jsonl"


def enclosing(path, line):
    name = None
    for i, l in enumerate(open(path), 1):
        if i > line:
            break
        m = re.match(r"\s*(?:Local |Global |#\[\w+\] )?(?:Theorem|Lemma|Corollary|Example|Definition|Fixpoint|Remark|Fact)\s+(\w+)", l)
        if m:
            name = m.group(1)
    return name


def theorems_of(path):
    return re.findall(r"^(?:Theorem|Corollary)\s+(\w+)", open(path).read(), re.M)


def run(mut):
    shutil.rmtree(TMP, ignore_errors=True)
    subprocess.run(["cp", "-a", SRC, TMP], check=True)
    p = f"{TMP}/theories/{mut['file']}"
    s = open(p).read()
    n = s.count(mut["old"])
    assert n == 1, (mut["definition"], "pattern found", n)
    open(p, "w").write(s.replace(mut["old"], mut["new"]))
    subprocess.run("coq_makefile -f _CoqProject -o Makefile", shell=True, cwd=TMP, check=True)
    try:
        r = subprocess.run(["make", "-k", "-j2"], cwd=TMP, capture_output=True, text=True, timeout=1500)
        out = r.stdout + r.stderr
    except subprocess.TimeoutExpired as e:
        out = (e.stdout or b"").decode() + (e.stderr or b"").decode() + "\nTIMEOUT"
    failed = []
    for m in re.finditer(r'File "\./theories/(\w+\.v)", line (\d+)[^\n]*\n(?:Error|[^\n]*\n)', out):
        pass
    for m in re.finditer(r'File "\./theories/(\w+\.v)", line (\d+), characters [\d-]+:\nError', out):
        f, l = m.group(1), int(m.group(2))
        failed.append((f, enclosing(f"{TMP}/theories/{f}", l)))
    # property files which can no longer be built
    lost = []
    for f in sorted(os.listdir(f"{TMP}/theories")):
        if f.endswith("Props.v"):
            vo = f"{TMP}/theories/{f}o"
            src_vo = f"{SRC}/theories/{f}o"
            if f in [x for x, _ in failed]:
                continue
            if not os.path.exists(vo) or (os.path.getmtime(vo) == os.path.getmtime(src_vo) and depends_on(f, [x for x, _ in failed])):
                lost.append(f)
    return failed, lost, "TIMEOUT" in out


def depends_on(f, files, seen=None):
    seen = seen or set()
    if f in seen:
        return False
    seen.add(f)
    s = open(f"{TMP}/theories/{f}").read()
    deps = []
    for m in re.finditer(r"From Verif Require Import ([\w\s]+)\.", s):
        deps += [d + ".v" for d in m.group(1).split()]
    return any(d in files or depends_on(d, files, seen) for d in deps)


def main():
    for mut in json.load(open(sys.argv[1])):
        try:
            failed, lost, to = run(mut)
        except AssertionError as e:
            print("SKIP", e, flush=True)
            continue
        names = [f"{n} ({f})" for f, n in failed]
        rec = dict(definition=mut["definition"], edit=mut["edit"], claim_broken=mut["claim"],
                   theorems_failed=names, property_files_not_built=lost, theorems_tightened=mut.get("tightened", []))
        if mut.get("note"):
            rec["note"] = mut["note"]
        if not names:
            print("SURVIVED", mut["definition"], mut["edit"], to, flush=True)
            open("/tmp/survivors.jsonl", "a").write(json.dumps(rec) + "\n")
        else:
            print("KILLED", mut["definition"], names, lost, flush=True)
            open(LOG, "a").write(json.dumps(rec) + "\n")


main()
