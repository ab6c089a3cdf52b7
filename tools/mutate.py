#!/usr/bin/env python3
"""Try the theorems against a wrong model.

usage: mutate.py ID...        (the mutants are in seeded/mutants.py)

Copies rocq/ to a scratch directory, applies the edit, and compiles every file
that depends on it.  A proof that no longer goes through is replaced by
Admitted there, so that the compilation can go on; at the end the theorems of
the Prop files whose Print Assumptions is not closed are those that failed.
"""
import os, re, subprocess, sys, shutil, json, time
from concurrent.futures import ThreadPoolExecutor, FIRST_COMPLETED, wait

ROOT = os.path.abspath(os.path.join(os.path.dirname(__file__), ".."))
sys.path.insert(0, os.path.join(ROOT, "seeded"))
TIMEOUT = 240

def deps(work, files):
    out = subprocess.run(["coqdep", "-Q", "theories", "Verif"] + ["theories/%s.v" % f for f in files], cwd=work, capture_output=True, text=True).stdout
    d = {}
    for line in out.splitlines():
        m = re.match(r"theories/(\w+)\.vo .*?: (.*)", line)
        if m:
            d[m.group(1)] = [x for x in re.findall(r"theories/(\w+)\.vo\b", m.group(2)) if x != m.group(1)]
    return d

START = re.compile(r"^\s*(?:Local |Global )?(?:Lemma|Theorem|Example|Corollary|Fact|Remark)\s+(\w+)", re.M)

def admit_at(src, pos):
    """Replace the proof that contains pos by Admitted; returns (new source, name)."""
    last = None
    for m in START.finditer(src):
        if m.start() <= pos: last = m
        else: break
    if last is None: return None, None
    q = re.compile(r"\b(Qed|Defined|Admitted)\.").search(src, last.end())
    if q is None or q.start() + 5 < pos: return None, None
    p = re.compile(r"\bProof\b[^.]*\.").search(src, last.end())
    if p is None or p.start() > pos + 6: 
        return None, last.group(1)
    if q.group(1) == "Admitted": return None, last.group(1)
    return src[:p.start()] + "Admitted." + src[q.end():], last.group(1)

def drop_at(src, pos):
    """The statement itself does not compile: remove the theorem (and its Print Assumptions)."""
    last = None
    for m in START.finditer(src):
        if m.start() <= pos: last = m
        else: break
    if last is None: return None, None
    q = re.compile(r"\b(Qed|Defined|Admitted)\.").search(src, last.end())
    src = src[:last.start()] + src[q.end():]
    src = re.sub(r"Print Assumptions %s\." % last.group(1), "", src)
    return src, last.group(1)

def compile_file(work, f, log):
    path = os.path.join(work, "theories", f + ".v")
    tries = 0
    while True:
        tries += 1
        if tries > 60: return False
        try:
            r = subprocess.run(["coqc", "-time", "-Q", "theories", "Verif", "theories/%s.v" % f], cwd=work, capture_output=True, text=True, timeout=TIMEOUT)
            out, err, rc = r.stdout, r.stderr, r.returncode
        except subprocess.TimeoutExpired as e:
            out, err, rc = (e.stdout or b"").decode(), "", 124
        if rc == 0:
            log["out"][f] = out
            return True
        raw = open(path, "rb").read()
        if rc == 124:
            ends = [int(x) for x in re.findall(r"^Chars \d+ - (\d+) ", out, re.M)]
            pos = (max(ends) if ends else 0) + 2
            pos = len(raw[:pos].decode(errors="ignore"))
        else:
            m = re.search(r'line (\d+), characters (\d+)-(\d+)', err)
            if not m:
                log["stuck"].append((f, err[-300:])); return False
            lines = raw.decode().split("\n")
            pos = sum(len(l) + 1 for l in lines[:int(m.group(1)) - 1]) + len(lines[int(m.group(1)) - 1].encode()[:int(m.group(2))].decode(errors="ignore"))
        src = raw.decode()
        new, name = admit_at(src, pos)
        if new is None:
            if name is not None:
                new, name = drop_at(src, pos)
                if new is not None:
                    log["dropped"].append("%s.%s" % (f, name))
            if new is None:
                log["stuck"].append((f, err[-300:])); return False
        else:
            log["admitted"].append("%s.%s" % (f, name))
        open(path, "w").write(new)

def run(mut, base):
    work = "/tmp/mut"
    shutil.rmtree(work, ignore_errors=True)
    shutil.copytree(base, work)
    files = [re.sub(r".*/(\w+)\.v", r"\1", l.strip()) for l in open(os.path.join(work, "_CoqProject")) if l.strip().endswith(".v")]
    for (f, old, new) in mut["edits"]:
        p = os.path.join(work, "theories", f + ".v")
        s = open(p).read()
        if s.count(old) != 1:
            print(mut["id"], "edit does not apply:", f, s.count(old)); return None
        open(p, "w").write(s.replace(old, new))
    d = deps(work, files)
    changed = set(f for (f, _, _) in mut["edits"])
    dirty = set(changed)
    grown = True
    while grown:
        grown = False
        for f in files:
            if f not in dirty and any(x in dirty for x in d[f]):
                dirty.add(f); grown = True
    for f in dirty:
        for ext in (".vo", ".vos", ".vok", ".glob"):
            try: os.remove(os.path.join(work, "theories", f + ext))
            except FileNotFoundError: pass
    log = {"out": {}, "admitted": [], "dropped": [], "stuck": []}
    done = set(f for f in files if f not in dirty); failed = set()
    pend = {}
    todo = [f for f in files if f in dirty]
    t0 = time.time()
    with ThreadPoolExecutor(3) as ex:
        while todo or pend:
            for f in list(todo):
                if any(x in failed for x in d[f]):
                    todo.remove(f); failed.add(f); continue
                if all(x in done for x in d[f]) and len(pend) < 3:
                    pend[ex.submit(compile_file, work, f, log)] = f; todo.remove(f)
            if not pend:
                continue
            ready, _ = wait(pend, return_when=FIRST_COMPLETED)
            for r in ready:
                f = pend.pop(r)
                (done if r.result() else failed).add(f)
    broken = []
    for f in sorted(x for x in dirty if x.startswith("Prop")):
        out = log["out"].get(f)
        if out is None:
            broken.append(f + " (whole file)"); continue
        # the output of Print Assumptions precedes its Chars line
        order = re.findall(r"Print Assumptions (\w+)\.", open(os.path.join(work, "theories", f + ".v")).read())
        cur, k = [], 0
        for line in out.splitlines():
            if re.match(r"Chars \d+ - \d+ \[Print~Assumptions", line):
                if not any("Closed under" in c for c in cur): broken.append(order[k])
                k += 1; cur = []
            elif line.startswith("Chars"): cur = []
            else: cur.append(line)
    names = {}
    for f in files:
        if f.startswith("Prop"):
            for n in re.findall(r"Print Assumptions (\w+)\.", open(os.path.join(base, "theories", f + ".v")).read()): names[n] = 1
    full = list(broken)
    for x in log["dropped"]:
        n = x.split(".")[1]
        if n in names and n not in full: full.append(n)
    cases = [x.split(".")[1] for x in log["admitted"] if x.startswith("Prop") and "_case" in x]
    return {"failed": sorted(full), "cases": cases, "lemmas": log["admitted"], "stuck": log["stuck"], "secs": round(time.time() - t0)}

def main():
    from mutants import MUTANTS
    base = "/tmp/mutbase"
    os.makedirs(base, exist_ok=True)
    subprocess.run(["rsync", "-a", "--delete", os.path.join(ROOT, "rocq") + "/", base + "/"]) if shutil.which("rsync") else (shutil.rmtree(base), shutil.copytree(os.path.join(ROOT, "rocq"), base))
    sel = sys.argv[1:]
    logf = os.path.join(ROOT, "seeded", "LOG.jsonl")
    seen = set()
    if os.path.exists(logf):
        seen = set(json.loads(l)["id"] for l in open(logf))
    for m in MUTANTS:
        if sel == ["all"]:
            if m["id"] in seen: continue
        elif m["id"] not in sel: continue
        r = run(m, base)
        if r is None: continue
        print(m["id"], r["secs"], "s", "failed:", r["failed"], "cases:", r["cases"], "stuck:", r["stuck"], flush=True)
        print("   lemmas:", r["lemmas"], flush=True)
        entry = {"id": m["id"], "definition": m["definition"], "edit": m["edit"], "breaks": m["breaks"],
                 "failed": r["failed"], "failed_cases": r["cases"], "tightened": m.get("tightened", [])}
        if "note" in m: entry["note"] = m["note"]
        open(logf, "a").write(json.dumps(entry) + "\n")

main()
