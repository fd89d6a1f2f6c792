"""Tests the theorems against wrong programs.

usage: mutate.py BASE WORK ID...      (or "all")
BASE is a built copy of rocq/, WORK a scratch directory.  For every mutant of
seeded/mutants.json the model is edited in WORK and rebuilt.  Every lemma,
theorem or example whose proof no longer passes is replaced by an axiom, so that
the rest is still checked; a theorem counts as "failed" when it is one of these
or, for the theorems of the claims the mutant is aimed at, when Print Assumptions
finds one of them below it.

"failed" therefore only says that the proof as written no longer goes through:
the statement may still be true of the edited model.  Where a mutant has a
"refute" entry {theorem: tactics}, the tactics prove "statement -> False" in the
edited model (hypothesis H, closed under the global context; the tactics of
seeded/prelude.txt may be used unless "prelude" is false); such theorems are
listed as "refuted" and their statements really exclude the bug.

One JSON line per mutant is printed.  With "--out FILE" lines are appended to
FILE and mutants already in it are skipped."""
import json, os, re, shutil, subprocess, sys, time

root = os.path.join(os.path.dirname(os.path.abspath(__file__)), "..")
HEAD = re.compile(r"^\s*(?:Local |Global |#\[\w+\] ?)*(Lemma|Theorem|Example|Corollary|Fact|Remark) (\w+'*)", re.M)


def theorems():
    man = json.load(open(os.path.join(root, "MANIFEST.json")))
    return {c["property"]: c["theorems"] for c in man["claims"]}


def enclosing(text, pos):
    last = None
    for m in HEAD.finditer(text):
        if m.start() > pos:
            break
        last = m
    if last is None:
        return None
    p = re.compile(r"\bProof\b").search(text, last.end())
    q = re.compile(r"\b(Qed|Defined|Admitted)\.").search(text, last.end())
    if p is None or q is None or pos < p.start() or pos > q.end():
        return None
    return last.group(2), p.start(), q.end()


def admit(path, pos):
    text = open(path).read()
    e = enclosing(text, pos)
    if e is None:
        return None
    name, a, b = e
    open(path, "w").write(text[:a] + "Admitted." + text[b:])
    return name


def offset(path, line, col):
    data = open(path, "rb").read().split(b"\n")
    pre = b"\n".join(data[: line - 1])
    return len(pre.decode()) + (1 if line > 1 else 0) + col


def build(work, limit=150):
    p = subprocess.run(["make", "-k", "-j4", f"COQC=timeout {limit} coqc"], cwd=work,
                       stdout=subprocess.PIPE, stderr=subprocess.STDOUT, text=True)
    return p.returncode, p.stdout


def timed_out(work, f):
    """Position of the sentence that does not terminate."""
    p = subprocess.run(["timeout", "120", "coqc", "-time", "-Q", "theories", "Verif", f], cwd=work,
                       stdout=subprocess.PIPE, stderr=subprocess.STDOUT, text=True)
    ends = [int(x) for x in re.findall(r"^Chars \d+ - (\d+) ", p.stdout, re.M)]
    raw = open(os.path.join(work, f), "rb").read()
    return len(raw[: (ends[-1] if ends else 0) + 1].decode(errors="ignore"))


def where_is(work):
    files = [os.path.basename(l.strip())[:-2] for l in open(os.path.join(work, "_CoqProject")) if l.strip().endswith(".v")]
    where = {}
    for f in files:
        for m in HEAD.finditer(open(os.path.join(work, "theories", f + ".v")).read()):
            where[m.group(2)] = f
    return files, where


def refutations(work, mu):
    """Theorems whose statement is false in the edited model, and the errors."""
    files, where = where_is(work)
    parts = re.split(r"^\(\* needs (\w+) \*\)$", open(os.path.join(root, "seeded/prelude.txt")).read(), flags=re.M)
    prelude = parts[0] + "".join(b for f, b in zip(parts[1::2], parts[2::2]) if f in files)
    if not mu.get("prelude", True):
        prelude = ""
    done, errors = [], {}
    for n, tac in mu.get("refute", {}).items():
        body = ("From Coq Require Import ZArith List Bool Lia String Ascii.\nFrom Verif Require Import "
                + " ".join(files) + ".\nImport ListNotations.\nOpen Scope Z_scope.\n" + prelude
                + f"Definition stmt := ltac:(let t := type of {where[n]}.{n} in exact t).\n"
                + f"Lemma refute : stmt -> False.\nProof. intros H. unfold stmt in H.\n{tac}\nQed.\nPrint Assumptions refute.\n")
        open(os.path.join(work, "Refute.v"), "w").write(body)
        p = subprocess.run(["timeout", "200", "coqc", "-Q", "theories", "Verif", "Refute.v"], cwd=work,
                           stdout=subprocess.PIPE, stderr=subprocess.STDOUT, text=True)
        if p.returncode == 0 and "Closed under the global context" in p.stdout:
            done.append(n)
        else:
            errors[n] = p.stdout[-1500:]
    return done, errors


def edit(work, mu):
    for f, old, new in mu.get("edits") or [[mu["file"], mu["old"], mu["new"]]]:
        path = os.path.join(work, "theories", f)
        text = open(path).read()
        if text.count(old) != mu.get("count", 1):
            return {"id": mu["id"], "error": f"{text.count(old)} occurrences of the edited text"}
        open(path, "w").write(text.replace(old, new))


def run_text(base, work, mu):
    """Mutants of the emitted text ("text": true).  Its proofs form one long chain,
    so instead of replacing one broken proof after the other the run records the
    first one (the files at its end are then not rebuilt: every theorem in them of the
    claims the mutant is aimed at counts as failed, as does what is refuted), and
    refutes statements with all proofs of the chain left out."""
    t0 = time.time()
    shutil.rmtree(work, ignore_errors=True)
    subprocess.run(["cp", "-a", base, work], check=True)
    bad = edit(work, mu)
    if bad:
        return bad
    p = subprocess.run(["make", "-j4", "COQC=timeout 300 coqc"], cwd=work, stdout=subprocess.PIPE,
                       stderr=subprocess.STDOUT, text=True)
    broken, problems = [], []
    for m in re.finditer(r'File "\./(theories/\w+\.v)", line (\d+), characters (\d+)-(\d+):\n(Error[^\n]*\n?[^\n]*)', p.stdout):
        path = os.path.join(work, m.group(1))
        e = enclosing(open(path).read(), offset(path, int(m.group(2)), int(m.group(3))))
        if e:
            broken.append(m.group(1)[9:-2] + "." + e[0])
        else:
            problems.append(m.group(0)[:300])
    broken += [m.group(1)[9:] + " (time)" for m in re.finditer(r"(theories/\w+)\.vo\] Error 124", p.stdout)]
    claims = theorems()
    ends, stated = ("PropEmit.v", "PropMoves.v", "PropText.v", "PropScope.v"), set()
    for f in os.listdir(os.path.join(work, "theories")):
        if f in ends:
            stated |= set(re.findall(r"^Theorem (\w+)", open(os.path.join(work, "theories", f)).read(), re.M))
        if f in ends or f == "PropToolchain.v" or (re.match(r"(Emit|RustLemmas)\w*\.v$", f) and f not in ("Emit.v", "EmitVocab.v")):
            path = os.path.join(work, "theories", f)
            text = re.sub(r"\bProof\b.*?\b(Qed|Defined)\.", "Admitted.", open(path).read(), flags=re.S)
            open(path, "w").write(text)
    rc, out = build(work)
    if rc != 0:
        problems.append(out[-800:])
    refuted, errors = refutations(work, mu) if rc == 0 else ([], {})
    failed = [t for c in mu["claims"] for t in claims[c] if p.returncode != 0 and (t in stated or t in refuted)]
    return {"id": mu["id"], "definition": mu["definition"], "edit": mu["edit"], "claim": mu["claim"],
            "broken_proofs": broken, "failed": failed, "claim_theorems_alive": {},
            "refuted": refuted, "refute_errors": errors, "problems": problems, "seconds": round(time.time() - t0)}


def run(base, work, mu):
    if mu.get("text"):
        return run_text(base, work, mu)
    shutil.rmtree(work, ignore_errors=True)
    subprocess.run(["cp", "-a", base, work], check=True)
    bad = edit(work, mu)
    if bad:
        return bad
    broken, problems, t0 = [], [], time.time()
    for _ in range(80):
        rc, out = build(work)
        if rc == 0:
            break
        did = False
        for m in re.finditer(r'File "\./(theories/\w+\.v)", line (\d+), characters (\d+)-(\d+):\n(Error[^\n]*\n?[^\n]*)', out):
            path = os.path.join(work, m.group(1))
            name = admit(path, offset(path, int(m.group(2)), int(m.group(3))))
            if name:
                broken.append(name)
                did = True
            else:
                problems.append(m.group(0)[:300])
        for m in re.finditer(r"(theories/\w+)\.vo\] Error 124", out):
            path = os.path.join(work, m.group(1) + ".v")
            name = admit(path, timed_out(work, m.group(1) + ".v"))
            if name:
                broken.append(name)
                did = True
            else:
                problems.append(m.group(0))
        if not did:
            problems.append(out[-500:])
            break
    claims = theorems()
    failed, alive = [], []
    if not problems:
        files = [os.path.basename(l.strip())[:-2] for l in open(os.path.join(work, "_CoqProject")) if l.strip().endswith(".v")]
        names = [t for c in mu["claims"] for t in claims.get(c, [])]
        body = "From Coq Require Import String.\nFrom Verif Require " + " ".join(files) + ".\n"
        where = {}
        for f in files:
            for m in HEAD.finditer(open(os.path.join(work, "theories", f + ".v")).read()):
                where[m.group(2)] = f
        names = [n for n in names if n in where]
        for n in names:
            body += f'Eval compute in ("@@{n}")%string.\nPrint Assumptions {where[n]}.{n}.\n'
        open(os.path.join(work, "Audit.v"), "w").write(body)
        p = subprocess.run(["coqc", "-Q", "theories", "Verif", "Audit.v"], cwd=work,
                           stdout=subprocess.PIPE, stderr=subprocess.STDOUT, text=True)
        for part in re.split(r'= "@@', p.stdout)[1:]:
            n = part[: part.index('"')]
            (alive if "Closed under the global context" in part else failed).append(n)
        others = {t for ts in claims.values() for t in ts} - set(names)
        failed += [t for t in broken if t in others]
        if len(alive) + len([t for t in failed if t in names]) != len(names):
            problems.append(p.stdout[-500:])
    refuted, errors = refutations(work, mu) if not problems else ([], {})
    return {"id": mu["id"], "definition": mu["definition"], "edit": mu["edit"], "claim": mu["claim"],
            "broken_proofs": broken, "failed": failed,
            "claim_theorems_alive": {c: [t for t in claims.get(c, []) if t in alive] for c in mu["claims"]},
            "refuted": refuted, "refute_errors": errors, "problems": problems, "seconds": round(time.time() - t0)}


if __name__ == "__main__":
    args = sys.argv[1:]
    out, seen = None, set()
    if "--out" in args:
        k = args.index("--out")
        path = args[k + 1]
        del args[k:k + 2]
        if os.path.exists(path):
            seen = {json.loads(l)["id"] for l in open(path) if l.strip()}
        out = open(path, "a")
    base, work, ids = args[0], args[1], args[2:]
    for mu in json.load(open(os.path.join(root, "seeded/mutants.json"))):
        if (mu["id"] in ids or ids == ["all"]) and mu["id"] not in seen:
            line = json.dumps(run(base, work, mu))
            print(line, file=out or sys.stdout, flush=True)
