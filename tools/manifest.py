"""Writes MANIFEST.json from the theorems named Cnn_* in rocq/theories and the
statuses and notes below."""
import json, os, re, glob

root = os.path.join(os.path.dirname(os.path.abspath(__file__)), "..")
names = {}
for path in sorted(glob.glob(os.path.join(root, "rocq/theories/*.v"))):
    for m in re.finditer(r"^Theorem (C\d\d)_(\w+)", open(path).read(), re.M):
        names.setdefault(m.group(1), []).append(m.group(1) + "_" + m.group(2))
props = [json.loads(l)["id"] for l in open(os.path.join(root, "properties.jsonl")) if l.strip()]
notes = json.load(open(os.path.join(root, "tools/notes.json")))
claims = []
for p in props:
    th = names.get(p, [])
    st, note = notes.get(p, ["proved" if th else "partial", ""])
    if not th:
        continue
    claims.append({"property": p, "status": st, "theorems": th, "note": note})
with open(os.path.join(root, "MANIFEST.json"), "w") as f:
    f.write('{"claims": [\n' + ",\n".join(json.dumps(c) for c in claims) + "\n]}\n")
print(len(claims), "claims,", sum(len(c["theorems"]) for c in claims), "theorems; without theorem:",
      [p for p in props if p not in names])
