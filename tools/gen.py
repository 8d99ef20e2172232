"""Regenerate rocq/_CoqProject and MANIFEST.json from the sources.

Theorem names are collected from theories/Properties/*.v by their Cnn prefix;
statuses and notes come from tools/notes.json ({"C01": ["proved", "note"]}).
"""
import json, os, re, glob
V = os.path.dirname(os.path.dirname(os.path.abspath(__file__)))
R = os.path.join(V, "rocq")
files = []
for d in ("Lib", "Spec", "Model", "Proofs", "Properties"):
    files += sorted(glob.glob(os.path.join(R, "theories", d, "*.v")))
with open(os.path.join(R, "_CoqProject"), "w") as f:
    f.write("-Q theories Verif\n")
    for p in files:
        f.write(os.path.relpath(p, R) + "\n")
thms = {}
for p in sorted(glob.glob(os.path.join(R, "theories", "Properties", "*.v"))):
    for m in re.finditer(r"^Theorem (C(\d\d\d?)_\w+)", open(p).read(), re.M):
        thms.setdefault("C" + m.group(2), []).append(m.group(1))
notes = json.load(open(os.path.join(V, "tools", "notes.json")))
claims = []
for line in open(os.path.join(V, "properties.jsonl")):
    i = json.loads(line)["id"]
    t = thms.get(i, [])
    st, note = notes.get(i, ["proved" if t else "partial", ""])
    if not t and i not in notes:
        continue
    claims.append({"property": i, "status": st, "theorems": t, "note": note})
with open(os.path.join(V, "MANIFEST.json"), "w") as f:
    json.dump({"claims": claims}, f, indent=1)
    f.write("\n")
print(len(files), "files;", sum(map(len, thms.values())), "theorems;", len(claims), "claims")
