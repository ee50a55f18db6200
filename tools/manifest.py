"""Regenerate MANIFEST.json and rocq/_CoqProject from the sources.

The theorems of a property are the Theorem sentences named Cnn_* in rocq/theories/Props.
"""
import glob
import json
import re

ROOT = "/verif"
notes = json.load(open(f"{ROOT}/tools/notes.json"))
ids = [json.loads(line)["id"] for line in open(f"{ROOT}/properties.jsonl") if line.strip()]

theorems = {}
for f in sorted(glob.glob(f"{ROOT}/rocq/theories/Props/*.v")):
    for name in re.findall(r"^Theorem (C\d+_\w+)", open(f).read(), re.M):
        theorems.setdefault(name.split("_")[0], []).append(name)

claims = []
for i in ids:
    th = theorems.get(i, [])
    note = notes.get(i, "")
    if not th:
        status = "partial"
        note = note or "Not proved yet."
    elif any("_partial" in t or "_refuted" in t for t in th):
        status = "partial"
    else:
        status = "proved"
    claims.append({"property": i, "status": status, "theorems": th, "note": note})
claims = [c for c in claims if c["theorems"]]
json.dump({"claims": claims}, open(f"{ROOT}/MANIFEST.json", "w"), indent=1)

files = []
for d in ("Model", "Spec", "Facts", "Props"):
    files += sorted(glob.glob(f"{ROOT}/rocq/theories/{d}/*.v"))
with open(f"{ROOT}/rocq/_CoqProject", "w") as out:
    out.write("-Q theories Verif\n")
    for f in files:
        out.write("theories/" + f.split("/theories/")[1] + "\n")
missing = [i for i in ids if i not in theorems]
extra = [i for i in theorems if i not in ids]
print("claims", len(claims), "missing", missing, "unknown", extra)
print("proved", sum(c["status"] == "proved" for c in claims),
      "partial", sum(c["status"] == "partial" for c in claims))
