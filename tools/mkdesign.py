"""Writes DESIGN.md."""
import json, re, os, sys
root = "/verif"
sys.path.insert(0, root + "/tools")
from design_how import HOW
props = [json.loads(l) for l in open(root + "/properties.jsonl")]
claims = {c["property"]: c for c in json.load(open(root + "/MANIFEST.json"))["claims"]}
files = [l.strip() for l in open(root + "/rocq/_CoqProject") if l.strip().endswith(".v")]
where = {}
for f in files:
    t = open(root + "/rocq/" + f).read()
    for m in re.finditer(r"^(?:Theorem|Lemma|Corollary|Example)\s+(\w+)", t, re.M):
        where.setdefault(m.group(1), os.path.basename(f))
out = [open(root + "/tools/design_head.md").read()]
out.append("## Layout (rocq/theories, in build order)\n\n| file | contents |\n| --- | --- |\n")
for f in files:
    t = open(root + "/rocq/" + f).read()
    m = re.match(r"\(\*+(.*?)\*\)", t, re.S)
    d = " ".join(m.group(1).split()) if m else ""
    s = re.split(r"(?<=[a-z)\]0-9])\.\s", d + " ")[0].strip()
    out.append("| `%s` | %s |\n" % (os.path.basename(f), s.replace("|", "/")))
out.append("\n## Properties: what is modelled, how it is proved, what is missing\n\n")
n = {}
for p in props:
    c = claims[p["id"]]
    n[c["status"]] = n.get(c["status"], 0) + 1
out.append("%d properties: %s.\n\n" % (len(props), ", ".join("%d %s" % (v, k) for k, v in sorted(n.items(), reverse=True))))
for p in props:
    c = claims[p["id"]]
    m, h = HOW[p["id"]]
    th = []
    for t in c["theorems"]:
        assert t in where, t
        th.append("`%s` (%s)" % (t, where[t]))
    out.append("* **%s %s** (%s).  Model: %s.  Proof: %s.  Theorems: %s.%s\n" % (
        p["id"], p["title"], c["status"], m, h, ", ".join(th),
        ("  Note: " + c["note"].rstrip(".") + ".") if c["note"] else ""))
out.append(open(root + "/tools/design_tail.md").read())
open(root + "/DESIGN.md", "w").write("".join(out))
