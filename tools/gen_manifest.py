"""Generates MANIFEST.json: theorem names are collected from rocq/theories/Properties/*.v by their Cxx_ prefix;
status and notes are kept in tools/status.json ({"C01": ["proved", "note"], ...})."""
import json, re, glob, os
root = os.path.dirname(os.path.dirname(os.path.abspath(__file__)))
status = json.load(open(os.path.join(root, "tools", "status.json")))
thms = {}
for f in sorted(glob.glob(os.path.join(root, "rocq/theories/Properties/*.v"))):
    src = open(f).read()
    for name in re.findall(r"^ *Theorem\s+((C\d\d+)_\w+)", src, flags=re.M):
        thms.setdefault(name[1], []).append(name[0])
claims = []
for line in open(os.path.join(root, "properties.jsonl")):
    pid = json.loads(line)["id"]
    if pid not in status:
        continue
    st, note = status[pid]
    claims.append({"property": pid, "status": st, "theorems": thms.get(pid, []), "note": note})
    if st != "not_applicable" and not thms.get(pid):
        print("WARNING: no theorems for", pid)
for pid in thms:
    if pid not in status:
        print("WARNING: theorems without status:", pid)
json.dump({"claims": claims}, open(os.path.join(root, "MANIFEST.json"), "w"), indent=1)
