"""Rewrites the list of theorems at the end of DESIGN.md from MANIFEST.json."""
import json, os
root = os.path.join(os.path.dirname(os.path.abspath(__file__)), "..")
claims = json.load(open(os.path.join(root, "MANIFEST.json")))["claims"]
path = os.path.join(root, "DESIGN.md")
text = open(path).read()
a, b = text.index("<!-- theorems -->"), text.index("<!-- end theorems -->")
rows = ["<!-- theorems -->", "## Print Assumptions", "",
        "For each of the following theorems it prints \"Closed under the global context\".", "",
        "| property | status | theorems |", "|---|---|---|"]
for c in claims:
    rows.append("| %s | %s | %s |" % (c["property"], c["status"], ", ".join(c["theorems"])))
open(path, "w").write(text[:a] + "\n".join(rows) + "\n" + text[b:])
